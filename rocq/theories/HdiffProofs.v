(** Proofs about patches made with the HDiffPatch library. *)

From Coq Require Import ZArith List Bool Lia ZifyBool ZifyNat ZifyN.
From Verif Require Import Prelude Lib Spec PySize PyCrle Bsdiff BsdiffSpec BsdiffProofs PyCreate SizeCodec CrleProofs CodecExamples SeqApply CreateProofs SeqTrunc PyApply PySpec PyReader PyApplyProofs PySeq PyThms PyOtherSpec
  PyHdiff HdiffSpec.
Import ListNotations.
Open Scope Z_scope.

(** ** Headers *)

Lemma number_range : forall X number D, decompressor_of X number = Some D -> 0 <= number <= 6.
Proof.
  intros X number D. unfold decompressor_of. repeat match goal with |- context [?a =? ?b] => destruct (Z.eqb_spec a b) end; cbn [orb]; intros E; try lia. discriminate E.
Qed.

Lemma header_fields : forall t number, 0 <= t <= 2 -> 0 <= number <= 6 -> unpack_header (py_pack_header t number) = (t, number).
Proof.
  intros t number Ht Hn. assert (A : t = 0 \/ t = 1 \/ t = 2) by lia.
  assert (B : number = 0 \/ number = 1 \/ number = 2 \/ number = 3 \/ number = 4 \/ number = 5 \/ number = 6) by lia.
  destruct A as [->|[->| ->]]; destruct B as [->|[->|[->|[->|[->|[->| ->]]]]]]; reflexivity.
Qed.

Lemma hdiff_header : forall X F L M fuel clamps from number D n m file, decompressor_of X number = Some D -> - 2 ^ 63 < n < 2 ^ 63 -> - 2 ^ 63 < m < 2 ^ 63 ->
  apply_patch_any X F L M fuel clamps from (py_pack_header 2 number :: enc_size n ++ enc_size m ++ file) =
  if n =? 0 then Ret (HVal (n, []))
  else hbind (of_py (pr_decompress fuel m (pr_open D file))) (fun '(data, _) => hbind (lib_apply_patch L M fuel from data) (fun to => Ret (HVal (zlen to, to)))).
Proof.
  intros X F L M fuel clamps from number D n m file HD Hn Hm. unfold apply_patch_any. rewrite header_fields by (try lia; eapply number_range; eauto). cbn [Z.eqb].
  unfold apply_patch_hdiffpatch, read_header_hdiffpatch. rewrite header_fields by (try lia; eapply number_range; eauto). rewrite HD. change (negb (2 =? 2)) with false. cbn iota.
  unfold file_unpack_size. rewrite py_unpack_enc by exact Hn. cbn [pbind ret]. rewrite py_unpack_enc by exact Hm. cbn [pbind ret of_py hbind]. reflexivity.
Qed.

Lemma sequential_header : forall X F L M fuel clamps from number D n file, decompressor_of X number = Some D -> - 2 ^ 63 < n < 2 ^ 63 ->
  apply_patch_any X F L M fuel clamps from (py_pack_header 0 number :: enc_size n ++ file) =
  of_py (if n =? 0 then ret (n, []) else body_of_patch F fuel clamps from n D file).
Proof.
  intros X F L M fuel clamps from number D n file HD Hn. unfold apply_patch_any. rewrite header_fields by (try lia; eapply number_range; eauto). cbn [Z.eqb]. f_equal.
  unfold apply_patch_sequential, read_header_sequential. rewrite header_fields by (try lia; eapply number_range; eauto). rewrite HD. change (negb (0 =? 0)) with false. cbn iota.
  unfold file_unpack_size. rewrite py_unpack_enc by exact Hn. cbn [pbind ret]. destruct (n =? 0); reflexivity.
Qed.

(** ** The cache *)

Lemma cache_ends : forall malloc k fuel attempt size, (forall s, malloc (attempt + k)%nat s = true) -> (k < fuel)%nat -> 8192 <= size ->
  exists c, cache_loop fuel malloc attempt size = Ret c /\ 8192 <= c.
Proof.
  intros malloc. induction k as [|k IH]; intros fuel attempt size Hm Hf Hs; (destruct fuel as [|fuel]; [lia|]); cbn [cache_loop].
  - rewrite Nat.add_0_r in Hm. rewrite Hm. eauto.
  - destruct (malloc attempt size); [eauto|]. apply IH; [|lia|].
    + intros s. replace (Datatypes.S attempt + k)%nat with (attempt + Datatypes.S k)%nat by lia. apply Hm.
    + destruct (Z.leb_spec 16384 size); [|lia]. rewrite Z.shiftr_div_pow2 by lia. change (2 ^ 1) with 2. lia.
Qed.

Lemma cache_hangs : forall malloc, (forall k s, malloc k s = false) -> forall fuel attempt size, cache_loop fuel malloc attempt size = OutOfFuel.
Proof. intros malloc Hm. induction fuel as [|fuel IH]; intros attempt size; cbn [cache_loop]; [reflexivity|]. rewrite Hm. apply IH. Qed.

(** ** Applying what the library created *)

Lemma lib_apply : forall L M from to patch, lib_patch_for L from to patch -> memory_ok M (zlen to) ->
  exists n, forall fuel, (n <= fuel)%nat -> lib_apply_patch L M fuel from patch = Ret (HVal to).
Proof.
  intros L M from to patch (_ & _ & _ & A & B) (C & attempt & D). exists (Datatypes.S attempt). intros fuel Hf. unfold lib_apply_patch. rewrite A, Z.eqb_refl, C. cbn [negb].
  pose proof (zlen_nonneg from). unfold mem_cache.
  destruct (cache_ends (hm_malloc M) attempt fuel 0 (if zlen from + 2097152 <? 67108864 then zlen from + 2097152 else 67108864)) as (c & E & G); [exact D|lia| |].
  - destruct (Z.ltb_spec (zlen from + 2097152) 67108864); lia.
  - rewrite E. cbn [obind]. rewrite B by exact G. reflexivity.
Qed.

Lemma hdiff_applies : forall X F L M clamps number D from to patch stream tl, decompressor_of X number = Some D -> lib_patch_for L from to patch -> memory_ok M (zlen to) ->
  zlen to < 2 ^ 63 -> (exists R, contract D R /\ exists out, R (d_init D (zlen (stream ++ tl))) (stream ++ tl) (patch ++ out)) ->
  exists n, forall fuel, (n <= fuel)%nat ->
    apply_patch_any X F L M fuel clamps from (py_pack_header 2 number :: enc_size (zlen to) ++ enc_size (zlen patch) ++ stream ++ tl) = Ret (HVal (zlen to, to)).
Proof.
  intros X F L M clamps number D from to patch stream tl HD Hp HM Ht (R & R1 & out & R2). destruct (lib_apply L M from to patch Hp HM) as (n & Hn).
  destruct Hp as (Hp0 & Hp1 & Hp2 & _). pose proof (zlen_nonneg to). pose proof (zlen_nonneg patch).
  exists (n + Datatypes.S (2 * (length (stream ++ tl) + length (patch ++ out)) + 1))%nat. intros fuel Hf.
  rewrite (hdiff_header X F L M fuel clamps from number D) by (auto; change (2 ^ 63) with 9223372036854775808 in *; lia).
  destruct (Z.eqb_spec (zlen to) 0) as [E|E]; [apply zlen_0_nil in E; subst to; reflexivity|].
  assert (Hh : holds R fuel (pr_open D (stream ++ tl)) (patch ++ out)) by (split; [exact R2|cbn [pr_file pr_open]; lia]).
  destruct (pr_read D R R1 fuel _ (patch ++ out) [] patch out Hh) as [(out1 & r1 & A1 & A2 & A3 & A4)|(A1 & _)]; [apply app_nil_r| |congruence].
  rewrite A4. cbn [ret of_py hbind]. rewrite Hn by lia. reflexivity.
Qed.

(** ** Creation *)

Lemma pack_enc : forall v, - 2 ^ 63 < v < 2 ^ 63 -> py_pack_size v = Ret (Some (enc_size v)).
Proof. intros v Hv. exact (proj1 (py_size_codec_enc v [] Hv)). Qed.

Lemma generic_reads : forall L ffrom fto score block type use_mmap, readable use_mmap ffrom -> readable use_mmap fto ->
  create_generic L ffrom fto score block type use_mmap = Ret (lib_create_patch L (pf_content ffrom) (pf_content fto) score block type).
Proof.
  intros L ffrom fto score block type use_mmap Hf Ht. unfold create_generic. destruct use_mmap; [|reflexivity].
  destruct (Hf eq_refl) as (A & B), (Ht eq_refl) as (C & D). unfold mmap_read_only. rewrite A, C. cbn [negb].
  destruct (pf_content ffrom) as [|b f]; [congruence|]. cbn [hbind]. destruct (pf_content fto) as [|b1 f1]; [congruence|]. reflexivity.
Qed.

Lemma hdiff_file : forall X C L from to patch, compressor_ok X C -> lib_patch_for L from to patch -> zlen to < 2 ^ 63 ->
  exists D stream, decompressor_of X (cm_number C) = Some D /\ decodes D patch stream /\
    hdiff_patch_file C (zlen to) patch = Ret (HVal (py_pack_header 2 (cm_number C) :: enc_size (zlen to) ++ enc_size (zlen patch) ++ stream)).
Proof.
  intros X C L from to patch (D & HD & HC) (A1 & A2 & A3 & _) Ht. pose proof (zlen_nonneg to). pose proof (zlen_nonneg patch).
  destruct (HC [patch]) as (stream & S1 & S2); cbn [concat]; rewrite ?app_nil_r; auto. cbn [concat] in S2. rewrite app_nil_r in S2.
  exists D, stream. split; [exact HD|]. split; [exact S2|]. unfold hdiff_patch_file. rewrite !pack_enc by (change (2 ^ 63) with 9223372036854775808 in *; lia).
  cbn [of_step hbind]. rewrite S1. reflexivity.
Qed.

Lemma hdiff_file_applies : forall X F C L M clamps from to patch, compressor_ok X C -> lib_patch_for L from to patch -> zlen to < 2 ^ 63 -> memory_ok M (zlen to) ->
  exists file, hdiff_patch_file C (zlen to) patch = Ret (HVal file) /\
    exists n, forall fuel, (n <= fuel)%nat -> apply_patch_any X F L M fuel clamps from file = Ret (HVal (zlen to, to)).
Proof.
  intros X F C L M clamps from to patch HC Hp Ht HM. destruct (hdiff_file X C L from to patch HC Hp Ht) as (D & stream & A & (R & R1 & R2 & R3) & B).
  eexists. split; [exact B|]. destruct (hdiff_applies X F L M clamps (cm_number C) D from to patch stream []) as (n & Hn); auto.
  - exists R. split; [exact R1|]. exists []. rewrite !app_nil_r. exact R3.
  - exists n. intros fuel Hf. rewrite app_nil_r in Hn. apply Hn. exact Hf.
Qed.

(** Either the library created nothing (and this is reported, or ends the process), or
    the patch does what it is for. *)
Lemma hdiff_round_trip : forall X F C L M clamps bsdiff ffrom fto score block use_mmap, compressor_ok X C -> lib_ok L ->
  bytes_ok (pf_content ffrom) -> bytes_ok (pf_content fto) -> zlen (pf_content fto) < 2 ^ 63 -> memory_ok M (zlen (pf_content fto)) ->
  readable use_mmap ffrom -> readable use_mmap fto ->
  forall a, a = AHdiffpatch \/ a = AMatchBlocks ->
  (forall n, hl_diff L (pf_content ffrom) (pf_content fto) n 2 <> None) -> (forall n, hl_diff_stream L (pf_content ffrom) (pf_content fto) n 2 <> None) ->
  exists file, create_patch L C bsdiff ffrom fto a THdiffpatch score block use_mmap = Ret (HVal file) /\
    exists n, forall fuel, (n <= fuel)%nat -> apply_patch_any X F L M fuel clamps (pf_content ffrom) file = Ret (HVal (zlen (pf_content fto), pf_content fto)).
Proof.
  intros X F C L M clamps bsdiff ffrom fto score block use_mmap HC HL Hf Ht Hl HM Rf Rt a Ha N1 N2.
  assert (K : forall s b, exists patch, lib_create_patch L (pf_content ffrom) (pf_content fto) s b 2 = HVal patch /\ lib_patch_for L (pf_content ffrom) (pf_content fto) patch).
  { intros s b. unfold lib_create_patch, create_suffix_array, create_blocks. destruct (b =? 0).
    - destruct (hl_diff L _ _ s 2) as [p|] eqn:E; [|exfalso; exact (N1 _ E)]. exists p. split; [reflexivity|]. eapply HL; eauto.
    - destruct (hl_diff_stream L _ _ b 2) as [p|] eqn:E; [|exfalso; exact (N2 _ E)]. exists p. split; [reflexivity|]. eapply HL; eauto. }
  destruct Ha as [->| ->]; cbn [create_patch].
  - unfold create_hdiffpatch. rewrite generic_reads by auto. destruct (K score 0) as (patch & E & P). rewrite E. cbn [hbind]. eapply hdiff_file_applies; eauto.
  - unfold create_match_blocks. cbn [type_number]. rewrite generic_reads by auto. destruct (K 0 block) as (patch & E & P). rewrite E. cbn [hbind]. eapply hdiff_file_applies; eauto.
Qed.

(** Sequential patches made from the library's records. *)
Lemma blocks_round_trip : forall X F C L M clamps bsdiff ffrom fto score block use_mmap, compressor_ok X C -> lib_sequential_ok L ->
  bytes_ok (pf_content ffrom) -> bytes_ok (pf_content fto) -> readable use_mmap ffrom -> readable use_mmap fto ->
  (forall n, hl_diff L (pf_content ffrom) (pf_content fto) n 0 <> None) -> (forall n, hl_diff_stream L (pf_content ffrom) (pf_content fto) n 0 <> None) ->
  exists file, create_patch L C bsdiff ffrom fto AMatchBlocks TSequential score block use_mmap = Ret (HVal file) /\
    exists n, forall fuel, (n <= fuel)%nat -> apply_patch_any X F L M fuel clamps (pf_content ffrom) file = Ret (HVal (zlen (pf_content fto), pf_content fto)).
Proof.
  intros X F C L M clamps bsdiff ffrom fto score block use_mmap (D & HD & HC) HL Hf Ht Rf Rt N1 N2. cbn [create_patch]. unfold create_match_blocks. cbn [type_number].
  rewrite generic_reads by auto.
  assert (K : exists patch, lib_create_patch L (pf_content ffrom) (pf_content fto) 0 block 0 = HVal patch /\
    (hl_diff L (pf_content ffrom) (pf_content fto) 0 0 = Some patch \/ hl_diff_stream L (pf_content ffrom) (pf_content fto) block 0 = Some patch)).
  { unfold lib_create_patch, create_suffix_array, create_blocks. destruct (block =? 0).
    - destruct (hl_diff L _ _ 0 0) as [p|] eqn:E; [|exfalso; exact (N1 _ E)]. eauto.
    - destruct (hl_diff_stream L _ _ block 0) as [p|] eqn:E; [|exfalso; exact (N2 _ E)]. eauto. }
  destruct K as (patch & K1 & K2). rewrite K1. cbn [hbind].
  assert (K3 : bytes_ok patch /\ zlen patch < 2 ^ 62 /\ exists recs, patch = enc_recs recs /\ apply_recs (pf_content ffrom) 0 recs = Some (pf_content fto) /\ recs_fit recs /\
    (pf_content fto = [] \/ last_nonempty recs)) by (destruct K2 as [K2|K2]; eapply HL; eauto).
  destruct K3 as (P1 & P2 & recs & -> & P3 & P4 & P5). pose proof (apply_size _ _ _ _ P3) as Hz. pose proof P4 as (P6 & _). pose proof (recs_size_nonneg recs).
  rewrite Hz. rewrite !pack_enc by (change (2 ^ 63) with 9223372036854775808 in *; lia). cbn [of_step hbind].
  assert (Hb : concat [enc_size 0; enc_recs recs] = enc_body recs) by (cbn [concat]; rewrite app_nil_r; reflexivity).
  destruct (HC [enc_size 0; enc_recs recs]) as (stream & S1 & S2); rewrite ?Hb.
  - unfold enc_body. rewrite bytes_ok_app. split; [apply enc_size_bytes|exact P1].
  - apply enc_body_ne.
  - unfold enc_body. rewrite zlen_app. change (zlen (enc_size 0)) with 1. change (2 ^ 62) with 4611686018427387904 in *. change (2 ^ 63) with 9223372036854775808 in *. lia.
  - rewrite S1. cbn [of_step hbind]. rewrite Hb in S2. destruct S2 as (R & R1 & R2 & R3). eexists. split; [reflexivity|].
    destruct P5 as [P5|P5].
    + exists O. intros fuel _. rewrite (sequential_header X F L M fuel clamps _ _ D) by (auto; change (2 ^ 63) with 9223372036854775808 in *; lia).
      rewrite P5 in *. change (zlen (@nil Z)) with 0 in Hz. rewrite <- Hz. reflexivity.
    + exists (Datatypes.S (2 * (length stream + length (enc_body recs)) + 1)). intros fuel Hfu. pose proof (last_pos_size _ P5).
      rewrite (sequential_header X F L M fuel clamps _ _ D) by (auto; change (2 ^ 63) with 9223372036854775808 in *; lia). destruct (Z.eqb_spec (recs_size recs) 0); [lia|].
      destruct (body_spec _ R R1 F fuel clamps (pf_content ffrom) recs (pf_content fto) stream (enc_body recs) [] []) as [(r & out1 & B1 & B2 & B3)|(B1 & _)]; auto; [|congruence].
      rewrite B3. apply app_eq_nil in B1. destruct B1 as (-> & _). unfold pr_eof. rewrite (R2 _ _ B2). reflexivity.
Qed.

(** ** The compressions of the package itself *)

Lemma own_compressor_ok : forall X c hs,
  (c = CompHeatshrink -> hs_reader_ok (x_heatshrink X) /\ forall pieces, bytes_ok (concat pieces) -> py_stream CompHeatshrink (concat pieces) (hs pieces)) ->
  compressor_ok X (own_compressor c hs).
Proof.
  intros X c hs Hh. destruct (comp_dec X c) as (D & HD & H). exists D. split; [exact HD|]. intros pieces Hb Hne Hl.
  destruct (py_compress_stream c hs pieces) as (stream & S1 & S2 & _); auto; [intros E; apply (Hh E); exact Hb|].
  exists stream. cbn [own_compressor cm_compress]. rewrite S1. split; [reflexivity|]. apply H; auto. intros E. apply (Hh E).
Qed.

Lemma other_compressor_ok : forall X number compress, other_number number -> pair_ok compress (x_other X number) -> compressor_ok X (mkcm number compress).
Proof.
  intros X number compress Hn Hp. exists (x_other X number). split; [destruct Hn as [->|[->|[->| ->]]]; reflexivity|]. intros pieces Hb Hne _. apply Hp; assumption.
Qed.

(** ** Refusals *)

(** A patch for a from file of another size. *)
Lemma hdiff_other_source : forall X F C L M clamps from to patch other, compressor_ok X C -> lib_patch_for L from to patch -> zlen to < 2 ^ 63 -> to <> [] ->
  zlen other <> zlen from ->
  exists file, hdiff_patch_file C (zlen to) patch = Ret (HVal file) /\
    exists n, forall fuel, (n <= fuel)%nat -> apply_patch_any X F L M fuel clamps other file = Ret (HRaise OtherError).
Proof.
  intros X F C L M clamps from to patch other HC Hp Ht Hne Ho. destruct (hdiff_file X C L from to patch HC Hp Ht) as (D & stream & A & (R & R1 & R2 & R3) & B).
  eexists. split; [exact B|]. destruct Hp as (Hp0 & Hp1 & Hp2 & Hp3 & _). pose proof (zlen_nonneg to). pose proof (zlen_nonneg patch).
  exists (Datatypes.S (2 * (length stream + length patch) + 1))%nat. intros fuel Hf.
  rewrite (hdiff_header X F L M fuel clamps other (cm_number C) D) by (auto; change (2 ^ 63) with 9223372036854775808 in *; lia).
  destruct (Z.eqb_spec (zlen to) 0) as [E|E]; [apply zlen_0_nil in E; congruence|].
  assert (Hh : holds R fuel (pr_open D stream) patch) by (split; [exact R3|cbn [pr_file pr_open]; lia]).
  destruct (pr_read D R R1 fuel _ patch [] patch [] Hh) as [(out1 & r1 & A1 & A2 & A3 & A4)|(A1 & _)]; [reflexivity| |congruence].
  rewrite A4. cbn [ret of_py hbind]. unfold lib_apply_patch. rewrite Hp3. destruct (Z.eqb_spec (zlen other) (zlen from)); [congruence|]. reflexivity.
Qed.

(** A patch that has been cut off: for the compressions none and crle. *)
Lemma hdiff_truncated : forall X F L M clamps c hs from to patch, c = CompNone \/ c = CompCrle -> lib_patch_for L from to patch -> zlen to < 2 ^ 63 -> to <> [] ->
  exists file, hdiff_patch_file (own_compressor c hs) (zlen to) patch = Ret (HVal file) /\
    forall other k, 0 <= k < zlen file -> exists n, forall fuel, (n <= fuel)%nat -> apply_patch_any X F L M fuel clamps other (ztake k file) = Ret (HRaise DetoolsError).
Proof.
  intros X F L M clamps c hs from to patch Hc (Hp0 & Hp1 & Hp2 & Hp3 & _) Ht Hne. pose proof (zlen_nonneg to). pose proof (zlen_nonneg patch).
  destruct (py_compress_stream c hs [patch]) as (stream & S1 & S2 & _); cbn [concat]; rewrite ?app_nil_r; auto; [intros ->; destruct Hc; discriminate|].
  cbn [concat] in S2. rewrite app_nil_r in S2.
  assert (En : enc_size (zlen to) = enc_size (zlen to)) by reflexivity.
  exists (py_pack_header 2 (comp_number c) :: enc_size (zlen to) ++ enc_size (zlen patch) ++ stream). split.
  { unfold hdiff_patch_file. rewrite !pack_enc by (change (2 ^ 63) with 9223372036854775808 in *; lia). cbn [of_step hbind own_compressor cm_compress cm_number]. rewrite S1. reflexivity. }
  intros other k Hk. set (file := py_pack_header 2 (comp_number c) :: enc_size (zlen to) ++ enc_size (zlen patch) ++ stream) in *.
  pose proof (ztake_zdrop k file) as E. assert (Hcut : zdrop k file <> []).
  { intros Y. apply (f_equal zlen) in Y. rewrite zlen_zdrop in Y by lia. change (zlen (@nil Z)) with 0 in Y. lia. }
  destruct (ztake k file) as [|b l] eqn:El; [exists O; reflexivity|]. unfold file in E at 2. set (cut := zdrop k file) in *. clearbody cut. clear El.
  cbn [app] in E. injection E as -> E.
  assert (Hnum : 0 <= comp_number c <= 6) by (destruct c; cbn; lia).
  destruct (comp_dec X c) as (D0 & HD0 & _).
  (* where it has been cut *)
  destruct (Z.ltb_spec (zlen l) (zlen (enc_size (zlen to)))) as [L1|L1].
  { symmetry in E. destruct (app_split _ _ _ _ E) as (c1 & E1 & E2); [lia|]. exists O. intros fuel _. unfold apply_patch_any. rewrite header_fields by lia. cbn [Z.eqb].
    unfold apply_patch_hdiffpatch, read_header_hdiffpatch. rewrite header_fields by lia. rewrite HD0. change (negb (2 =? 2)) with false. cbn iota.
    unfold file_unpack_size. rewrite (size_cut (zlen to) l c1); auto; [change (2 ^ 63) with 9223372036854775808 in *; lia|].
    intros ->. rewrite app_nil_r in E1. rewrite E1 in L1. lia. }
  destruct (app_split _ _ _ _ E L1) as (l1 & -> & E1). clear E L1.
  destruct (Z.ltb_spec (zlen l1) (zlen (enc_size (zlen patch)))) as [L2|L2].
  { symmetry in E1. destruct (app_split _ _ _ _ E1) as (c1 & E2 & E3); [lia|]. exists O. intros fuel _. unfold apply_patch_any. rewrite header_fields by lia. cbn [Z.eqb].
    unfold apply_patch_hdiffpatch, read_header_hdiffpatch. rewrite header_fields by lia. rewrite HD0. change (negb (2 =? 2)) with false. cbn iota.
    unfold file_unpack_size. rewrite py_unpack_enc by (change (2 ^ 63) with 9223372036854775808 in *; lia). cbn [pbind ret].
    rewrite (size_cut (zlen patch) l1 c1); auto; [change (2 ^ 63) with 9223372036854775808 in *; lia|].
    intros ->. rewrite app_nil_r in E2. rewrite E2 in L2. lia. }
  destruct (app_split _ _ _ _ E1 L2) as (l2 & -> & E2). clear E1 L2.
  destruct (stream_cut X c patch stream l2 cut Hc S2 E2 Hcut) as (D & R & out & more & D1 & D2 & D3 & D4 & D5).
  exists (Datatypes.S (2 * (length l2 + length out) + 1))%nat. intros fuel Hf.
  rewrite (hdiff_header X F L M fuel clamps other (comp_number c) D) by (auto; change (2 ^ 63) with 9223372036854775808 in *; lia).
  destruct (Z.eqb_spec (zlen to) 0) as [E|E]; [apply zlen_0_nil in E; congruence|].
  assert (Hh : holds R fuel (pr_open D l2) out) by (split; [exact D3|cbn [pr_file pr_open]; lia]).
  destruct (pr_read D R D2 fuel _ out more patch [] Hh) as [(out1 & r1 & A1 & A2 & A3 & A4)|(A1 & A2)]; [rewrite app_nil_r; exact D4| |rewrite A2; reflexivity].
  apply app_eq_nil in A2. destruct A2 as (_ & ->). congruence.
Qed.
