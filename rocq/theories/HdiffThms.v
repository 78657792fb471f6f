(** Where the hdiffpatch code does not do what one would expect. *)

From Coq Require Import ZArith List Bool Lia ZifyBool ZifyNat ZifyN.
From Verif Require Import Prelude Lib Spec PySize PyCrle Bsdiff BsdiffSpec BsdiffProofs PyCreate SizeCodec CrleProofs CodecExamples SeqApply CreateProofs SeqTrunc
  PyDecomp PyApply PySpec PyReader PyApplyProofs PySeq PyThms PyOtherSpec PyHdiff HdiffSpec HdiffProofs.
Import ListNotations.
Open Scope Z_scope.

(** An own compressor that needs nothing else. *)
Definition plain : compressor := own_compressor CompNone (fun _ => []).

Lemma plain_file : forall to_size data, - 2 ^ 63 < to_size < 2 ^ 63 -> zlen data < 2 ^ 63 ->
  hdiff_patch_file plain to_size data = Ret (HVal (py_pack_header 2 0 :: enc_size to_size ++ enc_size (zlen data) ++ data)).
Proof.
  intros to_size data Ht Hd. pose proof (zlen_nonneg data). unfold hdiff_patch_file. rewrite !pack_enc by (change (2 ^ 63) with 9223372036854775808 in *; lia).
  cbn [of_step hbind plain own_compressor cm_compress py_compress concat]. rewrite app_nil_r. reflexivity.
Qed.

(** What apply_patch does with data stored without compression. *)
Lemma plain_applies : forall X F L M clamps from to_size data tl, 0 < to_size < 2 ^ 63 -> zlen data < 2 ^ 63 ->
  exists n, forall fuel, (n <= fuel)%nat ->
    apply_patch_any X F L M fuel clamps from (py_pack_header 2 0 :: enc_size to_size ++ enc_size (zlen data) ++ data ++ tl) =
    hbind (lib_apply_patch L M fuel from data) (fun to => Ret (HVal (zlen to, to))).
Proof.
  intros X F L M clamps from to_size data tl Ht Hd. pose proof (zlen_nonneg data). exists (Datatypes.S (2 * (length (data ++ tl) + length (data ++ tl)) + 1))%nat. intros fuel Hf.
  rewrite (hdiff_header X F L M fuel clamps from 0 none_dec) by (auto; change (2 ^ 63) with 9223372036854775808 in *; lia). destruct (Z.eqb_spec to_size 0); [lia|].
  assert (Hh : holds Rnone fuel (pr_open none_dec (data ++ tl)) (data ++ tl)) by (split; [apply none_start|cbn [pr_file pr_open]; lia]).
  destruct (pr_read none_dec Rnone none_contract fuel _ (data ++ tl) [] data tl Hh) as [(out1 & r1 & A1 & A2 & A3 & A4)|(A1 & _)]; [apply app_nil_r| |congruence].
  rewrite A4. reflexivity.
Qed.

(** Bytes after the end of the patch are not noticed. *)
Lemma hdiff_trailing : forall X F L M clamps from to patch tl, lib_patch_for L from to patch -> zlen to < 2 ^ 63 -> to <> [] -> memory_ok M (zlen to) ->
  exists file, hdiff_patch_file plain (zlen to) patch = Ret (HVal file) /\
    exists n, forall fuel, (n <= fuel)%nat -> apply_patch_any X F L M fuel clamps from (file ++ tl) = Ret (HVal (zlen to, to)).
Proof.
  intros X F L M clamps from to patch tl Hp Ht Hne HM. pose proof (zlen_nonneg to). destruct (lib_apply L M from to patch Hp HM) as (n1 & H1).
  assert (Hpos : 0 < zlen to) by (destruct (Z.eqb_spec (zlen to) 0) as [E|E]; [apply zlen_0_nil in E; congruence|lia]).
  pose proof Hp as (_ & _ & Hl & _). eexists. split; [apply plain_file; [change (2 ^ 63) with 9223372036854775808 in *; lia|exact Hl]|].
  destruct (plain_applies X F L M clamps from (zlen to) patch tl) as (n2 & H2); auto.
  exists (n1 + n2)%nat. intros fuel Hf. cbn [app]. rewrite <- !app_assoc. rewrite H2 by lia. rewrite H1 by lia. reflexivity.
Qed.

(** The size of the to data in the header is not compared with what the library
    made. *)
Lemma hdiff_size : forall X F L M clamps from to patch size, lib_patch_for L from to patch -> 0 < size < 2 ^ 63 -> memory_ok M (zlen to) ->
  exists file, hdiff_patch_file plain size patch = Ret (HVal file) /\
    exists n, forall fuel, (n <= fuel)%nat -> apply_patch_any X F L M fuel clamps from file = Ret (HVal (zlen to, to)).
Proof.
  intros X F L M clamps from to patch size Hp Ht HM. destruct (lib_apply L M from to patch Hp HM) as (n1 & H1).
  pose proof Hp as (_ & _ & Hl & _). eexists. split; [apply plain_file; [change (2 ^ 63) with 9223372036854775808 in *; lia|exact Hl]|].
  destruct (plain_applies X F L M clamps from size patch []) as (n2 & H2); auto. rewrite app_nil_r in H2.
  exists (n1 + n2)%nat. intros fuel Hf. rewrite H2 by lia. rewrite H1 by lia. reflexivity.
Qed.

(** Data the library refuses ends the process. *)
Lemma hdiff_killed : forall X F L M clamps from data size, 0 < size < 2 ^ 63 -> zlen data < 2 ^ 63 -> hl_info L data = Some (zlen from, size) ->
  (forall cache, hl_patch L from data cache = None) -> memory_ok M size ->
  exists n, forall fuel, (n <= fuel)%nat ->
    apply_patch_any X F L M fuel clamps from (py_pack_header 2 0 :: enc_size size ++ enc_size (zlen data) ++ data) = Ret HKilled.
Proof.
  intros X F L M clamps from data size Hs Hd Hi Hn (C & attempt & D). destruct (plain_applies X F L M clamps from size data [] Hs Hd) as (n & Hn1). rewrite app_nil_r in Hn1.
  exists (n + Datatypes.S attempt)%nat. intros fuel Hf. rewrite Hn1 by lia. unfold lib_apply_patch. rewrite Hi, Z.eqb_refl, C. cbn [negb]. pose proof (zlen_nonneg from). unfold mem_cache.
  destruct (cache_ends (hm_malloc M) attempt fuel 0 (if zlen from + 2097152 <? 67108864 then zlen from + 2097152 else 67108864)) as (c & E & G); [exact D|lia| |].
  - destruct (Z.ltb_spec (zlen from + 2097152) 67108864); lia.
  - rewrite E. cbn [obind]. rewrite Hn. reflexivity.
Qed.

(** Without memory for the cache it never returns. *)
Lemma hdiff_hangs : forall X F L M clamps from to patch, lib_patch_for L from to patch -> zlen to < 2 ^ 63 -> to <> [] -> hm_bytearray M (zlen to) = true ->
  (forall k s, hm_malloc M k s = false) ->
  exists file, hdiff_patch_file plain (zlen to) patch = Ret (HVal file) /\ exists n, forall fuel, (n <= fuel)%nat -> apply_patch_any X F L M fuel clamps from file = OutOfFuel.
Proof.
  intros X F L M clamps from to patch (Hp0 & Hp1 & Hl & Hi & _) Ht Hne Hb Hm. pose proof (zlen_nonneg to).
  assert (Hpos : 0 < zlen to) by (destruct (Z.eqb_spec (zlen to) 0) as [E|E]; [apply zlen_0_nil in E; congruence|lia]).
  eexists. split; [apply plain_file; [change (2 ^ 63) with 9223372036854775808 in *; lia|exact Hl]|].
  destruct (plain_applies X F L M clamps from (zlen to) patch []) as (n & Hn); auto. rewrite app_nil_r in Hn. exists n. intros fuel Hf. rewrite Hn by lia.
  unfold lib_apply_patch. rewrite Hi, Z.eqb_refl, Hb. cbn [negb]. unfold mem_cache. rewrite cache_hangs by exact Hm. reflexivity.
Qed.

(** ** Creation *)

(** The combinations create_patch supports. *)
Lemma unsupported : forall L C bsdiff ffrom fto a t score block use_mmap,
  match a with
  | ABsdiff => t = THdiffpatch \/ t = TUnknown
  | AHdiffpatch => t <> THdiffpatch
  | AMatchBlocks => False
  | AUnknown => True
  end -> create_patch L C bsdiff ffrom fto a t score block use_mmap = Ret (HRaise DetoolsError).
Proof. intros L C bsdiff ffrom fto a t score block use_mmap H. destruct a, t; try reflexivity; try (destruct H; discriminate); try contradiction; congruence. Qed.

Lemma blocks_in_place : forall L C bsdiff ffrom fto score block use_mmap, readable use_mmap ffrom -> readable use_mmap fto ->
  (forall n, hl_diff L (pf_content ffrom) (pf_content fto) n 1 <> None) -> (forall n, hl_diff_stream L (pf_content ffrom) (pf_content fto) n 1 <> None) ->
  create_patch L C bsdiff ffrom fto AMatchBlocks TInPlace score block use_mmap = Ret (HRaise DetoolsError).
Proof.
  intros L C bsdiff ffrom fto score block use_mmap Rf Rt N1 N2. cbn [create_patch]. unfold create_match_blocks. cbn [type_number]. rewrite generic_reads by auto.
  unfold lib_create_patch, create_suffix_array, create_blocks. destruct (block =? 0).
  - destruct (hl_diff L _ _ 0 1) as [p|] eqn:E; [reflexivity|exfalso; exact (N1 _ E)].
  - destruct (hl_diff_stream L _ _ block 1) as [p|] eqn:E; [reflexivity|exfalso; exact (N2 _ E)].
Qed.

Lemma blocks_key : forall L C bsdiff ffrom fto t score block use_mmap, t = TBsdiff \/ t = TUnknown ->
  create_patch L C bsdiff ffrom fto AMatchBlocks t score block use_mmap = Ret (HRaise OtherError).
Proof. intros L C bsdiff ffrom fto t score block use_mmap [->| ->]; reflexivity. Qed.

Lemma generic_not_mapped : forall L ffrom fto score block type, pf_fileno ffrom = false \/ pf_fileno fto = false \/ pf_content ffrom = [] \/ pf_content fto = [] ->
  create_generic L ffrom fto score block type true = Ret (HRaise OtherError).
Proof.
  intros L [cf ff] [ct ft] score block type H. unfold create_generic, mmap_read_only. cbn [pf_fileno pf_content] in *.
  destruct ff; cbn [negb hbind]; [|reflexivity]. destruct cf; cbn [hbind]; [reflexivity|]. destruct ft; cbn [negb hbind]; [|reflexivity]. destruct ct; cbn [hbind]; [reflexivity|].
  destruct H as [H|[H|[H|H]]]; discriminate H.
Qed.

Lemma not_mapped : forall L C bsdiff ffrom fto a t score block, a = AHdiffpatch /\ t = THdiffpatch \/ a = AMatchBlocks ->
  pf_fileno ffrom = false \/ pf_fileno fto = false \/ pf_content ffrom = [] \/ pf_content fto = [] ->
  create_patch L C bsdiff ffrom fto a t score block true = Ret (HRaise OtherError).
Proof.
  intros L C bsdiff ffrom fto a t score block [(-> & ->)| ->] H; cbn [create_patch].
  - unfold create_hdiffpatch. rewrite generic_not_mapped by exact H. reflexivity.
  - unfold create_match_blocks. destruct (type_number t); [|reflexivity]. rewrite generic_not_mapped by exact H. reflexivity.
Qed.
