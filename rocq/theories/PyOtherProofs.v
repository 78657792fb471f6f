(** The round trip with compressions of other packages. *)

From Coq Require Import ZArith List Bool Lia ZifyBool ZifyNat ZifyN.
From Verif Require Import Prelude Lib Spec PySize PyCrle Bsdiff BsdiffSpec BsdiffProofs PyCreate SizeCodec CrleProofs CodecExamples SeqApply CreateProofs
  PyInPlace PyApply PySpec PyReader PyApplyProofs PySeq PyThms PyApplyInPlace PyMemProofs PyMemThms PyMemCreate PyMemCut.
From Verif Require Import InPlaceSpec InPlaceCreate PyOther PyOtherSpec.
Import ListNotations.
Open Scope Z_scope.

(** ** Late ends *)

Lemma delivers_impl : forall D (R R1 : dstate D -> list Z -> list Z -> Prop) d data rest out n p,
  (forall d1 out1, R d1 rest out1 -> R1 d1 rest out1) -> delivers D R d data rest out n p -> delivers D R1 d data rest out n p.
Proof. intros D R R1 d data rest out n p H [C|(o & out1 & d1 & A & B & C)]; [left; exact C|right]. exists o, out1, d1. split; [exact A|]. split; [auto|exact C]. Qed.

(** If the stream is read as one piece, a late end is early enough. *)
Lemma late_short : forall D body stream, decodes_late D body stream -> body <> [] -> zlen stream <= 4096 -> decodes D body stream.
Proof.
  intros D body stream (Hinit & R & HR & Hend & H0) Hb Hl.
  exists (fun d file out => R d file out /\ (file = [] \/ (file = stream /\ d = d_init D (zlen stream) /\ out = body))). split; [|split].
  - intros d file out (H & C). pose proof (HR _ _ _ H) as K. destruct (d_eof D d) eqn:Ee; [exact K|]. destruct C as [->|(-> & -> & ->)].
    + destruct (d_needs_input D d); [exact K|]. intros n Hn. eapply delivers_impl; [|exact (K n Hn)]. cbv beta. auto.
    + destruct stream as [|b s] eqn:Es.
      * destruct (d_needs_input D _); [exact K|]. intros n Hn. eapply delivers_impl; [|exact (K n Hn)]. cbv beta. auto.
      * destruct (Hinit ltac:(discriminate)) as (_ & E2). rewrite E2 in *. intros n Hn. specialize (K n Hn). rewrite (zdrop_all 4096) in * by lia. eapply delivers_impl; [|exact K]. cbv beta. auto.
  - intros d file (H & [->|(_ & _ & E)]); [apply Hend; exact H|congruence].
  - split; [exact H0|]. right. auto.
Qed.

(** ** The header *)

Lemma other_header : forall t number, 0 <= t <= 1 -> other_number number -> unpack_header (py_pack_header t number) = (t, number).
Proof. intros t number Ht [->|[->|[->| ->]]]; assert (C : t = 0 \/ t = 1) by lia; destruct C as [->| ->]; reflexivity. Qed.

Lemma other_dec : forall X number, other_number number -> decompressor_of X number = Some (x_other X number).
Proof. intros X number [->|[->|[->| ->]]]; reflexivity. Qed.

Lemma other_apply_header : forall X F hdiff fuel clamps from number n file, other_number number -> - 2 ^ 63 < n < 2 ^ 63 ->
  apply_patch X F hdiff fuel clamps from (py_pack_header 0 number :: enc_size n ++ file) =
  if n =? 0 then ret (n, []) else body_of_patch F fuel clamps from n (x_other X number) file.
Proof.
  intros X F hdiff fuel clamps from number n file Ho Hn. unfold apply_patch. rewrite other_header by (auto; lia). cbn [Z.eqb]. unfold apply_patch_sequential, read_header_sequential.
  rewrite other_header by (auto; lia). rewrite other_dec by auto.
  change (negb (0 =? 0)) with false. cbn iota. unfold file_unpack_size. rewrite py_unpack_enc by exact Hn. cbn [pbind ret]. destruct (n =? 0); reflexivity.
Qed.

(** ** Sequential patches *)

Lemma other_body : forall X F hdiff clamps number recs from to stream, other_number number -> recs_fit recs -> last_nonempty recs -> apply_recs from 0 recs = Some to ->
  decodes (x_other X number) (enc_body recs) stream ->
  exists n, forall fuel, (n <= fuel)%nat -> apply_patch X F hdiff fuel clamps from (py_pack_header 0 number :: enc_size (recs_size recs) ++ stream) = ret (zlen to, to).
Proof.
  intros X F hdiff clamps number recs from to stream Ho Hfit Hl Ha (R & R1 & R2 & R3). rewrite (apply_size _ _ _ _ Ha).
  exists (Datatypes.S (2 * (length stream + length (enc_body recs)) + 1)). intros fuel Hf. pose proof (last_pos_size _ Hl). pose proof Hfit as (Hz & Hadj).
  rewrite other_apply_header; auto; [|change (2 ^ 63) with 9223372036854775808 in *; lia]. destruct (Z.eqb_spec (recs_size recs) 0); [lia|].
  destruct (body_spec _ R R1 F fuel clamps from recs to stream (enc_body recs) [] []) as [(r & out1 & B1 & B2 & B3)|(B1 & _)]; auto; [|congruence].
  rewrite B3. apply app_eq_nil in B1. destruct B1 as (-> & _). unfold pr_eof. rewrite (R2 _ _ B2). reflexivity.
Qed.

(** What is created: the header alone, or the compressed pieces of a body behind it. *)
Lemma create_other : forall number compress sa from to, array_ok sa from -> bytes_ok to -> zlen from < 2 ^ 30 -> zlen to < 2 ^ 30 ->
  (to = [] /\ create_sequential_with number compress sa from to = Ret (Some (py_pack_header 0 number :: enc_size 0))) \/
  exists recs pieces, to <> [] /\ recs_fit recs /\ last_nonempty recs /\ apply_recs from 0 recs = Some to /\ bytes_ok (concat pieces) /\ concat pieces = enc_body recs /\
    create_sequential_with number compress sa from to =
      Ret (match compress pieces with None => None | Some stream => Some (py_pack_header 0 number :: enc_size (recs_size recs) ++ stream) end).
Proof.
  intros number compress sa from to Hsa Hto HF HT. change (2 ^ 30) with 1073741824 in *. pose proof (zlen_nonneg to). pose proof (zlen_nonneg from).
  unfold create_sequential_with. rewrite (proj1 (py_size_codec_enc (zlen to) [] ltac:(change (2 ^ 63) with 9223372036854775808; lia))). cbn [obind].
  unfold create_data_with. destruct (Z.eqb_spec (zlen to) 0) as [E0|E0].
  - left. apply zlen_0_nil in E0. subst to. cbn [obind]. change (zlen (@nil Z)) with 0. rewrite app_nil_r. auto.
  - right. assert (Hne : to <> []) by (intros ->; apply E0; reflexivity). rewrite (proj1 (py_size_codec_enc 0 [] ltac:(change (2 ^ 63) with 9223372036854775808; lia))). cbn [obind].
    destruct (create_patch_spec sa from to Hsa HF HT Hto) as (recs & A & B & C & D & E & F); [exact Hne|].
    unfold create_chunks in *. rewrite A in *. cbn [obind] in *.
    assert (Hbody : concat (enc_size 0 :: flat_map rec_chunks recs) = enc_body recs) by (cbn [concat]; rewrite concat_recs; reflexivity).
    assert (Hb : bytes_ok (enc_body recs)) by (unfold enc_body; rewrite bytes_ok_app; split; [apply enc_size_bytes|eapply recs_bytes; eauto]).
    exists recs, (enc_size 0 :: flat_map rec_chunks recs). split; [exact Hne|]. split.
    { unfold recs_fit. rewrite D. change (2 ^ 63) with 9223372036854775808. split; [lia|]. eapply Forall_impl; [|exact C]. unfold rec_fits. cbv beta. intros r (_ & _ & R). lia. }
    split; [auto|]. split; [auto|]. rewrite Hbody. split; [auto|]. split; [auto|]. rewrite D. destruct (compress _); reflexivity.
Qed.

Lemma other_empty : forall X F hdiff fuel clamps from number, other_number number ->
  apply_patch X F hdiff fuel clamps from (py_pack_header 0 number :: enc_size 0) = ret (0, []).
Proof.
  intros. rewrite <- (app_nil_r (enc_size 0)). rewrite other_apply_header by (auto; change (2 ^ 63) with 9223372036854775808; lia). reflexivity.
Qed.

Lemma other_round_trip : forall X F hdiff clamps number compress sa from to, other_number number -> pair_ok compress (x_other X number) ->
  array_ok sa from -> bytes_ok to -> zlen from < 2 ^ 30 -> zlen to < 2 ^ 30 ->
  exists patch, create_sequential_with number compress sa from to = Ret (Some patch) /\
    exists n, forall fuel, (n <= fuel)%nat -> apply_patch X F hdiff fuel clamps from patch = ret (zlen to, to).
Proof.
  intros X F hdiff clamps number compress sa from to Ho Hp Hsa Hto HF HT.
  destruct (create_other number compress sa from to Hsa Hto HF HT) as [(-> & E)|(recs & pieces & Hne & A & B & C & D & E & G)].
  - eexists. split; [exact E|]. exists O. intros fuel _. apply other_empty. exact Ho.
  - destruct (Hp pieces D) as (stream & S1 & S2); [rewrite E; apply enc_body_ne|]. rewrite S1 in G. eexists. split; [exact G|]. apply other_body; auto. rewrite <- E. exact S2.
Qed.

Lemma other_short : forall X F hdiff clamps number compress sa from to, other_number number -> pair_late compress (x_other X number) ->
  array_ok sa from -> bytes_ok to -> zlen from < 2 ^ 30 -> zlen to < 2 ^ 30 ->
  exists patch, create_sequential_with number compress sa from to = Ret (Some patch) /\
    (zlen patch <= 4096 -> exists n, forall fuel, (n <= fuel)%nat -> apply_patch X F hdiff fuel clamps from patch = ret (zlen to, to)).
Proof.
  intros X F hdiff clamps number compress sa from to Ho Hp Hsa Hto HF HT.
  destruct (create_other number compress sa from to Hsa Hto HF HT) as [(-> & E)|(recs & pieces & Hne & A & B & C & D & E & G)].
  - eexists. split; [exact E|]. intros _. exists O. intros fuel _. apply other_empty. exact Ho.
  - destruct (Hp pieces D) as (stream & S1 & S2); [rewrite E; apply enc_body_ne|]. rewrite S1 in G. eexists. split; [exact G|]. intros L. apply other_body; auto. rewrite <- E.
    apply late_short; [exact S2|rewrite E; apply enc_body_ne|]. rewrite zlen_cons, zlen_app in L. pose proof (zlen_nonneg (enc_size (recs_size recs))). lia.
Qed.

(** ** In-place patches *)

Lemma create_in_place_other : forall number compress sa memory segment minimum from to, (forall l, array_ok (sa l) l) -> bytes_ok to ->
  0 < segment < 2 ^ 63 -> (segment | memory) -> (segment | minimum_of segment minimum) -> 0 <= minimum_of segment minimum <= memory ->
  memory < 2 ^ 30 -> zlen to <= memory -> zlen from < 2 ^ 63 ->
  exists shift segs, py_sizes_ok memory segment shift (zlen from) (zlen to) /\ apply_segments memory segment shift from 0 segs = Some to /\ segments_ok segment segs (zlen to) /\ Forall recs_fit segs /\
    (segs = [] <-> to = []) /\ bytes_ok (enc_segments segs) /\
    create_in_place_with number compress sa memory segment minimum from to =
      Ret (if zlen to =? 0 then Some (py_pack_header 1 number :: enc_size memory ++ enc_size segment ++ enc_size shift ++ enc_size (zlen from) ++ enc_size (zlen to))
           else match compress [enc_segments segs] with
                | None => None
                | Some stream => Some ((py_pack_header 1 number :: enc_size memory ++ enc_size segment ++ enc_size shift ++ enc_size (zlen from) ++ enc_size (zlen to)) ++ stream)
                end).
Proof.
  intros number compress sa memory segment minimum from to Hsa Hto S1 S2 S3 S4 S5 S6 S7. set (shift := calc_shift memory segment (minimum_of segment minimum) (zlen from)).
  pose proof (zlen_nonneg to). pose proof (zlen_nonneg from).
  assert (Hshift : 0 <= shift <= memory) by (apply calc_shift_range; auto; lia).
  set (n := py_div_ceil (zlen to) segment).
  assert (Hn : zlen to <= n * segment < zlen to + segment).
  { unfold n, py_div_ceil. pose proof (Z.div_mod (zlen to + segment - 1) segment ltac:(lia)). pose proof (Z.mod_pos_bound (zlen to + segment - 1) segment ltac:(lia)). lia. }
  assert (Hn0 : 0 <= n) by (apply Z.div_pos; lia).
  destruct (py_segments_created sa Hsa memory segment shift from to (proj1 S1) Hshift S5 S6 Hto (Z.to_nat n) 0) as (segs & A & B & C & D & E & F & G); [lia| |rewrite Z2Nat.id by lia; left; lia|rewrite Z2Nat.id by lia; lia|].
  { intros X. assert (n = 0) by lia. lia. }
  rewrite Z.mul_0_l, zdrop_0 in B, C, G.
  assert (Hk : py_slice from 0 (memory - shift) = kept memory shift from).
  { rewrite py_slice_nonneg by lia. rewrite zdrop_0, Z.sub_0_r. reflexivity. }
  assert (Hsz : pack_sizes [memory; segment; shift; zlen from; zlen to] = Ret (Some (enc_size memory ++ enc_size segment ++ enc_size shift ++ enc_size (zlen from) ++ enc_size (zlen to)))).
  { change (2 ^ 30) with 1073741824 in *. change (2 ^ 63) with 9223372036854775808 in *.
    rewrite pack_sizes_enc; [cbn [flat_map]; rewrite app_nil_r; reflexivity|]. change (2 ^ 63) with 9223372036854775808. repeat constructor; lia. }
  assert (Hmod : forall x, (segment | x) -> (x mod segment =? 0) = true) by (intros x X; apply Z.eqb_eq; apply Z.mod_divide; [lia|auto]).
  assert (Hsizes : py_sizes_ok memory segment shift (zlen from) (zlen to)).
  { unfold py_sizes_ok. change (2 ^ 30) with 1073741824 in *. change (2 ^ 63) with 9223372036854775808 in *. lia. }
  exists shift, segs. split; [auto|]. split; [auto|]. split; [auto|]. split; [auto|]. split.
  { split; [intros ->; cbn in B; injection B as <-; reflexivity|]. intros ->. change (zlen (@nil Z)) with 0 in C. apply segments_empty in C; [auto|lia]. }
  split; [auto|].
  unfold create_in_place_with. destruct (Z.eqb_spec segment 0); [lia|]. rewrite !Hmod by auto. cbn [negb]. cbv zeta.
  fold shift. rewrite Hk. fold n. rewrite A. cbn [obind]. rewrite Hsz. cbn [obind]. destruct (zlen to =? 0); reflexivity.
Qed.

Lemma other_in_place_header : forall X number fuel bytesio mem memory segment shift from_size to_size file, other_number number ->
  py_sizes_ok memory segment shift from_size to_size ->
  apply_patch_in_place X fuel bytesio mem ((py_pack_header 1 number :: enc_size memory ++ enc_size segment ++ enc_size shift ++ enc_size from_size ++ enc_size to_size) ++ file) =
  in_place_body fuel bytesio mem (x_other X number) memory segment shift from_size to_size file.
Proof.
  intros X number fuel bytesio mem memory segment shift from_size to_size file Ho Hs. destruct (in_place_sizes _ _ _ _ _ Hs) as (A1 & A2 & A3 & A4 & A5).
  unfold apply_patch_in_place, read_header_in_place. rewrite <- app_comm_cons. rewrite <- !app_assoc. rewrite other_header by (auto; lia). rewrite other_dec by auto.
  change (negb (1 =? 1)) with false. cbn iota. unfold file_unpack_size. do 5 (rewrite py_unpack_enc by assumption; cbn [pbind ret]). reflexivity.
Qed.

Lemma other_in_place : forall X bytesio number compress sa memory segment minimum from to mem, other_number number ->
  (forall l, array_ok (sa l) l) -> bytes_ok to -> 0 < segment < 2 ^ 63 -> (segment | memory) -> (segment | minimum_of segment minimum) -> 0 <= minimum_of segment minimum <= memory ->
  memory < 2 ^ 30 -> zlen to <= memory -> zlen from < 2 ^ 63 -> memory <= zlen mem -> ztake (zlen from) mem = from ->
  pair_ok compress (x_other X number) ->
  exists patch, create_in_place_with number compress sa memory segment minimum from to = Ret (Some patch) /\
  exists n, forall fuel, (n <= fuel)%nat -> exists mem1, apply_patch_in_place X fuel bytesio mem patch = ret (zlen to, mem1) /\
    ztake (zlen to) mem1 = to /\ zdrop memory mem1 = zdrop memory mem /\ zlen mem1 = zlen mem.
Proof.
  intros X bytesio number compress sa memory segment minimum from to mem Ho Hsa Hto S1 S2 S3 S4 S5 S6 S7 Hm Hf Hp.
  destruct (create_in_place_other number compress sa memory segment minimum from to) as (shift & segs & A & B & C & D & E & G & H); auto. rewrite H.
  destruct (Z.eqb_spec (zlen to) 0) as [E0|E0].
  - apply zlen_0_nil in E0. subst to. eexists. split; [reflexivity|]. exists O. intros fuel _. rewrite <- (app_nil_r (_ :: _)), other_in_place_header by auto. exists mem. unfold in_place_body. cbn. auto.
  - assert (Hne : to <> []) by (intros ->; apply E0; reflexivity). assert (Hse : segs <> []) by (intros Y; apply Hne, E, Y).
    destruct (Hp [enc_segments segs]) as (stream & T1 & T2); [cbn [concat]; rewrite app_nil_r; auto|cbn [concat]; rewrite app_nil_r; apply segs_body_ne; auto|].
    cbn [concat] in T2. rewrite app_nil_r in T2. rewrite T1. eexists. split; [reflexivity|]. destruct T2 as (R & R1 & R2 & R3).
    exists (Datatypes.S (2 * (length stream + length (enc_segments segs)) + 1)). intros fuel Hfu. rewrite other_in_place_header by auto.
    destruct (in_place_body_spec _ R R1 fuel bytesio mem memory segment shift from to segs stream (enc_segments segs) [] []) as [(r & out1 & B1 & B2 & B3)|(B1 & _)]; auto; [|congruence].
    destruct A as (Z1 & Z2 & Z3 & Z4 & Z5). pose proof (zlen_nonneg to).
    exists (blit (blit mem shift (kept memory shift from)) 0 to). split.
    + rewrite B3. apply app_eq_nil in B1. destruct B1 as (-> & _). unfold pr_eof. rewrite (R2 _ _ B2). reflexivity.
    + assert (Lk : zlen (kept memory shift from) <= memory - shift) by (unfold InPlaceSpec.kept; rewrite zlen_ztake by lia; lia).
      assert (Lm : zlen (blit mem shift (kept memory shift from)) = zlen mem) by (apply zlen_blit; lia).
      split; [replace (zlen to) with (0 + zlen to) at 1 by lia; rewrite blit_end by lia; rewrite ztake_0; reflexivity|]. split; [|rewrite zlen_blit by lia; exact Lm].
      rewrite !zdrop_blit by lia. reflexivity.
Qed.

(** ** zstd *)

Section Zstd.
Context (L : zstd_lib) (Q : zs_state L -> list Z -> list Z -> Prop).
Context (Qwrite : forall st data rest out, Q st (data ++ rest) out -> exists o out1 st1, zs_write L st data = Some (o, st1) /\ out = o ++ out1 /\ Q st1 rest out1).
Context (Qend : forall st out, Q st [] out -> out = []).

Definition Rzstd (d : dstate (zstd_dec L)) (file out : list Z) : Prop :=
  zd_left d = zlen file /\ exists out1, out = zd_out d ++ out1 /\ Q (zd_state d) file out1.

Lemma zstd_contract : contract (zstd_dec L) Rzstd.
Proof using Qwrite Qend.
  intros (left, o0, st) file out (A & out1 & -> & HQ). cbn [zd_left zd_out zd_state] in *. subst left. cbn [zstd_dec d_eof d_needs_input]. unfold zstd_needs_input.
  assert (Hd : forall data rest n p, 0 < n -> file = data ++ rest -> zstd_eof (@mkzd L (zlen file) o0 st) = false -> (p = true -> o0 <> []) ->
    delivers (zstd_dec L) Rzstd (mkzd (zlen file) o0 st) data rest (o0 ++ out1) n p).
  { intros data rest n p Hn -> He Hp. right. destruct (Qwrite _ _ _ _ HQ) as (o & out2 & st1 & W1 & -> & W2). exists (ztake n (o0 ++ o)), (zdrop n (o0 ++ o) ++ out2), (mkzd (zlen rest) (zdrop n (o0 ++ o)) st1).
    split; [cbn [zstd_dec d_decompress]; unfold zstd_decompress; rewrite He; cbn [zd_state zd_out zd_left]; rewrite W1; rewrite zlen_app; do 5 f_equal; lia|].
    split; [split; [reflexivity|]; exists out2; auto|]. split; [rewrite !app_assoc, ztake_zdrop; reflexivity|]. split; [rewrite zlen_ztake by lia; lia|].
    intros P. left. intros N. specialize (Hp P). destruct o0; [congruence|]. cbn [app] in N. rewrite ztake_cons in N by lia. discriminate. }
  destruct (zstd_eof (@mkzd L (zlen file) o0 st)) eqn:He.
  - unfold zstd_eof in He. cbn [zd_left zd_out] in He. assert (E1 : file = []) by (apply zlen_0_nil; lia). assert (E2 : o0 = []) by (apply zlen_0_nil; lia). subst. cbn. eapply Qend. exact HQ.
  - cbn [zd_out negb]. rewrite andb_true_r. destruct (Z.eqb_spec (zlen o0) 0) as [E|E].
    + apply zlen_0_nil in E. subst o0. destruct file as [|b f1] eqn:Ef; [cbn; eapply Qend; exact HQ|]. rewrite <- Ef in *. intros n Hn. apply Hd; auto; [symmetry; apply ztake_zdrop|discriminate].
    + intros n Hn. apply Hd; auto. intros _ ->. apply E. reflexivity.
Qed.

Lemma zstd_late_end : forall d, Rzstd d [] [] -> d_eof (zstd_dec L) d = true.
Proof using.
  intros (left, o0, st) (A & out1 & E & HQ). cbn [zd_left zd_out zd_state] in *. symmetry in E. apply app_eq_nil in E. destruct E as (-> & _). subst left. reflexivity.
Qed.
End Zstd.

Lemma zstd_pair_late : forall L, zstd_ok L -> pair_late (zstd_compress L) (zstd_dec L).
Proof.
  intros L (Q & Q1 & Q2 & Q3) pieces Hb Hne. eexists. split; [reflexivity|]. split.
  - intros Hs. assert (zlen (zs_compress L (concat pieces)) <> 0) by (intros E; apply zlen_0_nil in E; congruence). cbn [zstd_dec d_eof d_needs_input d_init]. unfold zstd_needs_input, zstd_eof. cbn [zd_left zd_out].
    destruct (Z.eqb_spec (zlen (zs_compress L (concat pieces))) 0); [congruence|]. auto.
  - exists (Rzstd L Q). split; [apply zstd_contract; auto|]. split; [apply zstd_late_end|]. split; [reflexivity|]. exists (concat pieces). auto.
Qed.

Lemma zstd_pair_ok : forall L, zstd_prompt L -> pair_ok (zstd_compress L) (zstd_dec L).
Proof.
  intros L (Q & Q1 & Q2 & Q3 & Q4) pieces Hb Hne. eexists. split; [reflexivity|]. exists (Rzstd L Q). split; [apply zstd_contract; auto|]. split.
  - intros (left, o0, st) file (A & out1 & E & HQ). cbn [zd_left zd_out zd_state] in *. symmetry in E. apply app_eq_nil in E. destruct E as (-> & ->). apply Q3 in HQ. subst file left. reflexivity.
  - split; [reflexivity|]. exists (concat pieces). auto.
Qed.

(** ** lz4 *)

Lemma lz4_started : forall L pieces st, lz4_pieces L (None, st) pieces = concat (lz4_outputs L st pieces).
Proof.
  intros L. induction pieces as [|data pieces IH]; intros st; cbn [lz4_pieces lz4_outputs concat snd]; [rewrite app_nil_r; reflexivity|].
  unfold lz4_piece. cbn [fst snd]. destruct (l4_compress L st data) as (out, st1). cbn [fst snd]. rewrite IH. reflexivity.
Qed.

(** The frame is complete unless there are no pieces at all. *)
Lemma lz4_frame : forall L pieces, pieces <> [] -> lz4_compress L pieces = Some (fst (l4_begin L) ++ concat (lz4_outputs L (snd (l4_begin L)) pieces)).
Proof.
  intros L [|data pieces] Hne; [congruence|]. unfold lz4_compress. destruct (l4_begin L) as (header, st). cbn [fst snd lz4_pieces lz4_outputs concat]. unfold lz4_piece. cbn [fst snd].
  destruct (l4_compress L st data) as (out, st1). cbn [fst snd]. rewrite lz4_started, <- app_assoc. reflexivity.
Qed.
