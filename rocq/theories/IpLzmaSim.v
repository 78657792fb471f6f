(** The in-place applier fed with an LZMA patch does what it does when it is given the
    same body uncompressed, call by call. *)

From Coq Require Import ZArith List Bool Lia ZifyBool ZifyNat ZifyN.
From Verif Require Import Prelude Lib Heatshrink CReader ReaderProofs SizeProofs CSeq CInPlace Spec InPlaceSpec SeqRun SeqMeaning CodesSpec CodesIp IpTrunc.
From Verif Require Import CLzma CSeqLzma CIpLzma LzmaSpec LzmaProofs LzmaSim IpLzmaReader.
Import ListNotations.
Open Scope Z_scope.

Ltac Zify.zify_post_hook ::= Z.to_euclidean_division_equations.

Section Sim.
Context {WBits : WordBits}.
Hypothesis Hword : 32 <= word_bits.
Context {D : Type} (L : lzma_lib D).
Hypothesis Hmem : enough_memory L.
Hypothesis Hstart : exists d, lz_start L = Some d.
Context {W : Type} (E : ip_env W).
Hypothesis Hcodes : mem_codes (fun r => r <= 0 /\ r <> -11) E.

Variables memory segment shift from_size to_size : Z.
Variables body stream : list Z.
Hypothesis Hm : 0 <= memory < 2 ^ 27.
Hypothesis Hsg : 0 <= segment < 2 ^ 27.
Hypothesis Hsh : 0 <= shift < 2 ^ 27.
Hypothesis Hfs : 0 <= from_size < 2 ^ 27.
Hypothesis Hts : 0 <= to_size < 2 ^ 27.
Hypothesis Hstream : 0 < to_size -> lzma_stream L body stream.

Definition lpatch : list Z := TYPE_IN_PLACE * 16 + 1 :: enc_size memory ++ enc_size segment ++ enc_size shift ++ enc_size from_size ++ enc_size to_size ++ stream.
Definition npatch : list Z := header_byte TYPE_IN_PLACE CompNone :: enc_size memory ++ enc_size segment ++ enc_size shift ++ enc_size from_size ++ enc_size to_size ++ body.
Hypothesis Hlen : zlen lpatch < 2 ^ word_bits.
Hypothesis Hnlen : zlen npatch + 128 < 2 ^ word_bits.

(** The field of the header read next and the fields after it. *)
Definition hv (k : istate) : Z :=
  match k with IFixed | IMemory => memory | ISegment => segment | IShift => shift | IFrom => from_size | ITo => to_size end.
Definition hr (k : istate) : list Z :=
  match k with
  | IFixed | IMemory => enc_size segment ++ enc_size shift ++ enc_size from_size ++ enc_size to_size
  | ISegment => enc_size shift ++ enc_size from_size ++ enc_size to_size
  | IShift => enc_size from_size ++ enc_size to_size
  | IFrom => enc_size to_size
  | ITo => []
  end.

Lemma hv_ok : forall k, 0 <= hv k < 2 ^ 27.
Proof. intros []; cbn [hv]; lia. Qed.

(** The applier of the LZMA patch has the fields of [t] but for these. *)
Definition view (t : ip) (ps comp : Z) (rz : size_st) (cs : Z) (l : list Z) (z : size_st) : ip :=
  mkip ps (i_state t) (i_init t) comp (i_step t) (i_to_pos t) (i_to_size t) (i_from_size t) (i_memory_size t) (i_segment_size t) (i_shift_size t)
    (i_chunk_size t) (i_seg t) None rz cs l z.

Definition brel (f : list Z) (rd : option (xreader (D := D))) (l : list Z) (rz : size_st) (t : ip) : Prop :=
  exists r rest ps po, rd = Some (XLzma r) /\ yields L f r l rest /\ zok rz /\
    i_reader t = Some (RNone ps po) /\ 0 <= po /\ po + zlen (i_left t) = ps /\ ps + 128 < 2 ^ word_bits /\ zok (i_rsize t) /\
    match i_state t with
    | SDiffData | SExtraData => z_cons rz = false /\ z_cons (i_rsize t) = false /\ i_left t = rest /\ 0 <= i_chunk_size t < 2 ^ word_bits
    | _ => agree rz rest (i_rsize t) (i_left t)
    end.

Definition hrel (f : list Z) (rd : option (xreader (D := D))) (comp : Z) (l : list Z) (z : size_st) (t : ip) : Prop :=
  rd = None /\ i_patch_size t = zlen npatch /\ i_csize t = zlen npatch /\
  match i_init t with
  | IFixed => l ++ f = lpatch /\ i_left t = npatch
  | k => comp = 1 /\ i_compression t = 0 /\ zok z /\ zlen l + zlen f < 2 ^ word_bits /\ z_cons (i_size t) = false /\
      i_left t = enc_size (hv k) ++ hr k ++ body /\ exists z1, unpack_header_size (l ++ f) z = Ret (0, hv k, z1, hr k ++ stream)
  end.

Definition drel (rd : option (xreader (D := D))) (t : ip) : Prop :=
  exists r ps po, rd = Some (XLzma r) /\ owned r /\ i_reader t = Some (RNone ps po) /\
    (po = ps -> exists h, lzma_destroy r = Ret (0, h) /\ h_live h = []).

Definition rel (f : list Z) (y : xip D) (t : ip) : Prop :=
  exists ps comp rz cs l z rd, y = mkxip (view t ps comp rz cs l z) rd /\
  match i_state t with
  | SInit => hrel f rd comp l z t
  | SDone => drel rd t
  | SFailed => False
  | _ => brel f rd l rz t
  end.

(** What is left to do. *)
Definition meas (t : ip) : Z :=
  2 * zlen (i_left t) + match i_state t with SDiffData | SExtraData => 1 | _ => 0 end.

(** The body ends before the next field does. *)
Definition starved (f : list Z) (y : xip D) : Prop :=
  let s := y_ip y in
  exists r rest, y_reader y = Some (XLzma r) /\ yields L f r (i_left s) rest /\
    match i_state s with
    | SDfpatchSize | SDiffSize | SExtraSize | SAdjustment => zok (i_rsize s) /\ exists z1, upk (i_rsize s) rest = Ret (1, 0, z1, [])
    | SDiffData | SExtraData => 0 < i_chunk_size s /\ zlen rest < Z.min 128 (i_chunk_size s)
    | _ => False
    end.

Definition failed (y : xip D) (t1 : ip) : Prop :=
  i_state (y_ip y) = SFailed /\ i_state t1 = SFailed /\ rdok (y_reader y) /\ (forall r, i_reader t1 = Some r -> exists d, destroy r = Ret d).

(** The outcome of a step, and what it does to the relation. *)
Definition follows (f : list Z) (y : xip D) (t : ip) (w : W) : Prop :=
  (exists y1, y_once L E y w = Ret (1, y1, w) /\ rel f y1 t /\ i_left (y_ip y1) = [] /\ f <> []) \/
  match ip_process_once E t w with
  | Ret (res, t1, w1) =>
      (exists y1, y_once L E y w = Ret (res, y1, w1) /\
         ((res = 0 /\ rel f y1 t1 /\ meas t1 < meas t) \/ (res < 0 /\ res <> - E_ALREADY_DONE /\ failed y1 t1))) \/
      (res = - E_CORRUPT_PATCH /\ w1 = w /\ i_state t1 = SFailed /\ (forall r, i_reader t1 = Some r -> exists d, destroy r = Ret d) /\
         exists y1, y_once L E y w = Ret (1, y1, w) /\ i_left (y_ip y1) = [] /\ starved f y1)
  | Undef => y_once L E y w = Undef
  | OutOfFuel => y_once L E y w = OutOfFuel
  end.

Ltac flds := cbn [i_patch_size i_state i_init i_compression i_step i_to_pos i_to_size i_from_size i_memory_size i_segment_size i_shift_size
  i_chunk_size i_seg i_reader i_rsize i_csize i_left i_size iset_st iset_chunk iset_header iset_sizes iset_reader iset_to iset_seg iset_chunk_size iset_step
  iset_size_left y_ip y_reader view g_index g_from_offset g_to_offset g_to_size g_to_pos] in *.

Lemma cbs : callbacks_good E (fun _ => True) (fun r => r <= 0 /\ r <> -11).
Proof. apply trunc_good. exact Hcodes. Qed.

Lemma good_neg : forall w r w1, good (fun _ : W => True) (fun r => r <= 0 /\ r <> -11) w r w1 -> r <= 0 /\ r <> - E_ALREADY_DONE.
Proof. intros w r w1 (A & _). exact (cb_neg E _ _ cbs r A). Qed.

Lemma erase_neg : forall step w a n r w1, ip_mem_erase E step w a n = (r, w1) -> r <= 0 /\ r <> - E_ALREADY_DONE.
Proof. intros. eapply good_neg. eapply erase_good; [exact cbs|eauto]. Qed.
Lemma next_neg : forall step w r st w1, next_step E step w = Ret (r, st, w1) -> r <= 0 /\ r <> - E_ALREADY_DONE.
Proof. intros. eapply good_neg. eapply next_good; [exact cbs|eauto]. Qed.
Lemma steps_neg : forall w r w1, all_steps_completed E w = (r, w1) -> r <= 0 /\ r <> - E_ALREADY_DONE.
Proof. intros. eapply good_neg. eapply steps_good; [exact cbs|eauto]. Qed.
Lemma shift_neg' : forall step w a b c d r st w1, shift_memory E step w a b c d = Ret (r, st, w1) -> r <= 0 /\ r <> - E_ALREADY_DONE.
Proof.
  intros step w a b c d r st w1 H. unfold shift_memory in H. destruct (c =? 0); [discriminate|]. cbv zeta in H.
  eapply good_neg. eapply shift_good; [exact cbs|eauto].
Qed.

Lemma yields_owned : forall f r left rest, yields L f r left rest -> owned r.
Proof. intros f r left rest (A & _). exact A. Qed.

Lemma none_destroys : forall t ps po, i_reader t = Some (RNone ps po) -> forall r, i_reader t = Some r -> exists d, destroy r = Ret d.
Proof. intros t ps po H r X. rewrite H in X. injection X as <-. eexists. reflexivity. Qed.

(** Both sides fail in the same way. *)
Lemma same_fail : forall f y t w res t0 rd s0 w1, res < 0 -> res <> - E_ALREADY_DONE ->
  ip_process_once E t w = Ret (res, iset_st t0 SFailed, w1) -> y_once L E y w = Ret (res, mkxip (iset_st s0 SFailed) rd, w1) ->
  rdok rd -> (forall r, i_reader t0 = Some r -> exists d, destroy r = Ret d) -> follows f y t w.
Proof.
  intros f y t w res t0 rd s0 w1 H1 H2 H3 H4 H5 H6. right. rewrite H3. left. eexists. split; [exact H4|]. right. split; [auto|]. split; [auto|].
  unfold failed. flds. auto.
Qed.

Ltac bopen Hr Et :=
  destruct Hr as (ps & comp & rz & cs & l & z & rd & -> & Hr); rewrite Et in Hr;
  destruct Hr as (r & rest & qs & po & -> & B2 & B3 & B4 & B5 & B6 & B7 & B8 & B9); rewrite Et in B9.

Lemma neg_ltb : forall x, x < 0 -> (x <? 0) = true.
Proof. intros. lia. Qed.

Lemma neg_eqb : forall x, x < 0 -> (x =? 0) = false.
Proof. intros. lia. Qed.

Lemma step_dfpatch : forall f y t w, rel f y t -> i_state t = SDfpatchSize -> follows f y t w.
Proof.
  intros f y t w Hr Et. bopen Hr Et.
  destruct (sizes_step Hword L Hmem f rz r l rest (i_rsize t) qs po (i_left t) B9 B2 B3 B5 B6 B7 B8)
    as (r1 & [(v & z1 & z2 & k & left1 & U1 & U2 & U3 & V1 & V2 & V3)|[(z1 & z2 & k & left1 & po1 & U1 & V1 & V2)|(z' & rest' & V1 & V2 & V3 & V4)]]).
  - destruct (Z.ltb_spec 0 v) as [Hv|Hv].
    + eapply same_fail with (res := - E_NOT_IMPLEMENTED) (rd := Some (XLzma r1)); try (unfold E_NOT_IMPLEMENTED, E_ALREADY_DONE; lia).
      * unfold ip_process_once, ip_process_dfpatch_size. rewrite Et, B4, U1. cbn [obind]. change (negb (0 =? 0)) with false. cbv iota zeta.
        destruct (Z.ltb_spec 0 v); [|lia]. cbn [obind]. change (- E_NOT_IMPLEMENTED <? 0) with true. reflexivity.
      * unfold y_once, y_dfpatch_size. flds. rewrite Et, V1. cbn [obind]. change (negb (0 =? 0)) with false. cbv iota zeta.
        destruct (Z.ltb_spec 0 v); [|lia]. cbn [obind]. change (- E_NOT_IMPLEMENTED <? 0) with true. reflexivity.
      * eapply yields_owned; eauto.
      * flds. intros r0 X. inv X. eexists. reflexivity.
    + unfold follows. right. unfold ip_process_once, ip_process_dfpatch_size. rewrite Et, B4, U1. cbn [obind]. change (negb (0 =? 0)) with false. cbv iota zeta.
      unfold y_once, y_dfpatch_size. flds. rewrite Et, V1. cbn [obind]. change (negb (0 =? 0)) with false. cbv iota zeta.
      destruct (Z.ltb_spec 0 v); [lia|]. flds.
      destruct (ip_mem_erase E (i_step t) w _ _) as [r0 w0] eqn:Ee. destruct (erase_neg _ _ _ _ _ _ Ee) as (N1 & N2). cbn [obind]. left.
      eexists. split; [reflexivity|]. destruct (Z.eq_dec r0 0) as [->|Nz].
      * left. change (0 <? 0) with false. cbv iota. split; [reflexivity|]. split.
        -- eexists ps, comp, z1, cs, left1, z, _. split; [reflexivity|]. flds. exists r1, k, qs, (po + (zlen (i_left t) - zlen k)). flds.
           splits; auto; try lia; try (apply zfirst_ok; auto). apply agree_same; auto.
        -- unfold meas. flds. rewrite Et. lia.
      * right. split; [lia|]. split; [auto|]. rewrite (neg_ltb r0) by lia. unfold failed. flds. splits; auto.
        -- eapply yields_owned; eauto.
        -- intros r9 X. inv X. eexists. reflexivity.
  - eapply same_fail with (res := - E_CORRUPT_PATCH_OVERFLOW) (rd := Some (XLzma r1)); try (unfold E_CORRUPT_PATCH_OVERFLOW, E_ALREADY_DONE; lia).
    + unfold ip_process_once, ip_process_dfpatch_size. rewrite Et, B4, U1. cbn [obind]. reflexivity.
    + unfold y_once, y_dfpatch_size. flds. rewrite Et, V1. cbn [obind]. reflexivity.
    + exact V2.
    + flds. intros r0 X. inv X. eexists. reflexivity.
  - assert (Q : y_once L E (mkxip (view t ps comp rz cs l z) (Some (XLzma r))) w = Ret (1, mkxip (view t ps comp z' cs [] z) (Some (XLzma r1)), w)).
    { unfold y_once, y_dfpatch_size. flds. rewrite Et, V1. cbn [obind]. reflexivity. }
    destruct V4 as [(V4 & V5)|(V4 & z2 & V5)].
    + left. eexists. split; [exact Q|]. split; [|split; [reflexivity|auto]].
      eexists ps, comp, z', cs, [], z, _. split; [reflexivity|]. rewrite Et. exists r1, rest', qs, po. rewrite Et. splits; auto.
    + right. unfold ip_process_once, ip_process_dfpatch_size. rewrite Et, B4, V5. cbn [obind]. change (negb (- E_CORRUPT_PATCH =? 0)) with true. cbv iota. cbn [obind].
      change (- E_CORRUPT_PATCH <? 0) with true. cbv iota. right. split; [reflexivity|]. split; [reflexivity|]. split; [reflexivity|]. split.
      * flds. intros r0 X. inv X. eexists. reflexivity.
      * eexists. split; [exact Q|]. split; [reflexivity|]. exists r1, rest'. flds. rewrite Et. splits; auto.
Qed.

Lemma wrap_bounds : forall v, 0 <= wrap v < 2 ^ word_bits.
Proof. intros v. apply wrap_range. lia. Qed.

Lemma step_size : forall f y t w next, rel f y t ->
  ((i_state t = SDiffSize /\ next = SDiffData) \/ (i_state t = SExtraSize /\ next = SExtraData)) -> follows f y t w.
Proof.
  intros f y t w next Hr Hst.
  assert (PN : forall w, ip_process_once E t w = obind (ip_process_size t next) (fun '(res, s1) => Ret (res, if res <? 0 then iset_st s1 SFailed else s1, w))).
  { intros w0. unfold ip_process_once. destruct Hst as [[-> ->]|[-> ->]]; destruct (ip_process_size t _) as [[? ?]| |]; reflexivity. }
  assert (PL : forall y w, i_state (y_ip y) = i_state t -> y_once L E y w = obind (y_size L y next) (fun '(res, y1) => Ret (res, if res <? 0 then mkxip (iset_st (y_ip y1) SFailed) (y_reader y1) else y1, w))).
  { intros y0 w0 X. unfold y_once. rewrite X. destruct Hst as [[-> ->]|[-> ->]]; destruct (y_size L y0 _) as [[? ?]| |]; reflexivity. }
  assert (Hr' : exists ps comp rz cs l z rd, y = mkxip (view t ps comp rz cs l z) rd /\ brel f rd l rz t).
  { destruct Hr as (ps & comp & rz & cs & l & z & rd & -> & Hr). exists ps, comp, rz, cs, l, z, rd. split; [reflexivity|]. destruct Hst as [[X _]|[X _]]; rewrite X in Hr; exact Hr. }
  destruct Hr' as (ps & comp & rz & cs & l & z & rd & -> & r & rest & qs & po & -> & B2 & B3 & B4 & B5 & B6 & B7 & B8 & B9').
  assert (B9 : agree rz rest (i_rsize t) (i_left t)) by (destruct Hst as [[X _]|[X _]]; rewrite X in B9'; exact B9').
  destruct (sizes_step Hword L Hmem f rz r l rest (i_rsize t) qs po (i_left t) B9 B2 B3 B5 B6 B7 B8)
    as (r1 & [(v & z1 & z2 & k & left1 & U1 & U2 & U3 & V1 & V2 & V3)|[(z1 & z2 & k & left1 & po1 & U1 & V1 & V2)|(z' & rest' & V1 & V2 & V3 & V4)]]).
  - right. rewrite PN, PL by reflexivity. unfold ip_process_size, y_size, common_process_size, xcommon_process_size. flds. rewrite B4, U1, V1. cbn [obind].
    change (negb (0 =? 0)) with false. cbv iota zeta. destruct (i_to_size t <? wrap (i_to_pos t + wrap v)); cbn [obind].
    + change (negb (- E_CORRUPT_PATCH =? 0)) with true. cbv iota. cbn [obind]. change (- E_CORRUPT_PATCH <? 0) with true. cbv iota. left. eexists. split; [reflexivity|].
      right. split; [reflexivity|]. split; [discriminate|]. unfold failed. flds. splits; auto; [eapply yields_owned; eauto|]. intros r0 X. inv X. eexists. reflexivity.
    + change (negb (0 =? 0)) with false. cbv iota. cbn [obind]. change (0 <? 0) with false. cbv iota. left. eexists. split; [reflexivity|]. left. split; [reflexivity|]. split.
      * eexists ps, comp, z1, cs, left1, z, _. split; [reflexivity|]. flds.
        assert (X : brel f (Some (XLzma r1)) left1 z1 (iset_chunk_size (iset_st (iset_reader t (Some (RNone qs (po + (zlen (i_left t) - zlen k)))) z2 k) next) (wrap v))).
        { exists r1, k, qs, (po + (zlen (i_left t) - zlen k)). flds. splits; auto; try lia; try (apply zfirst_ok; auto).
          destruct Hst as [[_ ->]|[_ ->]]; splits; auto; apply wrap_bounds. }
        destruct Hst as [[_ ->]|[_ ->]]; exact X.
      * unfold meas. flds. destruct Hst as [[-> ->]|[-> ->]]; lia.
  - right. rewrite PN, PL by reflexivity. unfold ip_process_size, y_size, common_process_size, xcommon_process_size. flds. rewrite B4, U1, V1. cbn [obind].
    change (negb (- E_CORRUPT_PATCH_OVERFLOW =? 0)) with true. cbv iota. cbn [obind]. change (negb (- E_CORRUPT_PATCH_OVERFLOW =? 0)) with true. cbv iota. cbn [obind].
    change (- E_CORRUPT_PATCH_OVERFLOW <? 0) with true. cbv iota. left. eexists. split; [reflexivity|].
    right. split; [reflexivity|]. split; [discriminate|]. unfold failed. flds. splits; auto. intros r0 X. inv X. eexists. reflexivity.
  - assert (Q : y_once L E (mkxip (view t ps comp rz cs l z) (Some (XLzma r))) w = Ret (1, mkxip (view t ps comp z' cs [] z) (Some (XLzma r1)), w)).
    { rewrite PL by reflexivity. unfold y_size, xcommon_process_size. flds. rewrite V1. cbn [obind]. reflexivity. }
    destruct V4 as [(V4 & V5)|(V4 & z2 & V5)].
    + left. eexists. split; [exact Q|]. split; [|split; [reflexivity|auto]].
      eexists ps, comp, z', cs, [], z, _. split; [reflexivity|].
      assert (X : brel f (Some (XLzma r1)) [] z' t). { exists r1, rest', qs, po. splits; auto. destruct Hst as [[-> _]|[-> _]]; exact V4. }
      destruct Hst as [[-> _]|[-> _]]; exact X.
    + right. rewrite PN. unfold ip_process_size, common_process_size. rewrite B4, V5. cbn [obind]. change (negb (- E_CORRUPT_PATCH =? 0)) with true. cbv iota. cbn [obind].
      change (negb (- E_CORRUPT_PATCH =? 0)) with true. cbv iota. cbn [obind].
      change (- E_CORRUPT_PATCH <? 0) with true. cbv iota. right. split; [reflexivity|]. split; [reflexivity|]. split; [reflexivity|]. split.
      * flds. intros r0 X. inv X. eexists. reflexivity.
      * eexists. split; [exact Q|]. split; [reflexivity|]. exists r1, rest'. flds. splits; auto. destruct Hst as [[-> _]|[-> _]]; auto.
Qed.

Lemma step_adjustment : forall f y t w, rel f y t -> i_state t = SAdjustment -> follows f y t w.
Proof.
  intros f y t w Hr Et. bopen Hr Et.
  destruct (sizes_step Hword L Hmem f rz r l rest (i_rsize t) qs po (i_left t) B9 B2 B3 B5 B6 B7 B8)
    as (r1 & [(v & z1 & z2 & k & left1 & U1 & U2 & U3 & V1 & V2 & V3)|[(z1 & z2 & k & left1 & po1 & U1 & V1 & V2)|(z' & rest' & V1 & V2 & V3 & V4)]]).
  - right. unfold ip_process_once, ip_process_adjustment. rewrite Et, B4, U1. cbn [obind]. change (negb (0 =? 0)) with false. cbv iota zeta.
    unfold y_once, y_adjustment. flds. rewrite Et, V1. cbn [obind]. change (negb (0 =? 0)) with false. cbv iota zeta. flds.
    destruct (i_to_pos t =? i_to_size t).
    + destruct (all_steps_completed E w) as [r0 w0] eqn:Ee. destruct (steps_neg _ _ _ Ee) as (N1 & N2). cbn [obind]. left.
      eexists. split; [reflexivity|]. destruct (Z.eq_dec r0 0) as [->|Nz].
      * left. change (0 <? 0) with false. cbv iota. split; [reflexivity|]. split.
        -- eexists ps, comp, z1, cs, left1, z, _. split; [reflexivity|]. flds. exists r1, qs, (po + (zlen (i_left t) - zlen k)). flds.
           splits; auto; [eapply yields_owned; eauto|]. intros X. assert (k = []) by (apply zlen_0_nil; lia). subst k. eapply yields_end; eauto.
        -- unfold meas. flds. rewrite Et. lia.
      * right. split; [lia|]. split; [auto|]. rewrite (neg_ltb r0) by lia. unfold failed. flds. splits; auto; [eapply yields_owned; eauto|].
        intros r9 X. inv X. eexists. reflexivity.
    + destruct (g_to_pos (i_seg t) =? g_to_size (i_seg t)).
      * destruct (next_step E (i_step t) w) as [[[r0 st0] w0]| |] eqn:Ee; cbn [obind]; [|reflexivity|reflexivity]. destruct (next_neg _ _ _ _ _ Ee) as (N1 & N2). left.
        eexists. split; [reflexivity|]. destruct (Z.eq_dec r0 0) as [->|Nz].
        -- left. change (0 <? 0) with false. cbv iota. split; [reflexivity|]. split.
           ++ eexists ps, comp, z1, cs, left1, z, _. split; [reflexivity|]. flds. exists r1, k, qs, (po + (zlen (i_left t) - zlen k)). flds.
              splits; auto; try lia; try (apply zfirst_ok; auto). apply agree_same; auto.
           ++ unfold meas. flds. rewrite Et. lia.
        -- right. split; [lia|]. split; [auto|]. rewrite (neg_ltb r0) by lia. unfold failed. flds. splits; auto; [eapply yields_owned; eauto|].
           intros r9 X. inv X. eexists. reflexivity.
      * destruct (int_add (g_from_offset (i_seg t)) v) as [fo| |]; cbn [obind]; [|reflexivity|reflexivity]. change (0 <? 0) with false. cbv iota. left.
        eexists. split; [reflexivity|]. left. split; [reflexivity|]. split.
        -- eexists ps, comp, z1, cs, left1, z, _. split; [reflexivity|]. flds. exists r1, k, qs, (po + (zlen (i_left t) - zlen k)). flds.
           splits; auto; try lia; try (apply zfirst_ok; auto). apply agree_same; auto.
        -- unfold meas. flds. rewrite Et. lia.
  - eapply same_fail with (res := - E_CORRUPT_PATCH_OVERFLOW) (rd := Some (XLzma r1)); try (unfold E_CORRUPT_PATCH_OVERFLOW, E_ALREADY_DONE; lia).
    + unfold ip_process_once, ip_process_adjustment. rewrite Et, B4, U1. cbn [obind]. reflexivity.
    + unfold y_once, y_adjustment. flds. rewrite Et, V1. cbn [obind]. reflexivity.
    + exact V2.
    + flds. intros r0 X. inv X. eexists. reflexivity.
  - assert (Q : y_once L E (mkxip (view t ps comp rz cs l z) (Some (XLzma r))) w = Ret (1, mkxip (view t ps comp z' cs [] z) (Some (XLzma r1)), w)).
    { unfold y_once, y_adjustment. flds. rewrite Et, V1. cbn [obind]. reflexivity. }
    destruct V4 as [(V4 & V5)|(V4 & z2 & V5)].
    + left. eexists. split; [exact Q|]. split; [|split; [reflexivity|auto]].
      eexists ps, comp, z', cs, [], z, _. split; [reflexivity|]. rewrite Et. exists r1, rest', qs, po. rewrite Et. splits; auto.
    + right. unfold ip_process_once, ip_process_adjustment. rewrite Et, B4, V5. cbn [obind]. change (negb (- E_CORRUPT_PATCH =? 0)) with true. cbv iota. cbn [obind].
      change (- E_CORRUPT_PATCH <? 0) with true. cbv iota. right. split; [reflexivity|]. split; [reflexivity|]. split; [reflexivity|]. split.
      * flds. intros r0 X. inv X. eexists. reflexivity.
      * eexists. split; [exact Q|]. split; [reflexivity|]. exists r1, rest'. flds. rewrite Et. splits; auto.
Qed.

Lemma step_data : forall f y t w next, rel f y t ->
  ((i_state t = SDiffData /\ next = SExtraSize) \/ (i_state t = SExtraData /\ next = SAdjustment)) -> follows f y t w.
Proof.
  intros f y t w next Hr Hst.
  assert (PN : ip_process_once E t w = obind (ip_process_data E t w next) (fun '(res, s1, w1) => Ret (res, if res <? 0 then iset_st s1 SFailed else s1, w1))).
  { unfold ip_process_once. destruct Hst as [[-> ->]|[-> ->]]; reflexivity. }
  assert (PL : forall y, i_state (y_ip y) = i_state t -> y_once L E y w = obind (y_data L E y w next) (fun '(res, y1, w1) => Ret (res, if res <? 0 then mkxip (iset_st (y_ip y1) SFailed) (y_reader y1) else y1, w1))).
  { intros y0 X. unfold y_once. rewrite X. destruct Hst as [[-> ->]|[-> ->]]; reflexivity. }
  assert (Hr' : exists ps comp rz cs l z rd, y = mkxip (view t ps comp rz cs l z) rd /\ brel f rd l rz t).
  { destruct Hr as (ps & comp & rz & cs & l & z & rd & -> & Hr). exists ps, comp, rz, cs, l, z, rd. split; [reflexivity|]. destruct Hst as [[X _]|[X _]]; rewrite X in Hr; exact Hr. }
  destruct Hr' as (ps & comp & rz & cs & l & z & rd & -> & r & rest & qs & po & -> & B2 & B3 & B4 & B5 & B6 & B7 & B8 & B9').
  assert (B9 : z_cons rz = false /\ z_cons (i_rsize t) = false /\ i_left t = rest /\ 0 <= i_chunk_size t < 2 ^ word_bits) by (destruct Hst as [[X _]|[X _]]; rewrite X in B9'; exact B9').
  clear B9'. destruct B9 as (C1 & C2 & C3 & C4). subst rest.
  assert (Mk : forall t1 rz1 l1 r1 po1, i_state t1 = i_state t -> i_reader t1 = Some (RNone qs po1) -> yields L f r1 l1 (i_left t1) -> 0 <= po1 -> po1 + zlen (i_left t1) = qs ->
     z_cons rz1 = false -> z_cons (i_rsize t1) = false -> 0 <= i_chunk_size t1 < 2 ^ word_bits ->
     rel f (mkxip (view t1 ps comp rz1 cs l1 z) (Some (XLzma r1))) t1).
  { intros t1 rz1 l1 r1 po1 H1 H2 H3 H4 H5 H6 H7 H8. eexists ps, comp, rz1, cs, l1, z, _. split; [reflexivity|].
    assert (X : brel f (Some (XLzma r1)) l1 rz1 t1).
    { exists r1, (i_left t1), qs, po1. splits; auto; try lia; try (apply zfirst_ok; auto). rewrite H1. destruct Hst as [[-> _]|[-> _]]; splits; auto; lia. }
    rewrite H1. destruct Hst as [[-> _]|[-> _]]; exact X. }
  pose proof (zlen_nonneg (i_left t)) as Hl0. pose proof (pow2_32_le word_bits Hword).
  destruct (Z.eqb_spec (Z.min 128 (i_chunk_size t)) 0) as [Hn|Hn].
  - right. rewrite PN, PL by reflexivity. unfold ip_process_data, y_data. cbv zeta. flds. rewrite Hn. change (0 =? 0) with true. cbv iota. cbn [obind].
    change (0 <? 0) with false. cbv iota. left. eexists. split; [reflexivity|]. left. split; [reflexivity|]. split.
    + eexists ps, comp, rz, cs, l, z, _. split; [reflexivity|]. flds.
      assert (X : brel f (Some (XLzma r)) l rz (iset_st t next)).
      { exists r, (i_left t), qs, po. flds. splits; auto. destruct Hst as [[_ ->]|[_ ->]]; apply agree_same; auto. }
      destruct Hst as [[_ ->]|[_ ->]]; exact X.
    + unfold meas. flds. destruct Hst as [[-> ->]|[-> ->]]; lia.
  - set (n := Z.min 128 (i_chunk_size t)) in *. assert (Hn1 : 0 < n <= 128) by lia. assert (Hn2 : n <= i_chunk_size t) by lia.
    destruct (Z.le_gt_cases n (zlen (i_left t))) as [Hle|Hgt].
    + destruct (lzma_yields L Hmem f r l (i_left t) n B2) as (r1 & [(left1 & U1 & U2 & _)|(U1 & U2 & U3)]); [lia| |].
      * right. rewrite PN, PL by reflexivity. unfold ip_process_data, y_data. cbv zeta. flds. fold n. destruct (Z.eqb_spec n 0); [congruence|]. rewrite B4. cbn [xdecompress]. rewrite U1. cbn [obind].
        rewrite (none_read Hword (i_left t) n qs po) by lia. cbn [obind]. change (negb (0 =? 0)) with false. cbv iota.
        assert (Hout : zlen (ztake n (i_left t)) = n) by (rewrite zlen_ztake; lia). rewrite Hout. flds.
        destruct Hst as [[Et ->]|[Et ->]].
        -- destruct (ip_mem_read E (i_step t) w _ n) as [[rr from] w1]. destruct (negb (rr =? 0)); cbn [obind].
           { change (- E_IO_FAILED <? 0) with true. cbv iota. left. eexists. split; [reflexivity|]. right. split; [reflexivity|]. split; [discriminate|].
             unfold failed. flds. splits; auto; [eapply yields_owned; eauto|]. intros r0 X. inv X. eexists. reflexivity. }
           destruct (int_add (g_from_offset (i_seg t)) (to_int n)) as [fo| |]; cbn [obind]; [|reflexivity|reflexivity].
           destruct (add_data (ztake n (i_left t)) from) as [dd| |]; cbn [obind]; [|reflexivity|reflexivity].
           flds. destruct (ip_mem_write E (i_step t) w1 _ _) as [rw w3]. destruct (negb (rw =? 0)); cbn [obind]; left.
           ++ eexists. split; [reflexivity|]. change (- E_IO_FAILED <? 0) with true. cbv iota. right. split; [reflexivity|]. split; [discriminate|].
              unfold failed. flds. splits; auto; [eapply yields_owned; eauto|]. intros r0 X. inv X. eexists. reflexivity.
           ++ change (0 <? 0) with false. cbv iota. eexists. split; [reflexivity|]. left. split; [reflexivity|]. split.
              ** match goal with |- rel f ?y ?t1 => change y with (mkxip (view t1 ps comp rz cs left1 z) (Some (XLzma r1))) end.
                 apply (Mk _ rz left1 r1 (po + n)); flds; auto; try lia.
                 --- rewrite zlen_zdrop by lia. lia.
                 --- apply wrap_bounds.
              ** unfold meas. flds. rewrite zlen_zdrop by lia. rewrite Et. lia.
        -- cbn [obind]. flds. destruct (ip_mem_write E (i_step t) w _ _) as [rw w3]. destruct (negb (rw =? 0)); cbn [obind]; left.
           ++ eexists. split; [reflexivity|]. change (- E_IO_FAILED <? 0) with true. cbv iota. right. split; [reflexivity|]. split; [discriminate|].
              unfold failed. flds. splits; auto; [eapply yields_owned; eauto|]. intros r0 X. inv X. eexists. reflexivity.
           ++ change (0 <? 0) with false. cbv iota. eexists. split; [reflexivity|]. left. split; [reflexivity|]. split.
              ** match goal with |- rel f ?y ?t1 => change y with (mkxip (view t1 ps comp rz cs left1 z) (Some (XLzma r1))) end.
                 apply (Mk _ rz left1 r1 (po + n)); flds; auto; try lia.
                 --- rewrite zlen_zdrop by lia. lia.
                 --- apply wrap_bounds.
              ** unfold meas. flds. rewrite zlen_zdrop by lia. rewrite Et. lia.
      * left. eexists. split; [|split; [|split; [|exact U3]]].
        -- rewrite PL by reflexivity. unfold y_data. cbv zeta. flds. fold n. destruct (Z.eqb_spec n 0); [congruence|]. cbn [xdecompress]. rewrite U1. cbn [obind].
           change (negb (1 =? 0)) with true. cbv iota. cbn [obind]. change (1 <? 0) with false. cbv iota. reflexivity.
        -- apply (Mk t rz [] r1 po); auto.
        -- reflexivity.
    + destruct (lzma_starved Hword L Hmem f r l (i_left t) n B2) as (r1 & U1 & U2); [lia|lia|].
      right. rewrite PN. unfold ip_process_data. cbv zeta. fold n. destruct (Z.eqb_spec n 0); [congruence|]. rewrite B4. rewrite (none_read_short Hword) by lia. cbn [obind].
      change (negb (- E_CORRUPT_PATCH =? 0)) with true. cbv iota. cbn [obind]. change (- E_CORRUPT_PATCH <? 0) with true. cbv iota.
      right. split; [reflexivity|]. split; [reflexivity|]. split; [reflexivity|]. split.
      * flds. intros r0 X. inv X. eexists. reflexivity.
      * eexists. split; [|split].
        -- rewrite PL by reflexivity. unfold y_data. cbv zeta. flds. fold n. destruct (Z.eqb_spec n 0); [congruence|]. cbn [xdecompress]. rewrite U1. cbn [obind].
           change (negb (1 =? 0)) with true. cbv iota. cbn [obind]. change (1 <? 0) with false. cbv iota. reflexivity.
        -- reflexivity.
        -- exists r1, (i_left t). flds. splits; auto. fold n. destruct Hst as [[-> _]|[-> _]]; split; lia.
Qed.

(** ** The header *)

Lemma hr_next : forall k k', (k = IMemory /\ k' = ISegment) \/ (k = ISegment /\ k' = IShift) \/ (k = IShift /\ k' = IFrom) \/ (k = IFrom /\ k' = ITo) ->
  hr k = enc_size (hv k') ++ hr k'.
Proof. intros k k' [[-> ->]|[[-> ->]|[[-> ->]|[-> ->]]]]; cbn [hr hv]; rewrite ?app_nil_r; reflexivity. Qed.

Lemma step_field : forall f y t w k k' store, rel f y t -> i_state t = SInit -> i_init t = k ->
  ((k = IMemory /\ k' = ISegment) \/ (k = ISegment /\ k' = IShift) \/ (k = IShift /\ k' = IFrom) \/ (k = IFrom /\ k' = ITo)) ->
  (forall s w, i_init s = k -> ip_process_init E s w = letm (r, s1) := ip_init_size s k' store in Ret (r, s1, w)) ->
  (forall s v ps comp rz cs l z, store (view s ps comp rz cs l z) v = view (store s v) ps comp rz cs l z) ->
  (forall s v, i_patch_size (store s v) = i_patch_size s /\ i_state (store s v) = i_state s /\ i_init (store s v) = i_init s /\
     i_compression (store s v) = i_compression s /\ i_csize (store s v) = i_csize s /\ i_left (store s v) = i_left s /\ i_size (store s v) = i_size s) ->
  follows f y t w.
Proof.
  intros f y t w k k' store Hr Et Ek Hk Hp Hst1 Hst2.
  destruct Hr as (ps & comp & rz & cs & l & z & rd & -> & Hr). rewrite Et in Hr. destruct Hr as (-> & A1 & A2 & H).
  assert (Hk2 : k <> IFixed) by (destruct Hk as [[-> _]|[[-> _]|[[-> _]|[-> _]]]]; discriminate).
  assert (Hk3 : k <> ITo) by (destruct Hk as [[-> _]|[[-> _]|[[-> _]|[-> _]]]]; discriminate).
  assert (Hk4 : k' <> IFixed) by (destruct Hk as [[_ ->]|[[_ ->]|[[_ ->]|[_ ->]]]]; discriminate).
  assert (H' : comp = 1 /\ i_compression t = 0 /\ zok z /\ zlen l + zlen f < 2 ^ word_bits /\ z_cons (i_size t) = false /\
      i_left t = enc_size (hv k) ++ hr k ++ body /\ exists z1, unpack_header_size (l ++ f) z = Ret (0, hv k, z1, hr k ++ stream)).
  { rewrite Ek in H. destruct k; try congruence; exact H. }
  clear H. destruct H' as (B1 & B2 & B3 & B4 & B5 & B6 & z1 & B7).
  destruct (header_enc (hv k) (i_size t) (hr k ++ body) (hv_ok k) B5) as (z2 & C1 & C2).
  assert (YI : forall s, i_state s = SInit -> i_init s = k -> y_once L E (mkxip s None) w =
     letm (res, s1) := ip_init_size s k' store in Ret (res, mkxip (if res <? 0 then iset_st s1 SFailed else s1) None, w)).
  { intros s X1 X2. unfold y_once, y_init. flds. rewrite X1. 
    assert (X3 : y_init L E (mkxip s None) w = letm (res, s1, w1) := ip_process_init E s w in Ret (res, mkxip s1 None, w1)).
    { unfold y_init. flds. rewrite X2. destruct k; try congruence; reflexivity. }
    unfold y_init in X3. flds. rewrite X3, Hp by auto. destruct (ip_init_size s k' store) as [[res s1]| |]; cbn [obind]; try reflexivity. flds. destruct (res <? 0); reflexivity. }
  destruct (uhs_app l z f B3) as [(z3 & P & Q & R)|[(v & z3 & l1 & used & P & Q & R & S0)|(z3 & l1 & P & R)]].
  - left. rewrite B7 in R. eexists. split; [|split; [|split]].
    + rewrite YI by auto. unfold ip_init_size. flds. rewrite P. cbn [obind]. change (negb (1 =? 0)) with true. cbv iota. cbn [obind]. change (1 <? 0) with false. cbv iota. reflexivity.
    + exists ps, comp, rz, cs, [], z3, None. split; [reflexivity|]. rewrite Et. unfold hrel. splits; auto. rewrite Ek.
      change (zlen (@nil Z)) with 0. cbn [app]. pose proof (zlen_nonneg l).
      assert (X : comp = 1 /\ i_compression t = 0 /\ zok z3 /\ 0 + zlen f < 2 ^ word_bits /\ z_cons (i_size t) = false /\
        i_left t = enc_size (hv k) ++ hr k ++ body /\ exists z1, unpack_header_size f z3 = Ret (0, hv k, z1, hr k ++ stream)).
      { splits; auto; [lia|]. exists z1. auto. }
      destruct k; try congruence; exact X.
    + reflexivity.
    + intros ->. cbn in R. discriminate.
  - right. rewrite B7 in S0. injection S0 as S1 S2 S3. subst v z3.
    unfold ip_process_once. rewrite Et, Hp by auto. unfold ip_init_size at 1. rewrite B6, C1. cbn [obind]. change (negb (0 =? 0)) with false. cbv iota. cbn [obind]. change (0 <? 0) with false. cbv iota.
    left. eexists. split.
    + rewrite YI by auto. unfold ip_init_size. flds. rewrite P. cbn [obind]. change (negb (0 =? 0)) with false. cbv iota. cbn [obind]. change (0 <? 0) with false. cbv iota. reflexivity.
    + left. split; [reflexivity|].
      destruct (Hst2 (iset_header t k' (i_compression t) (z_first z2) (hr k ++ body)) (wrap (hv k))) as (D1 & D2 & D3 & D4 & D5 & D6 & D7). flds.
      split.
      * exists ps, comp, rz, cs, l1, (z_first z1), None. split.
        { f_equal. rewrite <- Hst1. reflexivity. }
        rewrite D2, Et. unfold hrel. rewrite D1, D3, D4, D5, D6, D7. splits; auto.
        assert (X : comp = 1 /\ i_compression t = 0 /\ zok (z_first z1) /\ zlen l1 + zlen f < 2 ^ word_bits /\ z_cons (z_first z2) = false /\
          hr k ++ body = enc_size (hv k') ++ hr k' ++ body /\ exists z9, unpack_header_size (l1 ++ f) (z_first z1) = Ret (0, hv k', z9, hr k' ++ stream)).
        { splits; auto.
          - apply zfirst_ok. reflexivity.
          - rewrite R, zlen_app in B4. pose proof (zlen_nonneg used). lia.
          - rewrite (hr_next k k' Hk), <- app_assoc. reflexivity.
          - rewrite <- S3, (hr_next k k' Hk), <- app_assoc. destruct (header_enc (hv k') (z_first z1) (hr k' ++ stream) (hv_ok k') eq_refl) as (z9 & F1 & _). exists z9. exact F1. }
        destruct k'; try congruence; exact X.
      * unfold meas. rewrite D2, D6, Et, B6, !zlen_app. pose proof (enc_size_pos (hv k)). lia.
  - rewrite B7 in R. discriminate.
Qed.

Lemma step_to : forall f y t w, rel f y t -> i_state t = SInit -> i_init t = ITo -> follows f y t w.
Proof.
  intros f y t w Hr Et Ek. destruct Hr as (ps & comp & rz & cs & l & z & rd & -> & Hr). rewrite Et in Hr. destruct Hr as (-> & A1 & A2 & H). rewrite Ek in H.
  destruct H as (B1 & B2 & B3 & B4 & B5 & B6 & z1 & B7). cbn [hv hr app] in B6, B7. subst comp. pose proof (pow2_32_le word_bits Hword).
  destruct (header_enc to_size (i_size t) body Hts B5) as (z2 & C1 & C2).
  destruct (uhs_app l z f B3) as [(z3 & P & Q & R)|[(v & z3 & l1 & used & P & Q & R & S0)|(z3 & l1 & P & R)]].
  - left. rewrite B7 in R. eexists. split; [|split; [|split]].
    + unfold y_once, y_init, y_init_to_size. flds. rewrite Et, Ek. flds. rewrite P. cbn [obind]. change (negb (1 =? 0)) with true. cbv iota zeta. cbn [obind]. change (1 <? 0) with false. cbv iota. reflexivity.
    + exists ps, 1, rz, cs, [], z3, None. split; [unfold view, iset_header; flds; rewrite Ek; reflexivity|]. rewrite Et. unfold hrel. splits; auto. rewrite Ek. cbn [hv hr app].
      change (zlen (@nil Z)) with 0. pose proof (zlen_nonneg l). splits; auto; [lia|]. exists z1. auto.
    + reflexivity.
    + intros ->. cbn in R. discriminate.
  - right. rewrite B7 in S0. injection S0 as S1 S2 S3. subst v z3. destruct Hstart as (d0 & Hd0).
    assert (Hbl : 0 <= zlen body /\ zlen body + 128 < 2 ^ word_bits).
    { split; [apply zlen_nonneg|]. revert Hnlen. unfold npatch. rewrite zlen_cons, !zlen_app.
      pose proof (zlen_nonneg (enc_size memory)). pose proof (zlen_nonneg (enc_size segment)). pose proof (zlen_nonneg (enc_size shift)). pose proof (zlen_nonneg (enc_size from_size)). pose proof (zlen_nonneg (enc_size to_size)). lia. }
    unfold ip_process_once, ip_process_init, ip_init_to_size. rewrite Et, Ek, B6, C1. cbn [obind]. change (negb (0 =? 0)) with false. cbv iota zeta. flds. rewrite B2.
    change (reader_init ?a 0) with (Some (RNone a 0)). cbv iota. unfold ichunk_offset. flds. rewrite A1, A2.
    replace (zlen npatch - (zlen npatch - zlen body)) with (zlen body) by lia. rewrite (wrap_small (zlen body)) by lia.
    unfold y_once, y_init, y_init_to_size. flds. rewrite Et, Ek. flds. rewrite P. cbn [obind]. change (negb (0 =? 0)) with false. cbv iota zeta. flds.
    unfold xreader_init. change (1 =? 1) with true. cbv iota. rewrite Hd0. cbv iota.
    destruct (Z.ltb_spec to_size 0); [lia|]. flds. pose proof (enc_size_pos to_size) as Hep.
    destruct (Z.ltb_spec 0 to_size) as [Hp|Hp].
    + destruct (shift_memory E (i_step t) w (i_memory_size t) (i_from_size t) (i_segment_size t) (i_shift_size t)) as [[[r0 st0] w0]| |] eqn:Es; cbn [obind]; [|reflexivity|reflexivity].
      destruct (shift_neg' _ _ _ _ _ _ _ _ _ Es) as (N1 & N2). destruct (Z.eqb_spec r0 0) as [->|Nz]; cbn [negb]; cbn [obind].
      * change (0 <? 0) with false. cbv iota. left. eexists. split; [reflexivity|]. left. split; [reflexivity|]. split.
        -- destruct (Hstream Hp) as (d1 & X1 & X2). rewrite Hd0 in X1. injection X1 as <-.
           eexists ps, 1, (z_first rz), cs, l1, z1, _. split; [reflexivity|]. flds. exists (mklz d0 None None (mkheap [] 0)), body, (zlen body), 0. flds.
           splits; auto; try lia; try (apply zfirst_ok; reflexivity).
           ++ apply yields_start; [rewrite <- S3; exact X2|]. rewrite R, zlen_app in B4. pose proof (zlen_nonneg used). lia.
           ++ apply agree_same; reflexivity.
        -- unfold meas. flds. rewrite Et, B6, zlen_app. lia.
      * rewrite (neg_ltb r0) by lia. left. eexists. split; [reflexivity|]. right. split; [lia|]. split; [auto|]. unfold failed. flds. splits; auto.
        -- apply owned_start.
        -- intros r9 X. injection X as <-. eexists. reflexivity.
    + cbn [obind]. change (0 <? 0) with false. cbv iota. left. eexists. split; [reflexivity|]. left. split; [reflexivity|]. split.
      * eexists ps, 1, (z_first rz), cs, l1, z1, _. split; [reflexivity|]. flds. exists (mklz d0 None None (mkheap [] 0)), (zlen body), 0. flds. splits; auto.
        -- apply owned_start.
        -- intros _. exists (mkheap [] 0). auto.
      * unfold meas. flds. rewrite Et, B6, zlen_app. lia.
  - rewrite B7 in R. discriminate.
Qed.

Lemma step_fixed : forall f y t w, rel f y t -> i_state t = SInit -> i_init t = IFixed -> (i_left (y_ip y) <> [] \/ f = []) -> follows f y t w.
Proof.
  intros f y t w Hr Et Ek Hne. destruct Hr as (ps & comp & rz & cs & l & z & rd & -> & Hr). rewrite Et in Hr. destruct Hr as (-> & A1 & A2 & H). rewrite Ek in H.
  destruct H as (B1 & B2). flds. right. unfold ip_process_once, ip_process_init, ip_init_fixed_header. rewrite Et, Ek, B2. unfold npatch at 1. cbv zeta.
  change (Z.land (Z.shiftr (header_byte TYPE_IN_PLACE CompNone) 4) 7) with 1. change (Z.land (header_byte TYPE_IN_PLACE CompNone) 15) with 0. change (negb (1 =? 1)) with false. cbv iota. cbn [obind].
  destruct l as [|b l'].
  { exfalso. destruct Hne as [X|X]; [congruence|]. rewrite X in B1. discriminate. }
  cbn [app] in B1. unfold lpatch in B1. injection B1 as B1 B1'. subst b. left.
  unfold y_once, y_init, ip_process_init, ip_init_fixed_header. flds. rewrite Et, Ek. flds. cbv zeta.
  change (Z.land (Z.shiftr (TYPE_IN_PLACE * 16 + 1) 4) 7) with 1. change (Z.land (TYPE_IN_PLACE * 16 + 1) 15) with 1. change (negb (1 =? 1)) with false. cbv iota. cbn [obind].
  change (0 <? 0) with false. cbv iota. eexists. split; [reflexivity|]. left. split; [reflexivity|]. split.
  - exists ps, 1, rz, cs, l', (z_first z), None. split; [reflexivity|]. flds. rewrite Et. unfold hrel. flds. splits; auto.
    + apply zfirst_ok. reflexivity.
    + revert Hlen. unfold lpatch. rewrite zlen_cons, <- B1', zlen_app. lia.
    + cbn [hv hr]. rewrite <- !app_assoc. reflexivity.
    + rewrite B1'. cbn [hv hr]. rewrite <- !app_assoc.
      destruct (header_enc memory (z_first z) (enc_size segment ++ enc_size shift ++ enc_size from_size ++ enc_size to_size ++ stream) Hm eq_refl) as (z3 & C1 & _). exists z3. exact C1.
  - unfold meas. flds. rewrite Et, B2. unfold npatch. rewrite zlen_cons. lia.
Qed.

Lemma step : forall f y t w, rel f y t -> i_state t <> SDone -> (i_left (y_ip y) <> [] \/ f = []) -> follows f y t w.
Proof.
  intros f y t w Hr Hd Hne. destruct (i_state t) eqn:Et; try congruence.
  - destruct (i_init t) eqn:Ek.
    + apply step_fixed; auto.
    + eapply step_field with (k := IMemory) (k' := ISegment); eauto; [intros s w0 X; unfold ip_process_init; rewrite X; reflexivity|reflexivity|intros; cbn; splits; auto].
    + eapply step_field with (k := ISegment) (k' := IShift); eauto; [intros s w0 X; unfold ip_process_init; rewrite X; reflexivity|reflexivity|intros; cbn; splits; auto].
    + eapply step_field with (k := IShift) (k' := IFrom); eauto; [intros s w0 X; unfold ip_process_init; rewrite X; reflexivity|reflexivity|intros; cbn; splits; auto].
    + eapply step_field with (k := IFrom) (k' := ITo); eauto 7; [intros s w0 X; unfold ip_process_init; rewrite X; reflexivity|reflexivity|intros; cbn; splits; auto].
    + apply step_to; auto.
  - apply step_dfpatch; auto.
  - eapply step_size; eauto.
  - eapply step_data; eauto.
  - eapply step_size; eauto.
  - eapply step_data; eauto.
  - apply step_adjustment; auto.
  - exfalso. destruct Hr as (ps & comp & rz & cs & l & z & rd & -> & Hr). rewrite Et in Hr. exact Hr.
Qed.

Lemma step_done : forall f y t w, rel f y t -> i_state t = SDone ->
  ip_process_once E t w = Ret (- E_ALREADY_DONE, t, w) /\ y_once L E y w = Ret (- E_ALREADY_DONE, y, w).
Proof.
  intros f y t w (ps & comp & rz & cs & l & z & rd & -> & Hr) Et. unfold ip_process_once, y_once. flds. rewrite Et. auto.
Qed.

(** Another piece. *)
Lemma rel_chunk : forall f c y t, rel (c ++ f) y t -> (i_left (y_ip y) = [] \/ i_state t = SDone) ->
  rel f (mkxip (iset_chunk (y_ip y) c) (y_reader y)) t.
Proof.
  intros f c y t (ps & comp & rz & cs & l & z & rd & -> & Hr) Hl. flds. exists ps, comp, rz, (zlen c), c, z, rd. split; [reflexivity|].
  assert (Hb : l = [] -> brel (c ++ f) rd l rz t -> brel f rd c rz t).
  { intros -> (r & rest & qs & po & B1 & B2 & B). apply yields_chunk in B2. exists r, rest, qs, po. auto. }
  destruct (i_state t) eqn:Et; try (apply Hb; auto; destruct Hl as [Hl|Hl]; [auto|discriminate]); try exact Hr.
  destruct Hl as [Hl|Hl]; [|discriminate]. subst l. destruct Hr as (A1 & A2 & A3 & H). unfold hrel. splits; auto.
  cbn [app] in H. change (zlen (@nil Z)) with 0 in H. rewrite zlen_app in H. destruct (i_init t); exact H.
Qed.

Lemma starved_chunk : forall f c y, starved (c ++ f) y -> i_left (y_ip y) = [] -> starved f (mkxip (iset_chunk (y_ip y) c) (y_reader y)).
Proof.
  intros f c y (r & rest & A & B & C) Hl. rewrite Hl in B. apply yields_chunk in B. exists r, rest. flds. splits; auto.
Qed.

Lemma starved_once : forall f y w, starved f y -> exists y1, y_once L E y w = Ret (1, y1, w) /\ starved f y1 /\ i_left (y_ip y1) = [].
Proof.
  intros f y w (r & rest & A & B & C).
  assert (Sz : zok (i_rsize (y_ip y)) -> (exists z1, upk (i_rsize (y_ip y)) rest = Ret (1, 0, z1, [])) ->
     exists r1 z' rest', xunpack_size L (i_rsize (y_ip y)) (XLzma r) (i_left (y_ip y)) = Ret (1, 0, z', XLzma r1, []) /\ yields L f r1 [] rest' /\ zok z' /\
       exists z1, upk z' rest' = Ret (1, 0, z1, [])).
  { intros Hz (z1 & Hu). destruct (lzma_upk Hword L Hmem f _ r (i_left (y_ip y)) rest Hz B) as (r1 & [(v & z2 & l1 & left1 & P & _)|[(z2 & l1 & left1 & P & _)|(z' & rest' & P1 & P2 & P3 & P4 & P5)]]); try (rewrite Hu in P; discriminate).
    exists r1, z', rest'. splits; auto. exists z1. congruence. }
  assert (Dt : 0 < i_chunk_size (y_ip y) /\ zlen rest < Z.min 128 (i_chunk_size (y_ip y)) ->
     exists r1, lzma_decompress L r (i_left (y_ip y)) (Z.min 128 (i_chunk_size (y_ip y))) = Ret (1, [], r1, []) /\ yields L f r1 [] rest).
  { intros (P & Q). apply (lzma_starved Hword L Hmem); auto. lia. }
  destruct (i_state (y_ip y)) eqn:Et; try (destruct C; fail).
  - destruct C as (C1 & C2). destruct (Sz C1 C2) as (r1 & z' & rest' & P1 & P2 & P3 & P4). unfold y_once, y_dfpatch_size. rewrite Et, A, P1. cbn [obind].
    change (negb (1 =? 0)) with true. cbv iota zeta. cbn [obind]. change (1 <? 0) with false. cbv iota. eexists. split; [reflexivity|]. split; [|reflexivity]. exists r1, rest'. flds. rewrite Et. splits; auto.
  - destruct C as (C1 & C2). destruct (Sz C1 C2) as (r1 & z' & rest' & P1 & P2 & P3 & P4). unfold y_once, y_size, xcommon_process_size. rewrite Et, A, P1. cbn [obind].
    change (negb (1 =? 0)) with true. cbv iota zeta. cbn [obind]. change (negb (1 =? 0)) with true. cbv iota. cbn [obind]. change (1 <? 0) with false. cbv iota. eexists. split; [reflexivity|]. split; [|reflexivity]. exists r1, rest'. flds. rewrite Et. splits; auto.
  - destruct (Dt C) as (r1 & P1 & P2). unfold y_once, y_data. rewrite Et, A. cbv zeta. destruct (Z.eqb_spec (Z.min 128 (i_chunk_size (y_ip y))) 0); [lia|]. cbn [xdecompress]. rewrite P1. cbn [obind].
    change (negb (1 =? 0)) with true. cbv iota zeta. cbn [obind]. change (1 <? 0) with false. cbv iota. eexists. split; [reflexivity|]. split; [|reflexivity]. exists r1, rest. flds. rewrite Et. splits; auto; apply C.
  - destruct C as (C1 & C2). destruct (Sz C1 C2) as (r1 & z' & rest' & P1 & P2 & P3 & P4). unfold y_once, y_size, xcommon_process_size. rewrite Et, A, P1. cbn [obind].
    change (negb (1 =? 0)) with true. cbv iota zeta. cbn [obind]. change (negb (1 =? 0)) with true. cbv iota. cbn [obind]. change (1 <? 0) with false. cbv iota. eexists. split; [reflexivity|]. split; [|reflexivity]. exists r1, rest'. flds. rewrite Et. splits; auto.
  - destruct (Dt C) as (r1 & P1 & P2). unfold y_once, y_data. rewrite Et, A. cbv zeta. destruct (Z.eqb_spec (Z.min 128 (i_chunk_size (y_ip y))) 0); [lia|]. cbn [xdecompress]. rewrite P1. cbn [obind].
    change (negb (1 =? 0)) with true. cbv iota zeta. cbn [obind]. change (1 <? 0) with false. cbv iota. eexists. split; [reflexivity|]. split; [|reflexivity]. exists r1, rest. flds. rewrite Et. splits; auto; apply C.
  - destruct C as (C1 & C2). destruct (Sz C1 C2) as (r1 & z' & rest' & P1 & P2 & P3 & P4). unfold y_once, y_adjustment. rewrite Et, A, P1. cbn [obind].
    change (negb (1 =? 0)) with true. cbv iota zeta. cbn [obind]. change (1 <? 0) with false. cbv iota. eexists. split; [reflexivity|]. split; [|reflexivity]. exists r1, rest'. flds. rewrite Et. splits; auto.
Qed.

(** ** Whole runs *)

Definition nfin (fuel : nat) (t : ip) (w : W) : outcome (Z * W) :=
  letm (res, t2, w2) := ip_finalize_loop E fuel t w in
  letm r := common_finalize res (i_reader t2) (i_to_size t2) in
  Ret (r, w2).

(** The same effects and the same result, unless the body is too short or too long,
    which is an error of the uncompressed patch; no memory left allocated. *)
Definition same (a : outcome (Z * W)) (b : outcome (Z * xip D * W)) : Prop :=
  match a, b with
  | Ret (v, w), Ret (v', y, w') => (v' = v \/ v = - E_CORRUPT_PATCH) /\ w' = w /\ nothing_allocated (y_reader y)
  | Undef, Undef => True
  | OutOfFuel, OutOfFuel => True
  | _, _ => False
  end.

Definition fcont (fuel : nat) (y : xip D) (w : W) : outcome (Z * xip D * W) :=
  letm (res, y2, w2) := y_finalize_loop L E fuel y w in
  letm (r, rd) := x_common_finalize res (y_reader y2) (i_to_size (y_ip y2)) in
  Ret (r, mkxip (y_ip y2) rd, w2).

Definition ycont (fuel k : nat) (res : Z) (y : xip D) (w : W) (cs : list (list Z)) : outcome (Z * xip D * W) :=
  letm (res1, y1, w1) := y_process_loop L E k res y w in
  let res2 := if (res1 =? 1) || (res1 =? - E_ALREADY_DONE) then 0 else res1 in
  if res2 =? 0 then y_feed L E fuel y1 w1 cs
  else letm (r2, y2, w2) := y_finalize L E fuel y1 w1 in Ret (res2, y2, w2).

Lemma feed_cons : forall fuel y w c cs, y_feed L E fuel y w (c :: cs) = ycont fuel fuel 0 (mkxip (iset_chunk (y_ip y) c) (y_reader y)) w cs.
Proof.
  intros. cbn [y_feed]. unfold y_process, ycont. destruct (y_process_loop L E fuel 0 _ w) as [[[res x2] w2]| |]; reflexivity.
Qed.

Lemma finalize_fcont : forall fuel y w, y_finalize L E fuel y w = fcont fuel (mkxip (iset_chunk (y_ip y) []) (y_reader y)) w.
Proof. reflexivity. Qed.

(** Once done. *)
Lemma fin_done : forall f y t w n m, rel f y t -> i_state t = SDone -> same (nfin (S n) t w) (fcont (S m) y w).
Proof.
  intros f y t w n m Hr Et. destruct (step_done f y t w Hr Et) as (P & Q). unfold nfin, fcont. cbn [ip_finalize_loop y_finalize_loop]. rewrite P, Q. cbn [obind].
  change (- E_ALREADY_DONE =? 0) with false. cbv iota. cbn [obind]. destruct Hr as (ps & comp & rz & cs & l & z & rd & -> & Hr). rewrite Et in Hr.
  destruct Hr as (r & qs & po & -> & B1 & B2 & B3). flds. rewrite B2. unfold common_finalize, x_common_finalize. cbv zeta.
  change (- E_ALREADY_DONE =? 1) with false. cbv iota. change (- E_ALREADY_DONE =? - E_ALREADY_DONE) with true. cbv iota. cbn [xdestroy destroy].
  destruct (Z.eqb_spec po qs) as [Hpo|Hpo].
  - destruct (B3 Hpo) as (h & G1 & G2). rewrite G1. cbn [obind]. change (0 =? 0) with true. cbv iota. cbn [obind same nothing_allocated y_reader]. auto.
  - destruct (destroy_spec r B1) as (h & G1 & G2). rewrite G1. cbn [obind]. change (0 =? 0) with true. cbv iota. cbn [obind same nothing_allocated y_reader]. auto.
Qed.

Lemma rdok_finalize : forall (r : option (xreader (D := D))) res ts, rdok r -> res < 0 -> res <> - E_ALREADY_DONE ->
  exists r1, x_common_finalize res r ts = Ret (res, r1) /\ nothing_allocated r1.
Proof.
  intros r res ts Hr H2 H3. unfold x_common_finalize. cbv zeta. destruct (Z.eqb_spec res 1); [lia|]. cbv iota. destruct (Z.eqb_spec res (- E_ALREADY_DONE)); [congruence|].
  destruct r as [[p|r|h]|]; cbn [rdok] in Hr; try (destruct Hr; fail).
  - cbn [xdestroy]. destruct (destroy_spec r Hr) as (h & G1 & G2). rewrite G1. cbn [obind]. destruct (Z.eqb_spec res 0); [lia|]. cbn [obind]. destruct (Z.eqb_spec res 0); [lia|].
    eexists. split; [reflexivity|]. exact G2.
  - cbn [obind]. destruct (Z.eqb_spec res 0); [lia|]. eexists. split; [reflexivity|]. exact I.
Qed.

(** After an error. *)
Lemma fin_failed : forall fuel y w, i_state (y_ip y) = SFailed -> rdok (y_reader y) ->
  exists v y2, y_finalize L E (S fuel) y w = Ret (v, y2, w) /\ nothing_allocated (y_reader y2).
Proof.
  intros fuel y w Hs Hr. rewrite finalize_fcont. unfold fcont. cbn [y_finalize_loop]. unfold y_once. flds. rewrite Hs. cbn [obind]. flds.
  change (- E_ALREADY_FAILED <? 0) with true. cbv iota. cbn [obind]. change (- E_ALREADY_FAILED =? 0) with false. cbv iota. cbn [obind]. flds.
  destruct (rdok_finalize (y_reader y) (- E_ALREADY_FAILED) (i_to_size (y_ip y)) Hr) as (r1 & Q1 & Q2); [unfold E_ALREADY_FAILED; lia|unfold E_ALREADY_FAILED, E_ALREADY_DONE; lia|].
  rewrite Q1. cbn [obind]. eexists _, _. split; [reflexivity|]. exact Q2.
Qed.

Lemma nfin_failed : forall fn t w res t1 w1, ip_process_once E t w = Ret (res, t1, w1) -> res < 0 -> res <> - E_ALREADY_DONE ->
  (forall r, i_reader t1 = Some r -> exists d, destroy r = Ret d) -> nfin (S fn) t w = Ret (res, w1).
Proof.
  intros fn t w res t1 w1 Ep R1 R2 R6. unfold nfin. cbn [ip_finalize_loop]. rewrite Ep. cbn [obind]. destruct (Z.eqb_spec res 0); [lia|]. cbn [obind].
  unfold common_finalize; cbv zeta; destruct (Z.eqb_spec res 1); [lia|]; cbv iota; destruct (Z.eqb_spec res (- E_ALREADY_DONE)); [congruence|].
  destruct (i_reader t1) as [rt|] eqn:Ert.
  - destruct (R6 rt eq_refl) as (dd & Q3). rewrite Q3. cbn [obind]. destruct (Z.eqb_spec res 0); [lia|]. cbn [obind]. destruct (Z.eqb_spec res 0); [lia|]. reflexivity.
  - cbn [obind]. destruct (Z.eqb_spec res 0); [lia|]. reflexivity.
Qed.

(** Waiting for the rest of a body that is too short. *)
Lemma starved_fin : forall fuel y w, starved [] y -> exists y2, fcont (S fuel) y w = Ret (- E_NOT_ENOUGH_PATCH_DATA, y2, w) /\ nothing_allocated (y_reader y2).
Proof.
  intros fuel y w Hs. destruct (starved_once [] y w Hs) as (y1 & P & (r & rest & A & B & _) & _). unfold fcont. cbn [y_finalize_loop]. rewrite P. cbn [obind].
  change (1 =? 0) with false. cbv iota. cbn [obind]. rewrite A. unfold x_common_finalize. cbv zeta. change (1 =? 1) with true. cbv iota. change (- E_NOT_ENOUGH_PATCH_DATA =? - E_ALREADY_DONE) with false. cbv iota.
  cbn [xdestroy]. destruct (destroy_spec r (yields_owned _ _ _ _ B)) as (h & G1 & G2). rewrite G1. cbn [obind]. change (- E_NOT_ENOUGH_PATCH_DATA =? 0) with false. cbv iota. cbn [obind].
  change (- E_NOT_ENOUGH_PATCH_DATA =? 0) with false. cbv iota. eexists. split; [reflexivity|]. exact G2.
Qed.

Lemma starved_feed : forall cs fuel y w, starved (concat cs) y -> i_left (y_ip y) = [] ->
  exists y2, y_feed L E (S fuel) y w cs = Ret (- E_NOT_ENOUGH_PATCH_DATA, y2, w) /\ nothing_allocated (y_reader y2).
Proof.
  induction cs as [|c cs IH]; intros fuel y w Hs Hl.
  - cbn [y_feed concat] in *. rewrite finalize_fcont. apply starved_fin. apply (starved_chunk [] []); auto.
  - cbn [concat] in Hs. apply starved_chunk in Hs; [|auto]. rewrite feed_cons. unfold ycont. destruct c as [|b c].
    + cbn [y_process_loop]. flds. cbn [obind]. change ((0 =? 1) || (0 =? - E_ALREADY_DONE)) with false. cbv iota zeta. change (0 =? 0) with true. cbv iota. apply IH; auto.
    + destruct (starved_once _ _ w Hs) as (y1 & P & Q & R). cbn [y_process_loop]. flds. change (0 <? 0) with false. cbv iota. rewrite P. cbn [obind].
      assert (X : y_process_loop L E fuel 1 y1 w = Ret (1, y1, w)) by (destruct fuel; cbn [y_process_loop]; rewrite R; reflexivity).
      rewrite X. cbn [obind]. change ((1 =? 1) || (1 =? - E_ALREADY_DONE)) with true. cbv iota zeta. change (0 =? 0) with true. cbv iota. apply IH; auto.
Qed.

Lemma fin_run : forall m y t w, rel [] y t -> meas t < Z.of_nat m ->
  exists n, forall fn fx, (n <= fn)%nat -> (n <= fx)%nat -> same (nfin fn t w) (fcont fx y w).
Proof.
  induction m; intros y t w Hr Hmm.
  { exfalso. unfold meas in Hmm. pose proof (zlen_nonneg (i_left t)). destruct (i_state t); lia. }
  assert (Et : i_state t = SDone \/ i_state t <> SDone) by (destruct (i_state t); auto; right; discriminate). destruct Et as [Et|Et].
  { exists 1%nat. intros [|fn] [|fx] A B; try lia. eapply fin_done; eauto. }
  destruct (step [] y t w Hr Et (or_intror eq_refl)) as [(y1 & _ & _ & _ & X)|Hs]; [congruence|].
  destruct (ip_process_once E t w) as [[[res t1] w1]| |] eqn:Ep.
  - destruct Hs as [(y1 & P & [(-> & R & M)|(R1 & R2 & R3 & R4 & R5 & R6)])|(-> & -> & R4 & R6 & y1 & P & Z1 & R)].
    + destruct (IHm y1 t1 w1 R) as (n & Hn); [lia|]. exists (S n). intros [|fn] [|fx] A B; try lia. unfold nfin, fcont. cbn [ip_finalize_loop y_finalize_loop]. rewrite Ep, P. cbn [obind].
      change (0 =? 0) with true. cbv iota. apply Hn; lia.
    + exists 1%nat. intros [|fn] [|fx] A B; try lia. rewrite (nfin_failed fn t w res t1 w1 Ep R1 R2 R6). unfold fcont. cbn [y_finalize_loop]. rewrite P. cbn [obind].
      destruct (Z.eqb_spec res 0); [lia|]. cbn [obind]. destruct (rdok_finalize (y_reader y1) res (i_to_size (y_ip y1)) R5 R1 R2) as (r1 & Q1 & Q2). rewrite Q1. cbn [obind same y_reader]. auto.
    + exists 1%nat. intros [|fn] [|fx] A B; try lia. assert (N1 : - E_CORRUPT_PATCH < 0) by reflexivity. assert (N2 : - E_CORRUPT_PATCH <> - E_ALREADY_DONE) by discriminate.
      rewrite (nfin_failed fn t w _ t1 w Ep N1 N2 R6). unfold fcont. cbn [y_finalize_loop]. rewrite P. cbn [obind].
      change (1 =? 0) with false. cbv iota. cbn [obind]. destruct R as (r & rest & A1 & B1 & _). rewrite A1. unfold x_common_finalize. cbv zeta. change (1 =? 1) with true. cbv iota. change (- E_NOT_ENOUGH_PATCH_DATA =? - E_ALREADY_DONE) with false. cbv iota.
      cbn [xdestroy]. destruct (destroy_spec r (yields_owned _ _ _ _ B1)) as (h & G1 & G2). rewrite G1. cbn [obind]. change (- E_NOT_ENOUGH_PATCH_DATA =? 0) with false. cbv iota. cbn [obind].
      cbn [same nothing_allocated y_reader]. auto.
  - exists 1%nat. intros [|fn] [|fx] A B; try lia. unfold nfin, fcont. cbn [ip_finalize_loop y_finalize_loop]. rewrite Ep, Hs. exact I.
  - exists 1%nat. intros [|fn] [|fx] A B; try lia. unfold nfin, fcont. cbn [ip_finalize_loop y_finalize_loop]. rewrite Ep, Hs. exact I.
Qed.

Lemma run : forall m cs,
  (forall y t w, rel (concat cs) y t -> (i_left (y_ip y) = [] \/ i_state t = SDone) -> meas t < Z.of_nat m ->
     exists n, forall fn fx, (n <= fn)%nat -> (n <= fx)%nat -> same (nfin fn t w) (y_feed L E fx y w cs)) /\
  (forall y t w res, rel (concat cs) y t -> meas t < Z.of_nat m -> 0 <= res <= 1 ->
     exists n, forall fn fx k, (n <= fn)%nat -> (n <= fx)%nat -> (n <= k)%nat -> same (nfin fn t w) (ycont fx k res y w cs)).
Proof.
  induction m; [intros cs|].
  { assert (Hmz : forall t, ~ meas t < Z.of_nat 0). { intros t. unfold meas. pose proof (zlen_nonneg (i_left t)). destruct (i_state t); lia. }
    split; intros; exfalso; eapply Hmz; eauto. }
  assert (HC : forall cs, (forall y t w, rel (concat cs) y t -> (i_left (y_ip y) = [] \/ i_state t = SDone) -> meas t < Z.of_nat (S m) ->
     exists n, forall fn fx, (n <= fn)%nat -> (n <= fx)%nat -> same (nfin fn t w) (y_feed L E fx y w cs)) ->
   (forall y t w res, rel (concat cs) y t -> meas t < Z.of_nat (S m) -> 0 <= res <= 1 ->
     exists n, forall fn fx k, (n <= fn)%nat -> (n <= fx)%nat -> (n <= k)%nat -> same (nfin fn t w) (ycont fx k res y w cs))).
  { intros cs HF y t w res Hr Hmm Hres. destruct (IHm cs) as [_ IHc].
    assert (Hnorm : (if (res =? 1) || (res =? - E_ALREADY_DONE) then 0 else res) = 0).
    { assert (X : res = 0 \/ res = 1) by lia. destruct X as [-> | ->]; reflexivity. }
    destruct (i_left (y_ip y)) as [|b l] eqn:El.
    - destruct (HF y t w Hr (or_introl El) Hmm) as (n & Hn). exists n. intros fn fx k A B C. unfold ycont.
      assert (X : y_process_loop L E k res y w = Ret (res, y, w)) by (destruct k; cbn [y_process_loop]; rewrite El; reflexivity).
      rewrite X. cbn [obind]. cbv zeta. rewrite Hnorm. change (0 =? 0) with true. cbv iota. apply Hn; lia.
    - assert (Hloop : forall k, y_process_loop L E (S k) res y w = obind (y_once L E y w) (fun '(r1, y1, w1) => y_process_loop L E k r1 y1 w1)).
      { intros k. cbn [y_process_loop]. rewrite El. destruct (Z.ltb_spec res 0); [lia|]. reflexivity. }
      assert (Hneg : forall k r1 y1 w1, r1 < 0 -> y_process_loop L E k r1 y1 w1 = Ret (r1, y1, w1)).
      { intros k r1 y1 w1 X. destruct k; cbn [y_process_loop]; destruct (i_left (y_ip y1)); auto; destruct (Z.ltb_spec r1 0); auto; lia. }
      assert (Et : i_state t = SDone \/ i_state t <> SDone) by (destruct (i_state t); auto; right; discriminate). destruct Et as [Et|Et].
      { destruct (step_done _ _ _ w Hr Et) as (P & Q). destruct (HF y t w Hr (or_intror Et) Hmm) as (n & Hn). exists (S n).
        intros fn fx [|k] A B C; [lia|]. unfold ycont. rewrite Hloop, Q. cbn [obind]. rewrite Hneg by (unfold E_ALREADY_DONE; lia). cbn [obind]. cbv zeta.
        change ((- E_ALREADY_DONE =? 1) || (- E_ALREADY_DONE =? - E_ALREADY_DONE)) with true. cbv iota. change (0 =? 0) with true. cbv iota. apply Hn; lia. }
      assert (Hone : forall y1, i_left (y_ip y1) = [] -> forall k, y_process_loop L E k 1 y1 w = Ret (1, y1, w)).
      { intros y1 Z1 k. destruct k; cbn [y_process_loop]; rewrite Z1; reflexivity. }
      assert (Hne : i_left (y_ip y) <> [] \/ concat cs = []) by (left; rewrite El; discriminate).
      destruct (step (concat cs) y t w Hr Et Hne) as [(y1 & P & R & Z1 & _)|Hs].
      { destruct (HF y1 t w R (or_introl Z1) Hmm) as (n & Hn). exists (S n). intros fn fx [|k] A B C; [lia|]. unfold ycont. rewrite Hloop, P. cbn [obind].
        rewrite (Hone y1 Z1). cbn [obind]. cbv zeta. change (1 =? 1) with true. cbn [orb]. cbv iota. change (0 =? 0) with true. cbv iota. apply Hn; lia. }
      destruct (ip_process_once E t w) as [[[r1 t1] w1]| |] eqn:Ep.
      + destruct Hs as [(y1 & P & [(-> & R & M)|(R1 & R2 & R3 & R4 & R5 & R6)])|(-> & -> & R4 & R6 & y1 & P & Z1 & R)].
        * destruct (IHc y1 t1 w1 0 R) as (n & Hn); [lia|lia|]. exists (S n). intros [|fn] fx [|k] A B C; try lia.
          assert (X : ycont fx (S k) res y w cs = ycont fx k 0 y1 w1 cs) by (unfold ycont; rewrite Hloop, P; reflexivity). rewrite X.
          assert (Y : nfin (S fn) t w = nfin fn t1 w1) by (unfold nfin; cbn [ip_finalize_loop]; rewrite Ep; reflexivity). rewrite Y. apply Hn; lia.
        * exists 1%nat. intros [|fn] [|fx] [|k] A B C; try lia. unfold ycont. rewrite Hloop, P. cbn [obind]. rewrite Hneg by auto. cbn [obind]. cbv zeta.
          destruct (Z.eqb_spec r1 1); [lia|]. destruct (Z.eqb_spec r1 (- E_ALREADY_DONE)); [congruence|]. cbn [orb]. cbv iota. destruct (Z.eqb_spec r1 0); [lia|].
          destruct (fin_failed fx y1 w1 R3 R5) as (v & y2 & Q1 & Q2). rewrite Q1. cbn [obind]. rewrite (nfin_failed fn t w r1 t1 w1 Ep R1 R2 R6). cbn [same]. auto.
        * exists 1%nat. intros [|fn] [|fx] [|k] A B C; try lia. assert (N1 : - E_CORRUPT_PATCH < 0) by reflexivity. assert (N2 : - E_CORRUPT_PATCH <> - E_ALREADY_DONE) by discriminate.
          rewrite (nfin_failed fn t w _ t1 w Ep N1 N2 R6). unfold ycont. rewrite Hloop, P. cbn [obind].
          rewrite (Hone y1 Z1). cbn [obind]. cbv zeta. change (1 =? 1) with true. cbn [orb]. cbv iota. change (0 =? 0) with true. cbv iota.
          destruct (starved_feed cs fx y1 w R Z1) as (y2 & Q1 & Q2). rewrite Q1. cbn [same]. auto.
      + exists 1%nat. intros [|fn] fx [|k] A B C; try lia. unfold nfin, ycont. rewrite Hloop, Hs. cbn [ip_finalize_loop]. rewrite Ep. exact I.
      + exists 1%nat. intros [|fn] fx [|k] A B C; try lia. unfold nfin, ycont. rewrite Hloop, Hs. cbn [ip_finalize_loop]. rewrite Ep. exact I. }
  intros cs. induction cs as [|c cs IHcs].
  - split; [|apply HC]; intros y t w Hr Hl Hmm.
    all: destruct (fin_run (S m) (mkxip (iset_chunk (y_ip y) []) (y_reader y)) t w) as (n & Hn); [|auto|exists n; intros fn fx A B; cbn [y_feed]; rewrite finalize_fcont; apply Hn; auto].
    all: apply rel_chunk with (c := []); auto.
  - destruct IHcs as [_ IHc].
    split; [|apply HC]; intros y t w Hr Hl Hmm.
    all: destruct (IHc (mkxip (iset_chunk (y_ip y) c) (y_reader y)) t w 0) as (n & Hn);
      [cbn [concat] in Hr; apply rel_chunk with (c := c); auto|auto|lia|]; exists n; intros fn fx A B; rewrite feed_cons; apply Hn; auto.
Qed.

(** ** The size of the piece does not matter after the header *)

Definition set_cs (t : ip) (c : Z) : ip :=
  mkip (i_patch_size t) (i_state t) (i_init t) (i_compression t) (i_step t) (i_to_pos t) (i_to_size t) (i_from_size t) (i_memory_size t) (i_segment_size t) (i_shift_size t)
    (i_chunk_size t) (i_seg t) (i_reader t) (i_rsize t) c (i_left t) (i_size t).

Definition cs_same (c : Z) (a b : outcome (Z * ip * W)) : Prop :=
  match a with
  | Ret (r, t1, w1) => b = Ret (r, set_cs t1 c, w1) /\ i_state t1 <> SInit
  | Undef => b = Undef
  | OutOfFuel => b = OutOfFuel
  end.

Lemma once_cs : forall t c w, i_state t <> SInit -> cs_same c (ip_process_once E t w) (ip_process_once E (set_cs t c) w).
Proof.
  intros t c w Hs.
  assert (Post : forall a b, i_state t <> SDone -> cs_same c a b ->
    cs_same c (letm (res, s1, w1) := a in Ret (res, if res <? 0 then iset_st s1 SFailed else s1, w1)) (letm (res, s1, w1) := b in Ret (res, if res <? 0 then iset_st s1 SFailed else s1, w1))).
  { intros a b _ H. unfold cs_same in H. destruct a as [[[r t1] w1]| |]; [destruct H as [-> H]|subst b; reflexivity|subst b; reflexivity].
    cbn [obind cs_same]. destruct (r <? 0); (split; [reflexivity|]); [cbn; congruence|exact H]. }
  unfold ip_process_once. change (i_state (set_cs t c)) with (i_state t).
  destruct (i_state t) eqn:Et; try congruence; try (apply Post; [discriminate|]).
  - unfold ip_process_dfpatch_size. cbn [set_cs i_reader i_rsize i_left]. destruct (i_reader t) as [r|]; [|reflexivity].
    destruct (unpack_size (i_rsize t) r (i_left t)) as [[[[[res v] z1] r1] l1]| |]; cbn [obind]; [|reflexivity|reflexivity]. cbv zeta.
    destruct (negb (res =? 0)); [split; [reflexivity|cbn; congruence]|]. destruct (0 <? v); [split; [reflexivity|cbn; congruence]|]. flds. cbn [set_cs i_seg i_segment_size i_to_size i_shift_size i_step].
    destruct (ip_mem_erase E (i_step t) w _ _) as [res1 w1]. split; [reflexivity|cbn; congruence].
  - unfold ip_process_size. cbn [set_cs i_reader i_rsize i_left i_to_pos i_to_size]. destruct (i_reader t) as [r|]; [|reflexivity].
    destruct (common_process_size (i_rsize t) r (i_left t) (i_to_pos t) (i_to_size t)) as [[[[[res v] z1] r1] l1]| |]; cbn [obind]; [|reflexivity|reflexivity]. cbv zeta.
    destruct (negb (res =? 0)); cbn [obind]; (split; [reflexivity|cbn; congruence]).
  - unfold ip_process_data. cbv zeta. cbn [set_cs i_reader i_rsize i_left i_chunk_size]. destruct (Z.min 128 (i_chunk_size t) =? 0); [split; [reflexivity|cbn; congruence]|]. destruct (i_reader t) as [r|]; [|reflexivity].
    destruct (decompress r (i_left t) _) as [[[[res out] r1] l1]| |]; cbn [obind]; [|reflexivity|reflexivity].
    destruct (negb (res =? 0)); [split; [reflexivity|cbn; congruence]|]. flds. cbn [set_cs i_seg i_step].
    destruct (ip_mem_read E _ _ _ _) as [[rr from] w1]. destruct (negb (rr =? 0)); cbn [obind]; [split; [reflexivity|cbn; congruence]|].
    destruct (int_add _ _) as [fo| |]; cbn [obind]; [|reflexivity|reflexivity]. destruct (add_data out from) as [d| |]; cbn [obind]; [|reflexivity|reflexivity]. flds. cbn [set_cs i_seg i_step].
    destruct (ip_mem_write E _ _ _ _) as [rw w3]. destruct (negb (rw =? 0)); (split; [reflexivity|cbn; congruence]).
  - unfold ip_process_size. cbn [set_cs i_reader i_rsize i_left i_to_pos i_to_size]. destruct (i_reader t) as [r|]; [|reflexivity].
    destruct (common_process_size (i_rsize t) r (i_left t) (i_to_pos t) (i_to_size t)) as [[[[[res v] z1] r1] l1]| |]; cbn [obind]; [|reflexivity|reflexivity]. cbv zeta.
    destruct (negb (res =? 0)); cbn [obind]; (split; [reflexivity|cbn; congruence]).
  - unfold ip_process_data. cbv zeta. cbn [set_cs i_reader i_rsize i_left i_chunk_size]. destruct (Z.min 128 (i_chunk_size t) =? 0); [split; [reflexivity|cbn; congruence]|]. destruct (i_reader t) as [r|]; [|reflexivity].
    destruct (decompress r (i_left t) _) as [[[[res out] r1] l1]| |]; cbn [obind]; [|reflexivity|reflexivity].
    destruct (negb (res =? 0)); [split; [reflexivity|cbn; congruence]|]. flds. cbn [set_cs i_seg i_step obind].
    destruct (ip_mem_write E _ _ _ _) as [rw w3]. destruct (negb (rw =? 0)); (split; [reflexivity|cbn; congruence]).
  - unfold ip_process_adjustment. cbn [set_cs i_reader i_rsize i_left]. destruct (i_reader t) as [r|]; [|reflexivity].
    destruct (unpack_size (i_rsize t) r (i_left t)) as [[[[[res v] z1] r1] l1]| |]; cbn [obind]; [|reflexivity|reflexivity]. cbv zeta.
    destruct (negb (res =? 0)); [split; [reflexivity|cbn; congruence]|]. flds. cbn [set_cs i_seg i_segment_size i_to_size i_to_pos i_step].
    destruct (i_to_pos t =? i_to_size t); [destruct (all_steps_completed E w); split; [reflexivity|cbn; congruence]|].
    destruct (g_to_pos (i_seg t) =? g_to_size (i_seg t)).
    + destruct (next_step E (i_step t) w) as [[[res1 st1] w1]| |]; cbn [obind]; [|reflexivity|reflexivity]. split; [reflexivity|cbn; congruence].
    + destruct (int_add _ _) as [fo| |]; cbn [obind]; [|reflexivity|reflexivity]. split; [reflexivity|cbn; congruence].
  - cbn [obind]. split; [reflexivity|]. rewrite Et. discriminate.
  - split; [reflexivity|]. rewrite Et. discriminate.
Qed.

Lemma nfin_cs : forall fn t c w, i_state t <> SInit -> nfin fn (set_cs t c) w = nfin fn t w.
Proof.
  induction fn; intros t c w Hs; [reflexivity|]. pose proof (once_cs t c w Hs) as H. unfold nfin. cbn [ip_finalize_loop].
  destruct (ip_process_once E t w) as [[[r t1] w1]| |]; [destruct H as [H Hs1]|rewrite H; reflexivity|rewrite H; reflexivity].
  rewrite H. cbn [obind]. destruct (r =? 0); [|reflexivity]. apply IHfn. exact Hs1.
Qed.

(** ** The uncompressed patch in one piece *)

Definition nproj (o : outcome (Z * ip * W)) : outcome (Z * W) := letm (v, t, w) := o in Ret (v, w).

Definition ncont (fuel k : nat) (t : ip) (w : W) : outcome (Z * ip * W) :=
  letm (res1, t1, w1) := ip_process_loop E k 0 t w in
  let res2 := if (res1 =? 1) || (res1 =? - E_ALREADY_DONE) then 0 else res1 in
  if res2 =? 0 then ip_finalize E fuel t1 w1
  else letm (r2, t2, w2) := ip_finalize E fuel t1 w1 in Ret (res2, t2, w2).

Lemma rel_left_body : forall f y t, rel f y t -> i_left t = [] -> i_state t <> SInit.
Proof.
  intros f y t (ps & comp & rz & cs & l & z & rd & -> & Hr) El Et. rewrite Et in Hr. destruct Hr as (_ & _ & _ & H).
  assert (X : forall v l, (@nil Z) = enc_size v ++ l -> False).
  { intros v l0 X. pose proof (enc_size_pos v). symmetry in X. apply app_eq_nil in X. destruct X as [X _]. rewrite X in H0. cbn in H0. lia. }
  destruct (i_init t); rewrite El in H; [destruct H as (_ & H); discriminate|..]; destruct H as (_ & _ & _ & _ & _ & H & _); eapply X; exact H.
Qed.

Lemma nproj_finalize : forall fuel t w, i_left t = [] -> i_state t <> SInit -> nproj (ip_finalize E fuel t w) = nfin fuel t w.
Proof.
  intros fuel t w El Hs. rewrite <- (nfin_cs fuel t 0 w Hs). unfold ip_finalize, nfin.
  replace (iset_chunk t []) with (set_cs t 0) by (unfold set_cs, iset_chunk; rewrite El; reflexivity).
  destruct (ip_finalize_loop E fuel (set_cs t 0) w) as [[[r t1] w1]| |]; cbn [obind]; [|reflexivity|reflexivity].
  destruct (common_finalize r (i_reader t1) (i_to_size t1)); reflexivity.
Qed.

(** After an error. *)
Lemma nproj_failed : forall fuel t w, i_state t = SFailed -> (forall r, i_reader t = Some r -> exists d, destroy r = Ret d) ->
  exists v t2, ip_finalize E (S fuel) t w = Ret (v, t2, w).
Proof.
  intros fuel t w R4 R6. unfold ip_finalize. cbn [ip_finalize_loop]. unfold ip_process_once. flds. rewrite R4. cbn [obind].
  change (- E_ALREADY_FAILED <? 0) with true. cbv iota. cbn [obind]. change (- E_ALREADY_FAILED =? 0) with false. cbv iota. cbn [obind]. flds.
  unfold common_finalize. cbv zeta. destruct (i_reader t) as [rt|] eqn:Ert; [destruct (R6 rt eq_refl) as (dd & Q3); rewrite Q3|]; eexists _, _; reflexivity.
Qed.

Lemma nrun : forall m y t w, rel [] y t -> meas t < Z.of_nat m ->
  exists n, forall fx k, (n <= fx)%nat -> (n <= k)%nat -> exists fn, (fn <= fx + k)%nat /\ (fx <= fn)%nat /\ nproj (ncont fx k t w) = nfin fn t w.
Proof.
  induction m; intros y t w Hr Hmm.
  { exfalso. unfold meas in Hmm. pose proof (zlen_nonneg (i_left t)). destruct (i_state t); lia. }
  destruct (i_left t) as [|b l] eqn:El.
  - exists 1%nat. intros fx k A B. exists fx. split; [lia|]. split; [lia|]. unfold ncont.
    assert (X : ip_process_loop E k 0 t w = Ret (0, t, w)) by (destruct k; cbn [ip_process_loop]; rewrite El; reflexivity).
    rewrite X. cbn [obind]. cbv zeta. change ((0 =? 1) || (0 =? - E_ALREADY_DONE)) with false. cbv iota. change (0 =? 0) with true. cbv iota.
    apply nproj_finalize; auto. eapply rel_left_body; eauto.
  - assert (Hloop : forall k, ip_process_loop E (S k) 0 t w = obind (ip_process_once E t w) (fun '(r1, t1, w1) => ip_process_loop E k r1 t1 w1)).
    { intros k. cbn [ip_process_loop]. rewrite El. reflexivity. }
    assert (Hneg : forall k r1 t1 w1, r1 < 0 -> ip_process_loop E k r1 t1 w1 = Ret (r1, t1, w1)).
    { intros k r1 t1 w1 X. destruct k; cbn [ip_process_loop]; destruct (i_left t1); auto; destruct (Z.ltb_spec r1 0); auto; lia. }
    assert (Et : i_state t = SDone \/ i_state t <> SDone) by (destruct (i_state t); auto; right; discriminate). destruct Et as [Et|Et].
    { exists 1%nat. intros [|fx] [|k] A B; try lia. exists (S fx). split; [lia|]. split; [lia|]. destruct (step_done _ _ _ w Hr Et) as (P & Q). unfold ncont. rewrite Hloop, P. cbn [obind].
      rewrite Hneg by (unfold E_ALREADY_DONE; lia). cbn [obind]. cbv zeta. change ((- E_ALREADY_DONE =? 1) || (- E_ALREADY_DONE =? - E_ALREADY_DONE)) with true. cbv iota. change (0 =? 0) with true. cbv iota.
      unfold ip_finalize, nfin. cbn [ip_finalize_loop]. rewrite P. unfold ip_process_once. flds. rewrite Et. cbn [obind]. change (- E_ALREADY_DONE =? 0) with false. cbv iota. cbn [obind]. flds.
      destruct (common_finalize _ _ _); reflexivity. }
    destruct (step [] y t w Hr Et (or_intror eq_refl)) as [(y1 & _ & _ & _ & X)|Hs]; [congruence|].
    destruct (ip_process_once E t w) as [[[r1 t1] w1]| |] eqn:Ep.
    + assert (Hf : r1 < 0 -> r1 <> - E_ALREADY_DONE -> i_state t1 = SFailed -> (forall r, i_reader t1 = Some r -> exists d, destroy r = Ret d) ->
        exists n, forall fx k, (n <= fx)%nat -> (n <= k)%nat -> exists fn, (fn <= fx + k)%nat /\ (fx <= fn)%nat /\ nproj (ncont fx k t w) = nfin fn t w).
      { intros R1 R2 R4 R6. exists 1%nat. intros [|fx] [|k] A B; try lia. exists (S fx). split; [lia|]. split; [lia|]. unfold ncont. rewrite Hloop. cbn [obind]. rewrite Hneg by auto. cbn [obind]. cbv zeta.
        destruct (Z.eqb_spec r1 1); [lia|]. destruct (Z.eqb_spec r1 (- E_ALREADY_DONE)); [congruence|]. cbn [orb]. cbv iota. destruct (Z.eqb_spec r1 0); [lia|].
        rewrite (nfin_failed fx t w r1 t1 w1 Ep R1 R2 R6). destruct (nproj_failed fx t1 w1 R4 R6) as (v & t2 & Q). rewrite Q. reflexivity. }
      destruct Hs as [(y1 & P & [(-> & R & M)|(R1 & R2 & R3 & R4 & R5 & R6)])|(-> & -> & R4 & R6 & _)]; [|auto|apply Hf; auto; [reflexivity|discriminate]].
      destruct (IHm y1 t1 w1 R) as (n & Hn); [lia|]. exists (S n). intros fx [|k] A B; try lia. destruct (Hn fx k) as (fn & F1 & F2 & F3); [lia|lia|]. exists (S fn). split; [lia|]. split; [lia|].
      assert (X : ncont fx (S k) t w = ncont fx k t1 w1) by (unfold ncont; rewrite Hloop; reflexivity). rewrite X.
      unfold nfin. cbn [ip_finalize_loop]. rewrite Ep. exact F3.
    + exists 1%nat. intros [|fx] [|k] A B; try lia. exists (S fx). split; [lia|]. split; [lia|]. unfold ncont, nfin. rewrite Hloop. cbn [ip_finalize_loop]. rewrite Ep. reflexivity.
    + exists 1%nat. intros [|fx] [|k] A B; try lia. exists (S fx). split; [lia|]. split; [lia|]. unfold ncont, nfin. rewrite Hloop. cbn [ip_finalize_loop]. rewrite Ep. reflexivity.
Qed.

(** ** The LZMA patch does what the uncompressed patch does *)

Theorem as_plain : forall junk ps w chunks, concat chunks = lpatch ->
  exists n, forall fuel, (n <= fuel)%nat ->
    same (nproj (ip_feed E fuel (ip_init junk (zlen npatch)) w [npatch])) (y_feed L E fuel (xip_init junk ps) w chunks).
Proof.
  intros junk ps w chunks Hc.
  set (t := iset_chunk (ip_init junk (zlen npatch)) npatch).
  assert (Hr : forall f c, c ++ f = lpatch -> rel f (mkxip (iset_chunk (ip_init junk ps) c) None) t).
  { intros f c X. exists ps, (i_compression junk), (i_rsize junk), (zlen c), c, (i_size junk), None. split; [reflexivity|]. unfold t. unfold hrel. cbn [ip_init iset_chunk i_state i_init i_patch_size i_csize i_left]. splits; auto. }
  destruct chunks as [|c cs]; [discriminate|].
  destruct (run (S (Z.to_nat (meas t))) cs) as [_ Hrun].
  destruct (Hrun _ t w 0 (Hr (concat cs) c Hc)) as (n1 & H1); [lia|lia|].
  destruct (nrun (S (Z.to_nat (meas t))) _ t w (Hr [] lpatch (app_nil_r _))) as (n2 & H2); [lia|].
  exists (n1 + n2)%nat. intros fuel Hf. rewrite feed_cons. destruct (H2 fuel fuel) as (fn & F1 & F2 & F3); [lia|lia|].
  assert (X : ip_feed E fuel (ip_init junk (zlen npatch)) w [npatch] = ncont fuel fuel t w).
  { cbn [ip_feed]. unfold ip_process, ncont. fold t. destruct (ip_process_loop E fuel 0 t w) as [[[res t2] w2]| |]; reflexivity. }
  rewrite X, F3. apply H1; lia.
Qed.
End Sim.
