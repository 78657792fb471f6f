(** Termination of the in-place applier for arbitrary input and callbacks. *)

From Coq Require Import ZArith List Bool Lia ZifyBool ZifyNat ZifyN.
From Verif Require Import Prelude Lib Heatshrink HsProofs CReader ReaderProofs SizeProofs CSeq Spec SeqSim SeqRun SeqTerm CInPlace IpCallback.
Import ListNotations.
Open Scope Z_scope.

Section Term.
Context {WBits : WordBits}.
Hypothesis Hword : 32 <= word_bits.
Context {W : Type} (E : ip_env W).

(** ** Shifting *)

Lemma copy_term : forall fuel step w read write segment offset, segment - offset <= Z.of_nat fuel ->
  copy_loop E fuel step w read write segment offset <> OutOfFuel.
Proof using WBits.
  induction fuel; intros step w read write segment offset H; cbn [copy_loop].
  { assert (offset <? segment = false) as -> by lia. discriminate. }
  destruct (offset <? segment) eqn:O; cbn [negb]; [|discriminate]. cbv zeta.
  destruct (ip_mem_read E step w _ _) as [[res buf] w1]. destruct (negb (res =? 0)); [discriminate|].
  destruct (negb (zlen buf =? _)); [discriminate|].
  destruct (ip_mem_write E step w1 _ _) as [res1 w2]. destruct (negb (res1 =? 0)); [discriminate|].
  apply IHfuel. lia.
Qed.

Lemma next_step_term : forall step w, next_step E step w <> OutOfFuel.
Proof using WBits.
  intros step w. unfold next_step, int_add.
  destruct (step_set E) as [set|].
  - destruct (is_step_completed E step w) as [[res completed] w1]. destruct (negb (res =? 0)); [discriminate|].
    destruct completed; [|destruct (set w1 step) as [r w2]]; destruct (in_int _); discriminate.
  - destruct (in_int _); discriminate.
Qed.

Lemma shift_term : forall n step w read write segment, shift_loop E n step w read write segment <> OutOfFuel.
Proof using WBits.
  induction n; intros step w read write segment; cbn [shift_loop]; [discriminate|].
  destruct (ip_mem_erase E step w write segment) as [res w1]. destruct (negb (res =? 0)); [discriminate|].
  pose proof (copy_term (Z.to_nat segment) step w1 read write segment 0 ltac:(lia)) as C.
  destruct (copy_loop E _ step w1 read write segment 0) as [[res1 w2]| |]; cbn [obind]; [|discriminate|congruence].
  destruct (negb (res1 =? 0)); [discriminate|].
  pose proof (next_step_term step w2) as N.
  destruct (next_step E step w2) as [[[res2 step1] w3]| |]; cbn [obind]; [|discriminate|congruence].
  destruct (negb (res2 =? 0)); [discriminate|]. apply IHn.
Qed.

(** ** One call *)

Definition itinv (s : ip) : Prop :=
  bytes_ok (i_left s) /\
  match i_state s with
  | SInit => i_init s <> IFixed -> zok (i_size s)
  | SDone | SFailed => True
  | _ => zok (i_rsize s) /\ exists r, i_reader s = Some r /\ rok0 r
  end /\
  (match i_state s with SDiffData | SExtraData => 0 <= i_chunk_size s | _ => True end).

Definition irms (s : ip) : Z := match i_reader s with Some r => rm r (i_left s) | None => 0 end.

Definition imeas (s : ip) : Z :=
  match i_state s with
  | SInit => zlen (i_left s) * 2 ^ 40 + 1
  | SDone | SFailed => 0
  | SDiffData | SExtraData => 2 * irms s + 1
  | _ => 2 * irms s
  end.

Lemma imeas_nonneg : forall s, itinv s -> 0 <= imeas s.
Proof using WBits.
  intros s (A & B & C). unfold imeas, irms. pose proof (zlen_nonneg (i_left s)).
  destruct (i_state s); try lia; destruct B as (_ & r & Hr & Hk); rewrite Hr; pose proof (rm_nonneg r (i_left s) Hk); lia.
Qed.

(** What a call leads to: the callbacks may make the result anything, but as long as
    the loop of process() goes on or that of finalize() does, there is progress. *)
Definition step_ok (s : ip) (out : outcome (Z * ip * W)) : Prop :=
  out = Undef \/
  exists res s1 w1, out = Ret (res, s1, w1) /\ bytes_ok (i_left s1) /\ (0 <= res -> itinv s1) /\
    (0 <= res -> (res <> 0 /\ i_left s1 = []) \/ imeas s1 < imeas s).

Definition ionce_ok (s : ip) (out : outcome (Z * ip * W)) : Prop :=
  out = Undef \/
  exists res s1 w1, out = Ret (res, s1, w1) /\ itinv s1 /\
    (0 <= res -> (res <> 0 /\ i_left s1 = []) \/ imeas s1 < imeas s).

Lemma itinv_failed : forall s, bytes_ok (i_left s) -> itinv (iset_st s SFailed).
Proof using WBits. intros s H. split; [auto|]. cbn. auto. Qed.

Lemma isize_term : forall z r l, rok0 r -> zok z -> bytes_ok l ->
  unpack_size z r l = Undef \/
  exists res v z1 r1 l1, unpack_size z r l = Ret (res, v, z1, r1, l1) /\
    res <= 1 /\ (res = 1 -> l1 = []) /\ bytes_ok l1 /\ zok z1 /\
    (0 <= res -> rok0 r1 /\ rm r1 l1 <= rm r l /\ (res = 0 -> rm r1 l1 < rm r l)).
Proof using WBits.
  intros z r l Hk Hz Hb. unfold unpack_size. pose proof (zneed_le _ Hz).
  destruct (unpack_size_term 6 z r l None 1 Hk Hb Hz ltac:(lia) ltac:(auto))
    as [U|(res & v & z2 & r2 & l2 & U & V & V1 & V2 & V3 & V4)]; [auto|].
  right. exists res, v, z2, r2, l2. split; [auto|]. split; [auto|]. split; [auto|]. split; [auto|]. split; [auto|].
  intros X. destruct (V4 X) as (W1 & W2 & W3). auto.
Qed.

(** A size of the header. *)
Lemma uhs_term : forall left z, zok z -> bytes_ok left ->
  exists res v z1 l1, unpack_header_size left z = Ret (res, v, z1, l1) /\ bytes_ok l1 /\ res <= 1 /\
    (0 <= res -> zok z1) /\ (0 < res -> l1 = []) /\ (res = 0 -> zlen l1 + 1 <= zlen left).
Proof using WBits.
  intros left z Hz Hb.
  assert (K : forall left z v z1 l1, unpack_header_size left z = Ret (0, v, z1, l1) -> z_cons z1 = false /\ zlen l1 + 1 <= zlen left).
  { clear. induction left; intros z' v' z1' l1' E'; [discriminate|]. rewrite uhs_unfold in E'.
    apply obind_ret in E'. destruct E' as (oz & A & B). destruct oz; [|discriminate].
    rewrite zlen_cons. destruct (Z.land a 128 =? 0); [inv B; split; [reflexivity|lia]|]. apply IHleft in B. destruct B. split; [auto|lia]. }
  assert (K2 : forall left z v z1 l1 e, unpack_header_size left z = Ret (e, v, z1, l1) -> bytes_ok left -> bytes_ok l1).
  { clear. induction left; intros z' v' z1' l1' e' E' B'; [inv E'; auto|]. inv B'. rewrite uhs_unfold in E'.
    apply obind_ret in E'. destruct E' as (oz & A & B). destruct oz; [|inv B; auto].
    destruct (Z.land a 128 =? 0); [inv B; auto|]. eapply IHleft; eauto. }
  destruct (uhs_app left z [] Hz)
    as [(z1 & P & Q & _)|[(v & z1 & l1 & used & P & Q & R & _)|(z1 & l1 & P & _)]];
    do 4 eexists; (split; [exact P|]); (split; [eapply K2; eauto|]).
  - split; [lia|]. split; [auto|]. split; [auto|]. lia.
  - destruct (K _ _ _ _ _ P) as (K1 & K3). split; [lia|]. split; [intros _ X; congruence|]. split; [lia|]. auto.
  - unfold E_CORRUPT_PATCH_OVERFLOW. split; [lia|]. split; [lia|]. split; lia.
Qed.

Lemma zok_first : forall z, zok (z_first z).
Proof using WBits. intros z H. discriminate H. Qed.

Lemma init_size_step : forall s next store w, i_state s = SInit -> itinv s -> i_init s <> IFixed -> next <> IFixed ->
  (forall t v, i_state (store t v) = i_state t /\ i_init (store t v) = i_init t /\ i_size (store t v) = i_size t /\ i_left (store t v) = i_left t) ->
  step_ok s (letm (r, s1) := ip_init_size s next store in Ret (r, s1, w)).
Proof using WBits.
  intros s next store w Es (Hb & Hz & _) Hi Hn Hst. rewrite Es in Hz. specialize (Hz Hi).
  unfold step_ok, ip_init_size.
  destruct (uhs_term (i_left s) (i_size s) Hz Hb) as (res & v & z1 & l1 & P & A & A1 & B0 & B & C). rewrite P. cbn [obind].
  right. destruct (Z.eqb_spec res 0); cbn [negb].
  - do 3 eexists. split; [reflexivity|].
    destruct (Hst (iset_header s next (i_compression s) (z_first z1) l1) (wrap v)) as (S1 & S2 & S3 & S4).
    cbn [iset_header i_state i_init i_size i_left] in S1, S2, S3, S4.
    split; [rewrite S4; exact A|]. split.
    + intros _. split; [rewrite S4; exact A|]. rewrite S1, S2, S3, Es. split; [|auto]. intros _. apply zok_first.
    + intros _. right. unfold imeas. rewrite S1, S4, Es. specialize (C e). lia.
  - do 3 eexists. split; [reflexivity|]. split; [exact A|]. split.
    + intros X. split; [exact A|]. cbn [iset_header i_state i_init i_size i_left].
      rewrite Es. auto.
    + intros X. left. split; [auto|]. apply B. lia.
Qed.

Lemma init_fixed_step : forall s w, i_state s = SInit -> itinv s ->
  step_ok s (letm (r, s1) := ip_init_fixed_header s in Ret (r, s1, w)).
Proof using WBits.
  intros s w Es (Hb & _). unfold step_ok, ip_init_fixed_header. right.
  destruct (i_left s) as [|b l] eqn:El; cbn [obind].
  { do 3 eexists. split; [reflexivity|]. rewrite El. unfold E_SHORT_HEADER. split; [constructor|]. split; lia. }
  inv Hb. cbv zeta. destruct (negb _); cbn [obind].
  { do 3 eexists. split; [reflexivity|]. unfold E_BAD_PATCH_TYPE. split; [cbn; auto|]. split; lia. }
  do 3 eexists. split; [reflexivity|]. split; [cbn; auto|]. split.
  - intros _. split; [cbn; auto|]. cbn [iset_header i_state i_init i_size i_left]. rewrite Es. split; [|auto].
    intros _. apply zok_first.
  - intros _. right. unfold imeas. cbn [iset_header i_state i_left]. rewrite Es, El, zlen_cons. lia.
Qed.

Lemma init_to_step : forall s w, i_state s = SInit -> itinv s -> i_init s = ITo -> step_ok s (ip_init_to_size E s w).
Proof using WBits.
  intros s w Es (Hb & Hz & _) Hi. rewrite Es in Hz. specialize (Hz ltac:(congruence)).
  unfold step_ok, ip_init_to_size.
  destruct (uhs_term (i_left s) (i_size s) Hz Hb) as (res & v & z1 & l1 & P & A & A1 & B0 & B & C). rewrite P. cbn [obind]. cbv zeta.
  destruct (Z.eqb_spec res 0); cbn [negb].
  2:{ right. do 3 eexists. split; [reflexivity|]. split; [exact A|]. split.
      + intros X. split; [exact A|]. cbn [iset_header i_state i_init i_size i_left].
        rewrite Es. auto.
      + intros X. left. split; [auto|]. apply B. lia. }
  specialize (C e). destruct (reader_init _ _) as [r|] eqn:Er.
  2:{ right. do 3 eexists. split; [reflexivity|]. unfold E_BAD_COMPRESSION. split; [exact A|]. split; lia. }
  destruct (v <? 0) eqn:Ev.
  { right. do 3 eexists. split; [reflexivity|]. unfold E_CORRUPT_PATCH. split; [exact A|]. split; lia. }
  destruct (rm_init_le _ _ _ l1 Er) as [K1 K2]. pose proof (zlen_nonneg l1).
  destruct (0 <? v).
  - match goal with |- context [shift_memory ?a ?b ?c ?d ?e ?f ?g] => set (S := shift_memory a b c d e f g) end.
    assert (HS : S <> OutOfFuel).
    { unfold S, shift_memory. destruct (_ =? 0); [discriminate|]. cbv zeta. apply shift_term. }
    destruct S as [[[res1 step1] w1]| |]; cbn [obind]; [|left; reflexivity|congruence].
    right. destruct (Z.eqb_spec res1 0); cbn [negb].
    + do 3 eexists. split; [reflexivity|]. split; [exact A|]. split.
      * intros _. split; [exact A|]. cbn. split; [|auto]. split; [discriminate|eauto].
      * intros _. right. unfold imeas, irms. rewrite Es. cbn [iset_st iset_step iset_seg iset_to iset_reader iset_header i_state i_reader i_left]. lia.
    + do 3 eexists. split; [reflexivity|]. split; [exact A|]. split.
      * intros _. split; [exact A|]. cbn. rewrite Es. split; [|auto]. intros _. apply B0. lia.
      * intros _. right. unfold imeas, irms. cbn [iset_st iset_step iset_seg iset_to iset_reader iset_header i_state i_reader i_left]. rewrite Es. lia.
  - right. do 3 eexists. split; [reflexivity|]. split; [exact A|]. split.
    + intros _. split; [exact A|]. cbn. auto.
    + intros _. right. unfold imeas. rewrite Es. cbn. pose proof (zlen_nonneg (i_left s)). lia.
Qed.

Lemma process_init_step : forall s w, i_state s = SInit -> itinv s -> step_ok s (ip_process_init E s w).
Proof using WBits.
  intros s w Es Ht. unfold ip_process_init. destruct (i_init s) eqn:Ei.
  1: apply init_fixed_step; auto.
  1-4: apply init_size_step; auto; try congruence; intros; cbn; auto.
  apply init_to_step; auto.
Qed.

Lemma dfpatch_step : forall s w, i_state s = SDfpatchSize -> itinv s -> step_ok s (ip_process_dfpatch_size E s w).
Proof using WBits.
  intros s w Es (Hb & Hz & _). rewrite Es in Hz. destruct Hz as (Hz & r & Hr & Hk).
  unfold step_ok, ip_process_dfpatch_size. rewrite Hr.
  destruct (isize_term _ r _ Hk Hz Hb) as [U|(res & v & z2 & r2 & l2 & U & V & V1 & V2 & V3 & V4)];
    rewrite U; cbn [obind]; [auto|]. cbv zeta. right.
  destruct (Z.eqb_spec res 0); cbn [negb].
  2:{ do 3 eexists. split; [reflexivity|]. split; [exact V2|]. split.
      - intros X. destruct (V4 X) as (W1 & _). split; [exact V2|]. cbn. rewrite Es. eauto 6.
      - intros X. left. split; [auto|]. apply V1. lia. }
  subst res. destruct (V4 ltac:(lia)) as (W1 & W2 & W3). specialize (W3 eq_refl).
  destruct (0 <? v).
  { do 3 eexists. split; [reflexivity|]. unfold E_NOT_IMPLEMENTED. split; [exact V2|]. split; lia. }
  destruct (ip_mem_erase E _ w _ _) as [res1 w1].
  do 3 eexists. split; [reflexivity|]. split; [exact V2|]. split.
  - intros _. split; [exact V2|]. cbn. eauto 6.
  - intros _. right. unfold imeas, irms. cbn [i_state iset_st iset_seg i_reader iset_reader i_left]. rewrite Es, Hr. lia.
Qed.

Lemma process_size_step : forall s st next w, i_state s = st -> itinv s ->
  (st = SDiffSize /\ next = SDiffData \/ st = SExtraSize /\ next = SExtraData) ->
  step_ok s (letm (r, s1) := ip_process_size s next in Ret (r, s1, w)).
Proof using Hword.
  intros s st next w Es (Hb & Hz & _) Hst.
  assert (Hz' : zok (i_rsize s) /\ exists r, i_reader s = Some r /\ rok0 r).
  { rewrite Es in Hz. destruct Hst as [[-> _]|[-> _]]; exact Hz. }
  clear Hz. destruct Hz' as (Hz & r & Hr & Hk).
  unfold step_ok, ip_process_size, common_process_size. rewrite Hr.
  destruct (isize_term _ r _ Hk Hz Hb) as [U|(res & v & z2 & r2 & l2 & U & V & V1 & V2 & V3 & V4)];
    rewrite U; cbn [obind]; [auto|]. cbv zeta. right.
  destruct (Z.eqb_spec res 0); cbn [negb].
  2:{ cbn [obind]. assert (negb (res =? 0) = true) as -> by lia. cbn [obind].
      do 3 eexists. split; [reflexivity|]. split; [exact V2|]. split.
      - intros X. destruct (V4 X) as (W1 & _). split; [exact V2|]. cbn. rewrite Es.
        destruct Hst as [[-> _]|[-> _]]; eauto 6.
      - intros X. left. split; [auto|]. apply V1. lia. }
  subst res. destruct (V4 ltac:(lia)) as (W1 & W2 & W3). specialize (W3 eq_refl).
  destruct (_ <? wrap _); cbn [obind].
  { change (negb (- E_CORRUPT_PATCH =? 0)) with true. cbv iota. cbn [obind].
    do 3 eexists. split; [reflexivity|]. unfold E_CORRUPT_PATCH. split; [exact V2|]. split; lia. }
  change (negb (0 =? 0)) with false. cbv iota. cbn [obind].
  do 3 eexists. split; [reflexivity|]. split; [exact V2|]. split.
  - intros _. split; [exact V2|].
    pose proof (wrap_range v Hword). cbn. destruct Hst as [[_ ->]|[_ ->]]; (split; [eauto 6|lia]).
  - intros _. right. unfold imeas, irms. cbn [i_state iset_st iset_chunk_size i_reader iset_reader i_left]. rewrite Es, Hr.
    destruct Hst as [[-> ->]|[-> ->]]; lia.
Qed.

Lemma process_data_step : forall s w next, data_next (i_state s) = Some next -> itinv s ->
  step_ok s (ip_process_data E s w next).
Proof using Hword.
  intros s w next Hn (Hb & Hz & Hc).
  assert (Hz' : zok (i_rsize s) /\ exists r, i_reader s = Some r /\ rok0 r).
  { destruct (i_state s); try discriminate Hn; exact Hz. }
  assert (Hc' : 0 <= i_chunk_size s) by (destruct (i_state s); try discriminate Hn; exact Hc).
  clear Hz Hc. destruct Hz' as (Hz & r & Hr & Hk).
  destruct (data_next_cases _ _ Hn) as (Hx & Hnd & Hni).
  assert (Hm : imeas s = 2 * rm r (i_left s) + 1).
  { unfold imeas, irms. rewrite Hr. destruct (i_state s); try discriminate Hn; reflexivity. }
  assert (Hti : forall r1 l1 s1, i_state s1 = i_state s -> i_reader s1 = Some r1 -> i_left s1 = l1 ->
    i_rsize s1 = i_rsize s -> 0 <= i_chunk_size s1 -> rok0 r1 -> bytes_ok l1 ->
    itinv s1 /\ imeas s1 = 2 * rm r1 l1 + 1).
  { intros r1 l1 s1 E1 E2 E3 E4 E5 E6 E7. split.
    - split; [congruence|]. rewrite E1, E4. destruct (i_state s); try discriminate Hn; (split; [eauto|auto]).
    - unfold imeas, irms. rewrite E1, E2, E3. destruct (i_state s); try discriminate Hn; reflexivity. }
  unfold step_ok, ip_process_data. cbv zeta.
  destruct (Z.eqb_spec (Z.min 128 (i_chunk_size s)) 0).
  { right. do 3 eexists. split; [reflexivity|]. split; [exact Hb|]. split.
    - intros _. split; [exact Hb|]. cbn. destruct Hx; subst next; eauto 6.
    - intros _. right. rewrite Hm. unfold imeas, irms. cbn [i_state iset_st i_reader i_left]. rewrite Hr.
      destruct Hx; subst next; lia. }
  rewrite Hr.
  destruct (dec_term r (i_left s) (Z.min 128 (i_chunk_size s)) Hk Hb ltac:(lia) ltac:(lia))
    as (res & out & r1 & l1 & Ed & A & A1 & C & D & F & G & H & I).
  rewrite Ed. cbn [obind]. destruct (Z.eqb_spec res 0); cbn [negb].
  2:{ right. do 3 eexists. split; [reflexivity|]. split; [exact A1|]. split.
      - intros X. apply (Hti r1 l1); auto.
      - intros X. left. split; [auto|]. apply F. lia. }
  subst res.
  set (m := zlen out) in *. set (s1 := iset_reader s (Some r1) (i_rsize s) l1).
  specialize (I eq_refl ltac:(lia)). specialize (A ltac:(lia)).
  assert (Hdone : forall s2 w2 data, (i_state s2 = i_state s /\ i_reader s2 = Some r1 /\ i_left s2 = l1 /\ i_rsize s2 = i_rsize s) ->
     exists res s1 w1,
      (let g := i_seg s2 in
       let '(rw, w3) := ip_mem_write E (i_step s2) w2 (wrap (g_to_pos g + g_to_offset g)) data in
            if negb (rw =? 0) then Ret (- E_IO_FAILED, s2, w3)
            else
              Ret (0,
                   iset_chunk_size
                     (iset_seg (iset_to s2 (wrap (i_to_pos s2 + m)) (i_to_size s2))
                        (mksegst (g_index g) (g_from_offset g) (g_to_offset g) (g_to_size g)
                               (wrap (g_to_pos g + m))))
                     (wrap (i_chunk_size s2 - m)), w3)) = Ret (res, s1, w1) /\
      bytes_ok (i_left s1) /\ (0 <= res -> itinv s1) /\
      (0 <= res -> (res <> 0 /\ i_left s1 = []) \/ imeas s1 < imeas s)).
  { intros s2 w2 data (E1 & E2 & E3 & E4). cbv zeta. destruct (ip_mem_write E _ w2 _ data) as [rw w3].
    pose proof (wrap_range (i_chunk_size s2 - m) Hword) as Hwr.
    destruct (negb (rw =? 0)).
    - do 3 eexists. split; [reflexivity|]. unfold E_IO_FAILED. split; [rewrite <- E3 in A1; exact A1|]. split; lia.
    - do 3 eexists. split; [reflexivity|]. split; [rewrite <- E3 in A1; exact A1|].
      match goal with |- (_ -> itinv ?x) /\ _ => destruct (Hti r1 l1 x) as [T1 T2]; auto; [cbn; lia|] end.
      split; [auto|]. intros _. right. rewrite T2, Hm. lia. }
  destruct Hx; subst next.
  - destruct (ip_mem_read E _ w _ m) as [[rr from] w1]. destruct (negb (rr =? 0)).
    + cbn [obind]. right. do 3 eexists. split; [reflexivity|]. unfold E_IO_FAILED. split; [exact A1|]. split; lia.
    + unfold int_add. destruct (in_int _); cbn [obind]; [|auto].
      destruct (add_data out from) as [d| |] eqn:Ea; cbn [obind].
      * match goal with |- context [iset_seg s1 ?g] => destruct (Hdone (iset_seg s1 g) w1 d) as (res & s2 & w2 & X1 & X2) end;
          [repeat split|]. right. exists res, s2, w2. split; [exact X1|exact X2].
      * auto.
      * exfalso. clear -Ea. revert from Ea. induction out; intros from Ea; destruct from; cbn in Ea; try discriminate.
        destruct (add_data out from) eqn:X; cbn in Ea; try discriminate. eapply IHout; eauto.
  - cbn [obind]. destruct (Hdone s1 w out) as (res & s2 & w2 & X1 & X2); [repeat split|].
    right. exists res, s2, w2. split; [exact X1|exact X2].
Qed.

Lemma adjustment_step : forall s w, i_state s = SAdjustment -> itinv s -> step_ok s (ip_process_adjustment E s w).
Proof using WBits.
  intros s w Es (Hb & Hz & _). rewrite Es in Hz. destruct Hz as (Hz & r & Hr & Hk).
  unfold step_ok, ip_process_adjustment. rewrite Hr.
  destruct (isize_term _ r _ Hk Hz Hb) as [U|(res & v & z2 & r2 & l2 & U & V & V1 & V2 & V3 & V4)];
    rewrite U; cbn [obind]; [auto|]. cbv zeta.
  destruct (Z.eqb_spec res 0); cbn [negb].
  2:{ right. do 3 eexists. split; [reflexivity|]. split; [exact V2|]. split.
      - intros X. destruct (V4 X) as (W1 & _). split; [exact V2|]. cbn. rewrite Es. eauto 6.
      - intros X. left. split; [auto|]. apply V1. lia. }
  subst res. destruct (V4 ltac:(lia)) as (W1 & W2 & W3). specialize (W3 eq_refl). pose proof (rm_nonneg r2 l2 W1).
  destruct (_ =? _).
  { destruct (all_steps_completed E w) as [res1 w1]. right. do 3 eexists. split; [reflexivity|]. split; [exact V2|]. split.
    - intros _. split; [exact V2|]. cbn. auto.
    - intros _. right. unfold imeas, irms. cbn [i_state iset_st]. rewrite Es, Hr. lia. }
  destruct (_ =? _).
  { match goal with |- context [next_step E ?a w] => pose proof (next_step_term a w) as N; destruct (next_step E a w) as [[[res1 step1] w1]| |] end;
      cbn [obind]; [|auto|congruence].
    right. do 3 eexists. split; [reflexivity|]. split; [exact V2|]. split.
    - intros _. split; [exact V2|]. cbn. eauto 6.
    - intros _. right. unfold imeas, irms. cbn [i_state iset_st iset_step i_reader iset_reader i_left]. rewrite Es, Hr. lia. }
  unfold int_add. destruct (in_int _); cbn [obind]; [|auto].
  right. do 3 eexists. split; [reflexivity|]. split; [exact V2|]. split.
  - intros _. split; [exact V2|]. cbn. eauto 6.
  - intros _. right. unfold imeas, irms. cbn [i_state iset_st iset_seg i_reader iset_reader i_left]. rewrite Es, Hr. lia.
Qed.

Lemma ionce_term : forall s w, itinv s -> ionce_ok s (ip_process_once E s w).
Proof using Hword.
  intros s w Ht.
  assert (Hd : forall o, step_ok s o ->
    ionce_ok s (letm (res, s1, w1) := o in Ret (res, if res <? 0 then iset_st s1 SFailed else s1, w1))).
  { intros o [->|(res & s1 & w1 & -> & A & B' & D)]; [left; reflexivity|]. cbn [obind].
    right. do 3 eexists. split; [reflexivity|]. destruct (Z.ltb_spec res 0).
    - split; [apply itinv_failed; auto|]. lia.
    - split; [apply B'; lia|]. auto. }
  unfold ip_process_once. destruct (i_state s) eqn:Es.
  - apply Hd. apply process_init_step; auto.
  - apply Hd. apply dfpatch_step; auto.
  - apply Hd. eapply process_size_step; eauto.
  - apply Hd. apply process_data_step; auto. rewrite Es; reflexivity.
  - apply Hd. eapply process_size_step; eauto.
  - apply Hd. apply process_data_step; auto. rewrite Es; reflexivity.
  - apply Hd. apply adjustment_step; auto.
  - cbn [obind]. right. do 3 eexists. split; [reflexivity|]. split; [auto|]. unfold E_ALREADY_DONE. lia.
  - cbn [obind]. right. do 3 eexists. split; [reflexivity|]. unfold E_ALREADY_FAILED.
    split; [apply itinv_failed; destruct Ht; auto|]. lia.
Qed.

(** ** Loops *)

Lemma iloop_term : forall fuel s w res, itinv s -> imeas s < Z.of_nat fuel ->
  ip_process_loop E fuel res s w = Undef \/
  exists res' s' w', ip_process_loop E fuel res s w = Ret (res', s', w') /\ itinv s'.
Proof using Hword.
  induction fuel; intros s w res Ht Hf.
  { pose proof (imeas_nonneg s Ht). lia. }
  cbn [ip_process_loop]. destruct (i_left s) eqn:El; [right; eauto|].
  destruct (Z.ltb_spec res 0); [right; eauto|].
  destruct (ionce_term s w Ht) as [->|(res1 & s1 & w1 & -> & A & D)]; cbn [obind]; [auto|].
  destruct (Z.ltb_spec res1 0) as [N|N].
  - right. destruct fuel; cbn [ip_process_loop]; assert (res1 <? 0 = true) as -> by lia; destruct (i_left s1); eauto.
  - destruct (D ltac:(lia)) as [[D1 D2]|D1].
    + right. destruct fuel; cbn [ip_process_loop]; rewrite D2; eauto.
    + apply IHfuel; auto. lia.
Qed.

Lemma ifinloop_term : forall fuel s w, itinv s -> imeas s < Z.of_nat fuel ->
  ip_finalize_loop E fuel s w = Undef \/
  exists res' s' w', ip_finalize_loop E fuel s w = Ret (res', s', w') /\ itinv s'.
Proof using Hword.
  induction fuel; intros s w Ht Hf.
  { pose proof (imeas_nonneg s Ht). lia. }
  cbn [ip_finalize_loop].
  destruct (ionce_term s w Ht) as [->|(res1 & s1 & w1 & -> & A & D)]; cbn [obind]; [auto|].
  destruct (Z.eqb_spec res1 0); [|right; eauto]. apply IHfuel; auto. destruct (D ltac:(lia)); lia.
Qed.

Lemma itinv_set_chunk : forall s c, itinv (iset_chunk s []) -> bytes_ok c -> itinv (iset_chunk s c).
Proof using WBits. intros s c (A & B & C) Hc. split; [exact Hc|]. exact (conj B C). Qed.

Lemma itinv_set_chunk' : forall s c, itinv s -> bytes_ok c -> itinv (iset_chunk s c).
Proof using WBits. intros s c (A & B & C) Hc. split; [exact Hc|]. exact (conj B C). Qed.

Lemma ifinalize_term : forall s w, itinv (iset_chunk s []) -> exists n, forall fuel, (n <= fuel)%nat ->
  ip_finalize E fuel s w <> OutOfFuel.
Proof using Hword.
  intros s w Ht'. exists (S (Z.to_nat (imeas (iset_chunk s [])))). intros fuel Hf. unfold ip_finalize.
  destruct (ifinloop_term fuel (iset_chunk s []) w Ht') as [->|(res & s' & w' & -> & _)].
  - pose proof (imeas_nonneg _ Ht'). lia.
  - discriminate.
  - cbn [obind]. destruct (common_finalize res (i_reader s') (i_to_size s')) eqn:X; cbn [obind]; try discriminate.
    exfalso. unfold common_finalize in X. cbv zeta in X. destruct (i_reader s') as [r|]; [|discriminate].
    destruct (destroy r) eqn:Y; cbn [obind] in X; try discriminate. eapply destroy_fuel; eauto.
Qed.

Lemma iprocess_term : forall s w c, itinv (iset_chunk s []) -> bytes_ok c -> exists n,
  (forall fuel, (n <= fuel)%nat -> ip_process E fuel s w c = Undef) \/
  (exists res s' w', itinv (iset_chunk s' []) /\ forall fuel, (n <= fuel)%nat -> ip_process E fuel s w c = Ret (res, s', w')).
Proof using Hword.
  intros s w c Ht Hc. set (s1 := iset_chunk s c).
  assert (Ht1 : itinv s1) by (apply itinv_set_chunk; auto).
  set (n := S (Z.to_nat (imeas s1))). exists n. pose proof (imeas_nonneg _ Ht1).
  destruct (iloop_term n s1 w 0 Ht1) as [U|(res & s' & w' & U & T)].
  - lia.
  - left. intros fuel Hf. unfold ip_process. fold s1. rewrite (iloop_mono E _ _ _ _ _ U) by (auto; discriminate). reflexivity.
  - right. do 3 eexists. split; [apply itinv_set_chunk'; [exact T|constructor]|]. intros fuel Hf. unfold ip_process. fold s1.
    rewrite (iloop_mono E _ _ _ _ _ U) by (auto; discriminate). reflexivity.
Qed.

Lemma ifeed_term : forall chunks s w, itinv (iset_chunk s []) -> Forall bytes_ok chunks ->
  exists n, forall fuel, (n <= fuel)%nat -> ip_feed E fuel s w chunks <> OutOfFuel.
Proof using Hword.
  induction chunks as [|c cs IH]; intros s w Ht Hc.
  - cbn [ip_feed]. apply ifinalize_term; auto.
  - inv Hc. destruct (iprocess_term s w c Ht H1) as (n & [U|(res & s' & w' & T & U)]).
    + exists n. intros fuel Hf. cbn [ip_feed]. rewrite U by auto. discriminate.
    + destruct (Z.eqb_spec res 0) as [->|Hr].
      * destruct (IH s' w' T H2) as (n2 & K). exists (max n n2). intros fuel Hf. cbn [ip_feed].
        rewrite U by lia. cbn [obind]. change (0 =? 0) with true. cbv iota. apply K. lia.
      * destruct (ifinalize_term s' w' T) as (n2 & K). exists (max n n2). intros fuel Hf. cbn [ip_feed].
        rewrite U by lia. cbn [obind]. destruct (Z.eqb_spec res 0); [lia|].
        specialize (K fuel ltac:(lia)). destruct (ip_finalize E fuel s' w') as [[[a b] c']| |]; cbn [obind]; congruence.
Qed.

Lemma itinv_init : forall junk ps, itinv (iset_chunk (ip_init junk ps) []).
Proof using WBits. intros junk ps. split; [constructor|]. cbn. split; [congruence|auto]. Qed.

Theorem ip_terminates : forall junk ps chunks w, Forall bytes_ok chunks ->
  exists n, forall fuel, (n <= fuel)%nat -> ip_apply E fuel junk ps w chunks <> OutOfFuel.
Proof using Hword. intros junk ps chunks w H. apply ifeed_term; auto. apply itinv_init. Qed.

(** ** The callback API *)

Lemma icallbacks_term : forall patch_read ps,
  (forall w n rr buf w1, patch_read w n = (rr, buf, w1) -> bytes_ok buf) ->
  forall k po s w, itinv (iset_chunk s []) -> ps - po <= Z.of_nat k ->
  exists n, forall fuel, (n <= fuel)%nat -> ip_callbacks_loop E fuel patch_read ps po s w <> OutOfFuel.
Proof using Hword.
  intros patch_read ps Hpr. induction k; intros po s w Ht Hk.
  { destruct (ifinalize_term s w Ht) as (n & K). exists n. intros fuel Hf.
    destruct fuel; cbn [ip_callbacks_loop]; assert (negb (po <? ps) = true) as -> by lia; apply K; auto. }
  destruct (po <? ps) eqn:Ep.
  2:{ destruct (ifinalize_term s w Ht) as (n & K). exists n. intros fuel Hf.
      destruct fuel; cbn [ip_callbacks_loop]; rewrite Ep; apply K; auto. }
  set (m := Z.min (ps - po) 512).
  destruct (patch_read w m) as [[rr buf] w1] eqn:Er.
  pose proof (Hpr _ _ _ _ _ Er) as Hbuf.
  destruct (ifinalize_term s w1 Ht) as (n1 & K1).
  assert (Hgo : forall n, (forall f, (n <= f)%nat ->
     (let '(rr, buf, w1) := patch_read w m in
        if negb (rr =? 0) then
          letm (r2, s2, w2) := ip_finalize E (S f) s w1 in Ret (- E_IO_FAILED, s2, w2)
        else if negb (zlen buf =? m) then Undef
        else
          letm (res, s1, w2) := ip_process E (S f) s w1 buf in
          if res =? 0
          then ip_callbacks_loop E f patch_read ps (po + m) s1 w2
          else
            letm (r2, s2, w3) := ip_finalize E (S f) s1 w2 in
            Ret (res, s2, w3)) <> OutOfFuel) ->
     exists n, forall fuel, (n <= fuel)%nat -> ip_callbacks_loop E fuel patch_read ps po s w <> OutOfFuel).
  { intros n Hn. exists (S n). intros fuel Hf. destruct fuel as [|f]; [lia|]. cbn [ip_callbacks_loop]. rewrite Ep.
    cbn [negb]. cbv zeta. fold m. apply Hn. lia. }
  rewrite Er in Hgo.
  destruct (negb (rr =? 0)).
  { apply (Hgo n1). intros f Hf. specialize (K1 (S f) ltac:(lia)).
    destruct (ip_finalize E (S f) s w1) as [[[r2 s2] w2]| |]; cbn [obind]; congruence. }
  destruct (negb (zlen buf =? m)).
  { apply (Hgo O). intros; discriminate. }
  destruct (iprocess_term s w1 buf Ht Hbuf) as (n & [U|(res & s' & w' & T & U)]).
  { apply (Hgo n). intros f Hf. rewrite U by lia. discriminate. }
  destruct (Z.eqb_spec res 0) as [->|Hr].
  - destruct (IHk (po + m) s' w' T ltac:(lia)) as (n2 & K). apply (Hgo (max n n2)). intros f Hf.
    rewrite U by lia. cbn [obind]. change (0 =? 0) with true. cbv iota. apply K. lia.
  - destruct (ifinalize_term s' w' T) as (n2 & K). apply (Hgo (max n n2)). intros f Hf.
    rewrite U by lia. cbn [obind]. destruct (Z.eqb_spec res 0); [lia|].
    specialize (K (S f) ltac:(lia)). destruct (ip_finalize E (S f) s' w') as [[[a b] c']| |]; cbn [obind]; congruence.
Qed.

Theorem ip_callbacks_terminate : forall junk patch_read ps w,
  (forall w n rr buf w1, patch_read w n = (rr, buf, w1) -> bytes_ok buf) ->
  exists n, forall fuel, (n <= fuel)%nat -> apply_patch_in_place_callbacks E fuel junk patch_read ps w <> OutOfFuel.
Proof using Hword.
  intros junk patch_read ps w H. unfold apply_patch_in_place_callbacks.
  apply (icallbacks_term patch_read ps H (Z.to_nat ps)); [apply itinv_init|lia].
Qed.

End Term.
