(** No undefined behaviour on arbitrary patches when the callbacks are honest (C11). *)

From Coq Require Import ZArith List Bool Lia ZifyBool ZifyNat ZifyN.
From Verif Require Import Prelude Lib Heatshrink HsProofs CReader ReaderProofs SizeProofs CSeq Spec SeqSim SeqRun SeqTerm SeqMeaning SeqApply SeqSpec SeqInv SeqCount CallbackSpec CallbackProofs.
Import ListNotations.
Open Scope Z_scope.

Ltac Zify.zify_post_hook ::= Z.to_euclidean_division_equations.

Ltac splits := repeat match goal with |- _ /\ _ => split end.

Section Safe.
Context {WBits : WordBits}.
Hypothesis Hword : 32 <= word_bits.

(** ** Readers: every successful read delivers something *)

Definition src (f : list Z) (r : reader) (left : list Z) : Prop :=
  rok0 r /\ bytes_ok left /\ (is_crle r -> nozero r (left ++ f)).

Lemma rok0_crle : forall s, rok0 (RCrle s) -> rok (RCrle s).
Proof. intros s H. exact H. Qed.

Lemma src_dec : forall f r left n, bytes_ok f -> src f r left -> 1 <= n <= 128 ->
  exists res out r1 l1, decompress r left n = Ret (res, out, r1, l1) /\
    res <= 1 /\ bytes_ok l1 /\ (0 <= res -> src f r1 l1) /\ (res = 0 -> out <> []) /\ zlen out <= n /\ (res = 1 -> l1 = []).
Proof.
  intros f r left n Hf (A & B & C) Hn.
  destruct (dec_term r left n A B ltac:(lia) ltac:(lia)) as (res & out & r1 & l1 & E & P1 & P2 & P3 & P4 & P5 & P6 & P7 & P8).
  exists res, out, r1, l1. split; [auto|]. split; [auto|]. split; [auto|].
  assert (Hk : is_crle r \/ ~ is_crle r) by (destruct r; cbn; tauto). destruct Hk as [Hk|Hk].
  - destruct r as [ps po|s|h]; try (destruct Hk; fail). specialize (C I).
    destruct (decompress_spec Hword (RCrle s) left n (rok0_crle _ A) B Hn) as (res' & out' & r1' & c1 & S1 & S2 & S3 & S4 & (used & S5) & S6).
    rewrite E in S1. inv S1.
    assert (Hc1 : exists s1, r1' = RCrle s1).
    { cbn [decompress] in E. apply obind_ret in E. destruct E as ([[[a b] c] d] & _ & E). inv E. eauto. }
    destruct S6 as [(-> & -> & -> & T)|[(-> & T1 & T2 & T3)|(T1 & T2)]].
    + splits; try lia; auto.
      intros _. split; [apply P1; lia|]. split; [auto|]. intros _. cbn [app]. eapply nozero_eq; [exact C|]. apply T; auto.
    + assert (Ho : out' <> []).
      { intros ->. destruct (T2 eq_refl f Hf) as (ra & ia & X). eapply C; [constructor|exact X]. }
      splits; try lia; auto.
      intros _. split; [apply P1; lia|]. split; [auto|]. intros _.
      destruct (T3 Ho f Hf) as (ra & ia & X & Y). eapply nozero_eq; [eapply nozero_pulls; [exact C|exact X]|exact Y].
    + splits; try lia; auto.
  - assert (Hk1 : ~ is_crle r1).
    { destruct r as [ps po|s|h]; [|destruct (Hk I)|]; cbn [decompress] in E.
      - unfold none_decompress in E. destruct (_ <? _); [inv E; auto|]. destruct left; inv E; auto.
      - apply obind_ret in E. destruct E as ([[[a b] c] d] & _ & E). inv E. auto. }
    splits; auto.
    intros X. split; [auto|]. split; [auto|]. tauto.
Qed.

Lemma src_unpack_loop : forall K f z r left byte, bytes_ok f -> src f r left -> zok z -> (zneed z <= K)%nat ->
  exists res v z1 r1 l1, unpack_size_loop K z r left byte 1 = Ret (res, v, z1, r1, l1) /\
    res <= 1 /\ bytes_ok l1 /\ zok z1 /\ (0 <= res -> src f r1 l1) /\ - 2 ^ 27 < v < 2 ^ 27 /\ (res = 1 -> l1 = []).
Proof.
  induction K; intros f z r left byte Hf Hs Hz HK.
  { unfold zneed in HK; destruct (z_cons z); lia. }
  cbn [unpack_size_loop].
  destruct (src_dec f r left 1 Hf Hs ltac:(lia)) as (res & out & r1 & l1 & E & P1 & P2 & P3 & P4 & P5 & P6).
  rewrite E. cbn [obind]. destruct (Z.eqb_spec res 0); cbn [negb].
  2:{ exists res, 0, z, r1, l1. splits; auto; lia. }
  subst res. cbv zeta. specialize (P4 eq_refl). destruct out as [|b out]; [congruence|].
  assert (out = []) as -> by (apply zlen_0_nil; rewrite zlen_cons in P5; pose proof (zlen_nonneg out); lia).
  destruct (size_byte_spec z b Hz) as [(_ & _ & S)|(z1 & S & Ec & Hz1 & Hnd & Hv & _)]; rewrite S; cbn [obind].
  { do 5 eexists. split; [reflexivity|]. unfold E_CORRUPT_PATCH_OVERFLOW. splits; auto; try lia. }
  destruct (Z.land b 128 =? 0).
  { do 5 eexists. split; [reflexivity|]. splits; auto; try lia; try (destruct (z_signed z1); lia). intros X; discriminate. }
  change (zlen [b]) with 1. apply IHK; auto. lia.
Qed.

Lemma src_unpack : forall f z r left, bytes_ok f -> src f r left -> zok z ->
  exists res v z1 r1 l1, unpack_size z r left = Ret (res, v, z1, r1, l1) /\
    res <= 1 /\ bytes_ok l1 /\ zok z1 /\ (0 <= res -> src f r1 l1) /\ - 2 ^ 27 < v < 2 ^ 27 /\ (res = 1 -> l1 = []).
Proof. intros. unfold unpack_size. apply src_unpack_loop; auto. pose proof (zneed_le z H1). lia. Qed.

Lemma src_dable : forall f r left, src f r left -> dable r.
Proof.
  intros f r left (A & _). destruct r as [ps po|s|h]; cbn in *; auto. destruct A as [[A B]|(A & B & d & C & D)]; [congruence|].
  rewrite C. discriminate.
Qed.

(** ** Calls *)

Context {W : Type} (E : seq_env W) (pos : W -> Z).
Hypothesis Hon : honest E pos.

Definition score (f : list Z) (s : ap) (w : W) : Prop :=
  match a_state s with
  | SInit =>
      bytes_ok (a_left s) /\ a_from_offset s = 0 /\ pos w = 0 /\
      if a_to_init s then zok (a_size s) /\
        (a_compression s = 2 -> forall v z1 l1, unpack_header_size (a_left s ++ f) (a_size s) = Ret (0, v, z1, l1) -> nozero (RCrle CIdle) l1)
      else body_nz (a_left s ++ f)
  | SDone | SFailed => True
  | _ => a_from_offset s = pos w /\ 0 <= pos w <= INT_MAX /\ zok (a_rsize s) /\
      (exists r, a_reader s = Some r /\ src f r (a_left s)) /\
      (match a_state s with SDiffData | SExtraData => 0 <= a_chunk_size s | _ => True end)
  end.

Ltac neg := cbv [E_SHORT_HEADER E_BAD_PATCH_TYPE E_BAD_COMPRESSION E_CORRUPT_PATCH E_NOT_IMPLEMENTED E_IO_FAILED E_CORRUPT_PATCH_OVERFLOW]; lia.

Lemma uhs_bytes : forall left z v z1 l1 e, unpack_header_size left z = Ret (e, v, z1, l1) -> bytes_ok left -> bytes_ok l1.
Proof.
  induction left; intros z' v' z1' l1' e' E' B'; [inv E'; auto|]. inv B'. rewrite uhs_unfold in E'.
  apply obind_ret in E'. destruct E' as (oz & A & B). destruct oz; [|inv B; auto].
  destruct (Z.land a 128 =? 0); [inv B; auto|]. eapply IHleft; eauto.
Qed.

Lemma init_safe : forall f s w, bytes_ok f -> a_state s = SInit -> score f s w ->
  exists res s1, process_init s = Ret (res, s1) /\ (0 <= res -> score f s1 w /\ (res = 1 -> a_left s1 = [])).
Proof.
  intros f s w Hf Es Hi. unfold score in Hi. rewrite Es in Hi. destruct Hi as (Hb & F1 & F2 & Hi). unfold process_init.
  destruct (a_to_init s) eqn:Et.
  - destruct Hi as [Hz Hc]. unfold process_init_to_size.
    destruct (uhs_app (a_left s) (a_size s) f Hz)
      as [(z1 & P & Q & R)|[(v & z1 & l1 & used & P & Q & R & S)|(z1 & l1 & P & R)]]; rewrite P; cbn [obind]; cbv zeta.
    + do 2 eexists. split; [reflexivity|]. intros _. split; [|reflexivity].
      unfold score. cbn. rewrite Es, Et. splits; auto; [constructor|].
      intros X v z2 l2 U. eapply Hc; auto. rewrite R. exact U.
    + change (negb (0 =? 0)) with false. cbv iota.
      assert (Hl1 : bytes_ok l1) by (rewrite R in Hb; apply Forall_app in Hb; tauto).
      destruct (reader_init _ _) as [r|] eqn:Er.
      2:{ do 2 eexists. split; [reflexivity|]. neg. }
      assert (Hs : src f r l1).
      { destruct (rm_init_le _ _ _ l1 Er) as [K1 _]. split; [auto|]. split; [auto|]. intros K2.
        cbn [a_compression set_header] in Er.
        unfold reader_init in Er. destruct (a_compression s =? 0); [inv Er; destruct K2|].
        destruct (Z.eqb_spec (a_compression s) 2) as [X|]; [inv Er|destruct (a_compression s =? 4); inv Er; destruct K2].
        eapply Hc; eauto. }
      destruct (Z.ltb_spec v 0); [lia|].
      do 2 eexists. split; [reflexivity|]. intros _. split; [|intros; lia].
      unfold score. cbn. destruct (0 <? v); [|auto]. rewrite F1, F2.
      splits; auto; unfold INT_MAX; try lia; [intros X; discriminate|exists r; auto].
    + do 2 eexists. split; [reflexivity|]. neg.
  - unfold process_init_fixed_header. destruct (a_left s) as [|b l] eqn:El.
    { do 2 eexists. split; [reflexivity|]. neg. }
    inv Hb. cbv zeta. destruct (negb _).
    { do 2 eexists. split; [reflexivity|]. neg. }
    do 2 eexists. split; [reflexivity|]. intros _. split; [|intros; lia].
    unfold score. cbn. rewrite Es. splits; auto; [intros X; discriminate|].
    intros Hk v z1 l1 U. eapply (Hi b (l ++ f)); [reflexivity|exact Hk| |exact U]. reflexivity.
Qed.

Lemma data_safe : forall f s w next, bytes_ok f -> data_next (a_state s) = Some next -> score f s w ->
  exists res s1 w1, process_data E 128 s w next = Ret (res, s1, w1) /\ (0 <= res -> score f s1 w1 /\ (res = 1 -> a_left s1 = [])).
Proof.
  intros f s w next Hf Hn Hi. unfold score in Hi.
  assert (Hi' : a_from_offset s = pos w /\ 0 <= pos w <= INT_MAX /\ zok (a_rsize s) /\
      (exists r, a_reader s = Some r /\ src f r (a_left s)) /\ 0 <= a_chunk_size s).
  { destruct (a_state s); try discriminate Hn; auto. }
  clear Hi. destruct Hi' as (F1 & F2 & Hz & (r & Hr & Hs) & Hc).
  destruct (data_next_cases _ _ Hn) as (Hx & Hnd & Hni).
  unfold process_data. cbv zeta. destruct (Z.eqb_spec (Z.min 128 (a_chunk_size s)) 0).
  { do 3 eexists. split; [reflexivity|]. intros _. split; [|intros; lia]. unfold score.
    cbn. destruct Hx; subst next; splits; auto; lia || eauto. }
  rewrite Hr.
  destruct (src_dec f r (a_left s) (Z.min 128 (a_chunk_size s)) Hf Hs ltac:(lia)) as (res & out & r1 & l1 & Ed & P1 & P2 & P3 & P4 & P5 & P6).
  rewrite Ed. cbn [obind].
  assert (Hok : forall s1 w1, a_state s1 = a_state s -> a_from_offset s1 = pos w1 -> 0 <= pos w1 <= INT_MAX -> a_rsize s1 = a_rsize s ->
     a_reader s1 = Some r1 -> a_left s1 = l1 -> 0 <= a_chunk_size s1 -> src f r1 l1 -> score f s1 w1).
  { intros s1 w1 K1 K2 K3 K4 K5 K6 K7 K8. unfold score.
    rewrite K1, K4, K5, K6. destruct (a_state s); try discriminate Hn; splits; auto; try lia; eauto. }
  destruct (Z.eqb_spec res 0) as [->|Hne]; cbn [negb].
  2:{ do 3 eexists. split; [reflexivity|]. intros X. split; [apply Hok; auto|auto]. }
  specialize (P3 ltac:(lia)). destruct Hon as (H1 & H2 & H3).
  destruct Hx as [-> | ->].
  - change (a_from_offset (set_reader s (Some r1) (a_rsize s) l1)) with (a_from_offset s).
    destruct (from_read E w (zlen out)) as [[rr from] w2] eqn:Er. destruct (Z.eqb_spec rr 0); cbn [negb obind].
    2:{ do 3 eexists. split; [reflexivity|]. neg. }
    destruct (H1 _ _ _ _ _ Er e) as (A1 & A2 & A3).
    rewrite add_data_mod by auto. cbn [obind].
    destruct (to_write E w2 (add_mod out from)) as [rw w3] eqn:Ew. destruct (Z.eqb_spec rw 0); cbn [negb].
    2:{ do 3 eexists. split; [reflexivity|]. neg. }
    pose proof (H3 _ _ _ _ Ew e0) as A4. pose proof (zlen_nonneg out).
    do 3 eexists. split; [reflexivity|]. intros _. split; [|intros; lia].
    apply Hok; auto; cbn; try lia.
    + rewrite F1, A4, A2. apply to_int_small. unfold INT_MIN, INT_MAX in *. lia.
    + apply wrap_range; auto.
  - cbn [obind].
    destruct (to_write E w out) as [rw w3] eqn:Ew. destruct (Z.eqb_spec rw 0); cbn [negb].
    2:{ do 3 eexists. split; [reflexivity|]. neg. }
    pose proof (H3 _ _ _ _ Ew e) as A4.
    do 3 eexists. split; [reflexivity|]. intros _. split; [|intros; lia].
    apply Hok; auto; cbn; try lia. apply wrap_range; auto.
Qed.

Lemma size_safe : forall f s w next, bytes_ok f -> next = SDiffData \/ next = SExtraData ->
  a_state s = SDiffSize \/ a_state s = SExtraSize -> score f s w ->
  exists res s1, process_size s next = Ret (res, s1) /\ (0 <= res -> score f s1 w /\ (res = 1 -> a_left s1 = [])).
Proof.
  intros f s w next Hf Hn Hst Hi. unfold score in Hi.
  assert (Hi' : a_from_offset s = pos w /\ 0 <= pos w <= INT_MAX /\ zok (a_rsize s) /\
      (exists r, a_reader s = Some r /\ src f r (a_left s))) by (destruct Hst as [X|X]; rewrite X in Hi; tauto).
  clear Hi. destruct Hi' as (F1 & F2 & Hz & (r & Hr & Hs)).
  unfold process_size, common_process_size. rewrite Hr.
  destruct (src_unpack f _ _ _ Hf Hs Hz) as (res & v & z1 & r1 & l1 & -> & P1 & P2 & P3 & P4 & P5 & P6). cbn [obind]. cbv zeta.
  destruct (Z.eqb_spec res 0); cbn [negb obind].
  - subst res. specialize (P4 ltac:(lia)). destruct (_ <? _); cbn [obind].
    + do 2 eexists. split; [reflexivity|]. neg.
    + do 2 eexists. split; [reflexivity|]. intros _. split; [|intros; lia]. unfold score. cbn.
      pose proof (wrap_range v Hword). destruct Hn as [-> | ->]; splits; auto; try lia; eauto.
  - destruct (Z.eqb_spec res 0); [congruence|]. cbn [negb]. do 2 eexists. split; [reflexivity|]. intros X. specialize (P4 X). split; [|auto].
    unfold score. cbn. destruct Hst as [Y|Y]; rewrite Y; splits; auto; try lia; eauto.
Qed.

Lemma once_safe : forall f s w, bytes_ok f -> dinv s -> score f s w ->
  exists res s1 w1, process_once E 128 s w = Ret (res, s1, w1) /\ dinv s1 /\ score f s1 w1 /\ (res = 1 -> a_left s1 = []).
Proof.
  intros f s w Hf Hd Hi.
  assert (K : exists res s1 w1, process_once E 128 s w = Ret (res, s1, w1) /\ score f s1 w1 /\ (res = 1 -> a_left s1 = [])).
  2:{ destruct K as (res & s1 & w1 & K1 & K2 & K3). exists res, s1, w1. splits; auto. eapply once_dinv; eauto. }
  assert (K : forall out, a_state s <> SDone -> 
    (exists res s1 w1, out = Ret (res, s1, w1) /\ (0 <= res -> score f s1 w1 /\ (res = 1 -> a_left s1 = []))) ->
    exists res s1 w1, (letm (res, s1, w1) := out in
      match a_state s with SDone => Ret (res, s1, w1) | _ => Ret (res, if res <? 0 then set_st s1 SFailed else s1, w1) end) = Ret (res, s1, w1) /\ score f s1 w1 /\ (res = 1 -> a_left s1 = [])).
  { intros out N1 (res & s1 & w1 & -> & C). cbn [obind].
    exists res, (if res <? 0 then set_st s1 SFailed else s1), w1.
    split; [destruct (a_state s); congruence|]. destruct (Z.ltb_spec res 0); [split; [exact I|lia]|apply C; lia]. }
  unfold process_once.
  destruct (a_state s) eqn:Es; try (apply K; [discriminate|]).
  - destruct (init_safe f s w Hf Es Hi) as (res & s1 & -> & A). cbn [obind]. eauto 6.
  - assert (Hi0 := Hi). unfold score in Hi. rewrite Es in Hi. destruct Hi as (F1 & F2 & Hz & (r & Hr & Hs) & _). unfold process_dfpatch_size. rewrite Hr.
    destruct (src_unpack f _ _ _ Hf Hs Hz) as (res & v & z1 & r1 & l1 & -> & P1 & P2 & P3 & P4 & P5 & P6). cbn [obind]. cbv zeta.
    destruct (Z.eqb_spec res 0); cbn [negb].
    + subst res. specialize (P4 ltac:(lia)). destruct (0 <? v); cbn [obind].
      * do 3 eexists. split; [reflexivity|]. neg.
      * do 3 eexists. split; [reflexivity|]. intros _. split; [|intros; lia]. unfold score. cbn. splits; auto; try lia. eauto.
    + cbn [obind]. do 3 eexists. split; [reflexivity|]. intros X. specialize (P4 X). split; [|auto]. unfold score. cbn. rewrite Es. splits; auto; try lia. eauto.
  - destruct (size_safe f s w SDiffData Hf) as (res & s1 & -> & A); auto. cbn [obind]. eauto 6.
  - apply data_safe; auto. rewrite Es. reflexivity.
  - destruct (size_safe f s w SExtraData Hf) as (res & s1 & -> & A); auto. cbn [obind]. eauto 6.
  - apply data_safe; auto. rewrite Es. reflexivity.
  - assert (Hi0 := Hi). unfold score in Hi. rewrite Es in Hi. destruct Hi as (F1 & F2 & Hz & (r & Hr & Hs) & _). unfold process_adjustment. rewrite Hr.
    destruct (src_unpack f _ _ _ Hf Hs Hz) as (res & v & z1 & r1 & l1 & -> & P1 & P2 & P3 & P4 & P5 & P6). cbn [obind]. cbv zeta.
    destruct (Z.eqb_spec res 0); cbn [negb].
    + subst res. specialize (P4 ltac:(lia)). destruct (from_seek E w v) as [rs w1] eqn:Ek. destruct (Z.eqb_spec rs 0); cbn [negb].
      2:{ do 3 eexists. split; [reflexivity|]. neg. }
      destruct Hon as (H1 & H2 & H3). destruct (H2 _ _ _ _ Ek e) as (A1 & A2 & A3).
      cbn [a_from_offset set_reader]. rewrite F1. unfold int_add.
      assert (X : in_int (pos w + v) = true) by (unfold in_int, INT_MIN, INT_MAX in *; lia).
      rewrite X. cbn [obind]. do 3 eexists. split; [reflexivity|]. intros _. split; [|intros; lia]. unfold score. cbn. destruct (_ =? _); [auto|].
      splits; auto; try lia. eauto.
    + do 3 eexists. split; [reflexivity|]. intros X. specialize (P4 X). split; [|auto]. unfold score. cbn. rewrite Es. splits; auto; try lia. eauto.
  - do 3 eexists. split; [reflexivity|]. split; [unfold score; rewrite Es; exact I|discriminate].
  - do 3 eexists. split; [reflexivity|]. unfold E_ALREADY_FAILED. lia.
Qed.

(** The state between two calls: [f] is everything that may still come. *)
Definition between (f : list Z) (s : ap) (w : W) : Prop := dinv s /\ score f (set_chunk s []) w.

Lemma score_chunk : forall f s w p, bytes_ok p -> score (p ++ f) (set_chunk s []) w -> score f (set_chunk s p) w.
Proof.
  intros f s w p Hp H. unfold score in *. cbn [a_state set_chunk a_left a_reader a_rsize a_from_offset a_to_init a_size a_compression a_chunk_size] in *.
  destruct (a_state s); auto.
  - destruct H as (A & B & C & D). splits; auto.
  - destruct H as (A & B & C & (r & D & F & G & K) & L). splits; auto; try lia. exists r. split; [auto|]. split; [auto|]. split; auto.
  - destruct H as (A & B & C & (r & D & F & G & K) & L). splits; auto; try lia. exists r. split; [auto|]. split; [auto|]. split; auto.
  - destruct H as (A & B & C & (r & D & F & G & K) & L). splits; auto; try lia. exists r. split; [auto|]. split; [auto|]. split; auto.
  - destruct H as (A & B & C & (r & D & F & G & K) & L). splits; auto; try lia. exists r. split; [auto|]. split; [auto|]. split; auto.
  - destruct H as (A & B & C & (r & D & F & G & K) & L). splits; auto; try lia. exists r. split; [auto|]. split; [auto|]. split; auto.
  - destruct H as (A & B & C & (r & D & F & G & K) & L). splits; auto; try lia. exists r. split; [auto|]. split; [auto|]. split; auto.
Qed.

Lemma loop_safe : forall fuel f res s w, bytes_ok f -> dinv s -> score f s w ->
  (res < 0 -> a_state s = SDone \/ a_state s = SFailed) ->
  process_loop E fuel 128 res s w = OutOfFuel \/
  exists res1 s1 w1, process_loop E fuel 128 res s w = Ret (res1, s1, w1) /\ between f s1 w1.
Proof.
  induction fuel; intros f res s w Hf Hd Hs Hr; cbn [process_loop].
  - destruct (a_left s) eqn:El.
    { right. do 3 eexists. split; [reflexivity|]. split; [auto|]. unfold score in *. cbn. rewrite El in Hs. exact Hs. }
    destruct (Z.ltb_spec res 0); [|auto]. right. do 3 eexists. split; [reflexivity|]. split; [auto|].
    unfold score. cbn. destruct (Hr H) as [X|X]; rewrite X; exact I.
  - destruct (a_left s) eqn:El.
    { right. do 3 eexists. split; [reflexivity|]. split; [auto|]. unfold score in *. cbn. rewrite El in Hs. exact Hs. }
    destruct (Z.ltb_spec res 0).
    { right. do 3 eexists. split; [reflexivity|]. split; [auto|].
      unfold score. cbn. destruct (Hr H) as [X|X]; rewrite X; exact I. }
    destruct (once_safe f s w Hf Hd Hs) as (r1 & s1 & w1 & A & B & C & L). rewrite A. cbn [obind].
    apply IHfuel; auto. intros X. apply once_code in A.
    destruct A as [(A1 & A2 & A3 & A4)|[(A1 & A2 & A3 & A4)|(A1 & A2 & A3 & A4)]]; subst; auto.
Qed.

Lemma process_safe : forall fuel f s w piece, bytes_ok f -> bytes_ok piece -> between (piece ++ f) s w ->
  process E fuel 128 s w piece = OutOfFuel \/
  exists res1 s1 w1, process E fuel 128 s w piece = Ret (res1, s1, w1) /\ between f s1 w1.
Proof.
  intros fuel f s w piece Hf Hp (Hd & Hb). unfold process. cbv zeta.
  destruct (loop_safe fuel f 0 (set_chunk (set_patch_offset s (wrap (a_patch_offset s + zlen piece))) piece) w Hf) as [X|(r & s1 & w1 & X & Y)].
  - exact Hd.
  - apply score_chunk in Hb; [|auto]. exact Hb.
  - lia.
  - left. rewrite X. reflexivity.
  - right. rewrite X. cbn [obind]. do 3 eexists. split; [reflexivity|exact Y].
Qed.

Lemma finloop_safe : forall fuel f s w, bytes_ok f -> dinv s -> score f s w ->
  finalize_loop E fuel 128 s w = OutOfFuel \/
  exists res1 s1 w1, finalize_loop E fuel 128 s w = Ret (res1, s1, w1) /\ between f s1 w1.
Proof.
  induction fuel; intros f s w Hf Hd Hs; cbn [finalize_loop]; [auto|].
  destruct (once_safe f s w Hf Hd Hs) as (r1 & s1 & w1 & A & B & C & L). rewrite A. cbn [obind].
  destruct (Z.eqb_spec r1 0); [apply IHfuel; auto|]. right. do 3 eexists. split; [reflexivity|]. split; [auto|].
  assert (X : a_state s1 = SDone \/ a_state s1 = SFailed \/ r1 = 1).
  { apply once_code in A. destruct A as [(A1 & A2 & A3 & A4)|[(A1 & A2 & A3 & A4)|(A1 & A2 & A3 & A4)]]; subst; auto.
    destruct A3 as [|[|[]]]; [congruence|auto|]. right; left. apply A4; lia. }
  unfold score in *. cbn. destruct X as [X|[X|X]]; [rewrite X; exact I|rewrite X; exact I|]. rewrite (L X) in C. exact C.
Qed.

Lemma destroy_safe : forall r, dable r -> exists d, destroy r = Ret d.
Proof.
  intros [ps po|c|h] H; cbn in *; eauto. destruct (hr_ptr h); [|eauto].
  destruct (hr_dec h); [eauto|]. exfalso. apply H; auto.
Qed.

Lemma finalize_safe : forall fuel f s w, bytes_ok f -> between f s w ->
  finalize E fuel 128 s w = OutOfFuel \/
  exists res1 s1 w1, finalize E fuel 128 s w = Ret (res1, s1, w1) /\ between f s1 w1.
Proof.
  intros fuel f s w Hf (Hd & Hs). unfold finalize. cbv zeta.
  destruct (finloop_safe fuel f (set_chunk s []) w Hf Hd Hs) as [X|(res & s1 & w1 & X & Y)]; rewrite X; cbn [obind]; [auto|].
  right. assert (Z : exists r, common_finalize res (a_reader s1) (a_to_size s1) = Ret r).
  { unfold common_finalize. destruct (a_reader s1) as [r|] eqn:Er; [|cbn [obind]; eauto].
    destruct Y as [Y _]. destruct (destroy_safe r (Y r Er)) as (d & ->). cbn [obind]. eauto. }
  destruct Z as (r & ->). cbn [obind]. eauto 6.
Qed.

Lemma run_safe : forall calls fuel s w, bytes_ok (concat (pieces_of calls)) -> between (concat (pieces_of calls)) s w ->
  run_calls E fuel s w calls <> Undef.
Proof.
  induction calls as [|c cs IH]; intros fuel s w Hb Hs; cbn [run_calls]; [discriminate|].
  unfold pieces_of in *. cbn [map concat] in Hb, Hs. apply Forall_app in Hb. destruct Hb as [Hp Hb].
  assert (K : (match c with CallProcess piece => process E fuel 128 s w piece | CallFinalize => finalize E fuel 128 s w end) = OutOfFuel \/
    exists res1 s1 w1, (match c with CallProcess piece => process E fuel 128 s w piece | CallFinalize => finalize E fuel 128 s w end) = Ret (res1, s1, w1) /\
      between (concat (pieces_of cs)) s1 w1).
  { destruct c; [apply process_safe; auto|apply finalize_safe; auto]. }
  destruct K as [->|(r & s1 & w1 & -> & K)]; cbn [obind]; [discriminate|].
  specialize (IH fuel s1 w1 Hb K). destruct (run_calls E fuel s1 w1 cs) as [[[a b] c']| |]; cbn [obind]; congruence.
Qed.

Lemma init_between : forall junk ps w patch, bytes_ok patch -> pos w = 0 -> crle_ok patch -> between patch (ap_init junk ps) w.
Proof.
  intros junk ps w patch Hb Hw Hc. split; [intros r X; discriminate X|]. unfold score. cbn. splits; auto; [constructor|].
  apply crle_ok_nz; auto.
Qed.

Lemma feed_run : forall chunks fuel s w, bytes_ok (concat chunks) -> between (concat chunks) s w ->
  feed E fuel 128 s w chunks <> Undef.
Proof.
  induction chunks as [|c cs IH]; intros fuel s w Hb Hs; cbn [feed].
  - destruct (finalize_safe fuel [] s w Hb Hs) as [->|(r & s1 & w1 & -> & _)]; discriminate.
  - cbn [concat] in *. apply Forall_app in Hb. destruct Hb as [Hp Hb].
    destruct (process_safe fuel _ s w c Hb Hp Hs) as [->|(r & s1 & w1 & -> & K)]; cbn [obind]; [discriminate|].
    destruct (r =? 0); [apply IH; auto|].
    destruct (finalize_safe fuel _ s1 w1 Hb K) as [->|(r2 & s2 & w2 & -> & _)]; discriminate.
Qed.

End Safe.

Lemma bytes_ok_zdrop : forall n l, bytes_ok l -> bytes_ok (zdrop n l).
Proof. intros n l H. rewrite <- (ztake_zdrop n l) in H. apply Forall_app in H. tauto. Qed.

Lemma bytes_ok_ztake : forall n l, bytes_ok l -> bytes_ok (ztake n l).
Proof. intros n l H. rewrite <- (ztake_zdrop n l) in H. apply Forall_app in H. tauto. Qed.

Section SafeTop.
Context {WBits : WordBits}.
Hypothesis Hword : 32 <= word_bits.

Lemma calls_safe : forall (W : Type) (E : seq_env W) (pos : W -> Z), honest E pos ->
  forall junk ps w calls fuel, pos w = 0 -> Forall bytes_ok (pieces_of calls) -> crle_ok (concat (pieces_of calls)) ->
  run_calls E fuel (ap_init junk ps) w calls <> Undef.
Proof.
  intros W E pos Hon junk ps w calls fuel Hw Hb Hc. apply bytes_ok_concat in Hb. eapply run_safe; eauto. apply init_between; auto.
Qed.

Lemma feed_safe : forall (W : Type) (E : seq_env W) (pos : W -> Z), honest E pos ->
  forall junk ps w chunks fuel, pos w = 0 -> Forall bytes_ok chunks -> crle_ok (concat chunks) ->
  feed E fuel 128 (ap_init junk ps) w chunks <> Undef.
Proof.
  intros W E pos Hon junk ps w chunks fuel Hw Hb Hc. apply bytes_ok_concat in Hb. eapply feed_run; eauto. apply init_between; auto.
Qed.

Lemma honest_with : forall (W : Type) (E : seq_env W) (pos : W -> Z) X, honest E pos -> honest (env_with E X) (fun wx => pos (fst wx)).
Proof.
  intros W E pos X (H1 & H2 & H3). unfold honest. splits; cbn [env_with from_read from_seek to_write].
  - intros [w x] n rr buf w1 A B. cbn in *. destruct (from_read E w n) as [[r b] w2] eqn:Q. inv A. eapply H1; eauto.
  - intros [w x] n rr w1 A B. cbn in *. destruct (from_seek E w n) as [r w2] eqn:Q. inv A. eapply H2; eauto.
  - intros [w x] n rr w1 A B. cbn in *. destruct (to_write E w n) as [r w2] eqn:Q. inv A. eapply H3; eauto.
Qed.

Lemma callbacks_safe : forall (W : Type) (E : seq_env W) (pos : W -> Z), honest E pos ->
  forall junk patch w fuel, pos w = 0 -> bytes_ok patch -> crle_ok patch ->
  apply_patch_callbacks (env_with E Z) fuel junk (patch_file patch) (zlen patch) (w, 0) <> Undef.
Proof.
  intros W E pos Hon0 junk patch w fuel Hw Hb Hc. pose proof (honest_with W E pos Z Hon0) as Hon.
  assert (K : forall fuel po s w, 0 <= po -> between (fun wx => pos (fst wx)) (zdrop po patch) s (w, po) ->
    callbacks_loop (env_with E Z) fuel (patch_file patch) (zlen patch) po s (w, po) <> Undef).
  { clear w Hw fuel. induction fuel; intros po s w Hpo Hs.
    - cbn [callbacks_loop]. destruct (negb _); [|discriminate].
      destruct (finalize_safe Hword (env_with E Z) _ Hon 0 _ s (w, po) (bytes_ok_zdrop _ _ Hb) Hs) as [->|(r & s1 & w1 & -> & _)]; discriminate.
    - cbn [callbacks_loop]. destruct (Z.ltb_spec po (zlen patch)); cbn [negb].
      2:{ destruct (finalize_safe Hword (env_with E Z) _ Hon (S fuel) _ s (w, po) (bytes_ok_zdrop _ _ Hb) Hs) as [->|(r & s1 & w1 & -> & _)]; discriminate. }
      cbv zeta. set (m := Z.min (zlen patch - po) 512). unfold patch_file at 1.
      destruct (Z.leb_spec (po + m) (zlen patch)); [|lia]. change (negb (0 =? 0)) with false. cbv iota.
      replace (zlen (ztake m (zdrop po patch))) with m by (rewrite zlen_ztake, zlen_zdrop by lia; lia). rewrite Z.eqb_refl. cbn [negb].
      assert (Hs' : between (fun wx : W * Z => pos (fst wx)) (ztake m (zdrop po patch) ++ zdrop (po + m) patch) s (w, po + m)).
      { replace (zdrop (po + m) patch) with (zdrop m (zdrop po patch)) by (rewrite zdrop_zdrop by lia; f_equal; lia).
        rewrite ztake_zdrop. exact Hs. }
      destruct (process_safe Hword (env_with E Z) _ Hon (S fuel) _ s (w, po + m) _ (bytes_ok_zdrop (po + m) _ Hb) (bytes_ok_ztake m _ (bytes_ok_zdrop po _ Hb)) Hs')
        as [->|(r & s1 & [w1 q] & X & K)]; [discriminate|].
      assert (q = po + m).
      { rewrite process_hom in X. destruct (process E (S fuel) 128 s w (ztake m (zdrop po patch))) as [[[a b] c]| |]; cbn in X; inv X. auto. }
      subst q. rewrite X. cbn [obind]. destruct (r =? 0).
      + apply IHfuel; [lia|auto].
      + destruct (finalize_safe Hword (env_with E Z) _ Hon (S fuel) _ s1 (w1, po + m) (bytes_ok_zdrop _ _ Hb) K) as [->|(r2 & s2 & w2 & -> & _)]; discriminate. }
  unfold apply_patch_callbacks. apply K; [lia|]. apply init_between; auto.
Qed.
End SafeTop.
