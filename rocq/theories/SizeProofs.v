(** Size fields read through a patch reader: reading from chunks agrees with
    reading from the whole input. *)

From Coq Require Import ZArith List Bool Lia ZifyBool ZifyNat ZifyN.
From Verif Require Import Prelude Lib Heatshrink HsProofs CReader ReaderProofs Spec.
Import ListNotations.
Open Scope Z_scope.

Ltac Zify.zify_post_hook ::= Z.to_euclidean_division_equations.

Section Sizes.
Context {WBits : WordBits}.
Hypothesis Hword : 32 <= word_bits.

(** No pull ever delivers zero bytes (no empty CRLE segment is met). *)
Definition nozero (r : reader) (i : list Z) : Prop :=
  forall o r1 i1 r2 i2, pulls r i o r1 i1 -> pull r1 i1 <> Ret (0, [], r2, i2).

Lemma nozero_eq : forall r i r' i', nozero r i -> pull r i = pull r' i' -> nozero r' i'.
Proof.
  intros r i r' i' Hn E o r1 i1 r2 i2 P. inv P.
  - rewrite <- E. apply (Hn [] r i). constructor.
  - apply (Hn (c :: o0) r1 i1). econstructor; [rewrite E; eassumption|auto].
Qed.

Lemma nozero_step : forall r i b r' i', nozero r i -> pull r i = Ret (0, [b], r', i') -> nozero r' i'.
Proof.
  intros r i b r' i' Hn E o r1 i1 r2 i2 P. apply (Hn (b :: o) r1 i1).
  econstructor; eauto.
Qed.

Lemma nozero_pulls : forall r i o r' i', nozero r i -> pulls r i o r' i' -> nozero r' i'.
Proof.
  intros r i o r' i' Hn P o2 r1 i1 r2 i2 Q. apply (Hn (o ++ o2) r1 i1). eapply pulls_app; eauto.
Qed.

Definition zok (z : size_st) : Prop :=
  z_cons z = true ->
  z_offset z mod 7 = 6 /\ 6 <= z_offset z <= 27 /\ 0 <= z_value z < 2 ^ z_offset z.

(** Bytes a size field can still need, plus one for the overflow error. *)
Definition zneed (z : size_st) : nat :=
  if z_cons z then S (Z.to_nat ((27 - z_offset z) / 7)) else 5%nat.

Lemma zneed_le : forall z, zok z -> (zneed z <= 5)%nat.
Proof. intros z H. unfold zneed. destruct (z_cons z) eqn:E; [|lia]. destruct (H E). lia. Qed.

(** unpack_size_loop without its local variables. *)
Fixpoint us (fuel : nat) (z : size_st) (r : reader) (i : list Z)
  : outcome (Z * Z * size_st * reader * list Z) :=
  match fuel with
  | O => OutOfFuel
  | S f =>
      letm (res, out, r1, left1) := pull r i in
      if negb (res =? 0) then Ret (res, 0, z, r1, left1)
      else
        match out with
        | [] => Undef
        | b :: _ =>
            letm oz := size_byte z b in
            match oz with
            | None => Ret (- E_CORRUPT_PATCH_OVERFLOW, 0, z, r1, left1)
            | Some z1 =>
                if Z.land b 128 =? 0 then
                  let v := if z_signed z1 then - z_value z1 else z_value z1 in
                  Ret (0, v, mksz false v (z_offset z1) (z_signed z1), r1, left1)
                else us f z1 r1 left1
            end
        end
  end.

Lemma size_byte_spec : forall z b, zok z ->
  (z_cons z = true /\ z_offset z = 27 /\ size_byte z b = Ret None) \/
  (exists z1, size_byte z b = Ret (Some z1) /\ z_cons z1 = true /\ zok z1 /\ (S (zneed z1) = zneed z)%nat
     /\ 0 <= z_value z1 < 2 ^ 27 /\
     (z_cons z = true -> z_offset z <> 27 /\ z_offset z1 = z_offset z + 7 /\ z_signed z1 = z_signed z /\
        z_value z1 = z_value z + b mod 128 * 2 ^ z_offset z) /\
     (z_cons z = false -> z_offset z1 = 6 /\ z_value z1 = b mod 64 /\
        z_signed z1 = Z.testbit b 6)).
Proof.
  intros z b Hz. unfold size_byte. destruct (z_cons z) eqn:Ec.
  - destruct (Hz Ec) as (Hm & Ho & Hv).
    destruct (is_overflow (z_offset z)) eqn:Eo.
    + left. unfold is_overflow in Eo. split; [auto|]. split; [lia|reflexivity].
    + right. assert (Ho' : z_offset z <= 20) by (unfold is_overflow in Eo; lia).
      destruct (acc_bits_ok (z_value z) b (z_offset z)) as [A B]; [lia|lia|].
      rewrite A. cbn [obind]. eexists. split; [reflexivity|]. cbn [z_cons z_offset z_value z_signed].
      assert (2 ^ (z_offset z + 7) <= 2 ^ 27) by (apply Z.pow_le_mono_r; lia).
      split; [auto|]. split; [intros _; cbn; split; [lia|split; [lia|exact B]]|].
      split; [unfold zneed; cbn [z_cons z_offset]; rewrite Ec; lia|]. split; [lia|].
      split; [intros _; split; [lia|auto]|discriminate].
  - right. eexists. split; [reflexivity|]. cbn [z_cons z_offset z_value z_signed]. rewrite land_63.
    pose proof (Z.mod_pos_bound b 64 ltac:(lia)).
    split; [auto|]. split; [intros _; cbn; split; [reflexivity|split; [lia|change (2 ^ 6) with 64; lia]]|].
    split; [unfold zneed; cbn; rewrite Ec; reflexivity|]. split; [lia|]. split; [discriminate|].
    intros _. split; [auto|]. split; [auto|].
    change 64 with (2 ^ 6) at 1. rewrite land_pow2 by lia. change (2 ^ 6) with 64.
    destruct (Z.testbit b 6); reflexivity.
Qed.

Lemma us_fuel : forall K K' z r i, rok r -> bytes_ok i -> zok z ->
  (zneed z <= K)%nat -> (zneed z <= K')%nat -> us K z r i = us K' z r i.
Proof.
  induction K; intros K' z r i Hr Hi Hz HK HK'.
  { unfold zneed in HK; destruct (z_cons z); lia. }
  destruct K' as [|K']; [unfold zneed in HK'; destruct (z_cons z); lia|].
  cbn [us].
  destruct (pull1_spec Hword r i Hr Hi) as (res & out & r' & i' & E & Hr' & Hi' & _ & _ & _).
  rewrite E. cbn [obind]. destruct (Z.eqb_spec res 0); cbn [negb]; [|reflexivity].
  destruct out as [|b out]; [reflexivity|].
  destruct (size_byte_spec z b Hz) as [(_ & _ & S)|(z1 & S & Ec & Hz1 & Hn & _)]; rewrite S; cbn [obind]; [reflexivity|].
  destruct (Z.land b 128 =? 0); [reflexivity|]. apply IHK; auto; try lia. apply Hr'; lia.
Qed.

Lemma us_unpack : forall K z r i byte, rok r -> bytes_ok i -> nozero r i ->
  unpack_size_loop K z r i byte 1 = us K z r i.
Proof.
  induction K; intros z r i byte Hr Hi Hn; [reflexivity|].
  cbn [us unpack_size_loop]. fold (pull r i).
  destruct (pull1_spec Hword r i Hr Hi) as (res & out & r' & i' & E & Hr' & Hi' & _ & _ & Hc).
  rewrite E. cbn [obind]. destruct (Z.eqb_spec res 0); cbn [negb]; [|reflexivity].
  destruct out as [|b out].
  { exfalso. apply (Hn [] r i r' i'); [constructor|]. rewrite E. subst; reflexivity. }
  destruct (size_byte z b) as [[z1|]| |]; cbn [obind]; try reflexivity.
  destruct (Z.land b 128 =? 0); [reflexivity|].
  subst res. destruct Hc as [(A & _)|[(_ & A & _)|[(_ & b' & A & _)|(A & _)]]]; try discriminate.
  inv A. change (zlen [b']) with 1. apply IHK; auto.
  - apply Hr'; lia.
  - eapply nozero_step; eauto.
Qed.

(** Reading a size from the chunk [left] against reading it from [left ++ f]. *)
Lemma us_spec : forall K z r left f, (zneed z <= K)%nat -> rok r -> zok z ->
  bytes_ok left -> bytes_ok f -> nozero r (left ++ f) ->
  (exists z1 r1, us K z r left = Ret (1, 0, z1, r1, []) /\ rok r1 /\ zok z1 /\ nozero r1 f /\
     forall K', (5 <= K')%nat -> us K z r (left ++ f) = us K' z1 r1 f) \/
  (exists v z1 r1 left1, us K z r left = Ret (0, v, z1, r1, left1) /\ rok r1 /\
     z_cons z1 = false /\ bytes_ok left1 /\ nozero r1 (left1 ++ f) /\
     - 2 ^ 27 < v < 2 ^ 27 /\
     us K z r (left ++ f) = Ret (0, v, z1, r1, left1 ++ f)) \/
  (exists e v z1 r1 left1, us K z r left = Ret (e, v, z1, r1, left1) /\ e < 0 /\
     forall v' z' r' l', us K z r (left ++ f) <> Ret (0, v', z', r', l')).
Proof.
  induction K; intros z r left f HK Hr Hz Hl Hf Hn.
  { unfold zneed in HK; destruct (z_cons z); lia. }
  cbn [us].
  destruct (pull1_spec Hword r left Hr Hl) as (res & out & r' & left' & E & Hr' & Hl' & Ho & _ & Hc).
  rewrite E. cbn [obind].
  destruct Hc as [(-> & -> & -> & F)|[(-> & -> & F)|[(-> & b & -> & Hb & F)|(A & F)]]].
  - left. exists z, r'. split; [reflexivity|]. split; [apply Hr'; lia|]. split; [auto|].
    specialize (F f Hf). split; [eapply nozero_eq; eauto|].
    intros K' HK'. rewrite F.
    change (us (S K) z r' f = us K' z r' f). apply us_fuel; auto; [apply Hr'; lia|].
    pose proof (zneed_le z Hz). lia.
  - exfalso. destruct (F f Hf) as (r1 & i1 & P). apply (Hn [] r (left ++ f) r1 i1); [constructor|auto].
  - cbn [Z.eqb negb]. specialize (F f Hf). rewrite F. cbn [obind Z.eqb negb].
    destruct (size_byte_spec z b Hz) as [(_ & _ & S)|(z1 & S & Ec & Hz1 & Hnd & Hv & _)]; rewrite S; cbn [obind].
    + right; right. do 5 eexists. split; [reflexivity|].
      unfold E_CORRUPT_PATCH_OVERFLOW. split; [lia|]. intros; discriminate.
    + destruct (Z.land b 128 =? 0).
      * right; left. do 4 eexists. split; [reflexivity|]. split; [apply Hr'; lia|]. split; [auto|].
        split; [auto|]. split; [eapply nozero_step; eauto|].
        split; [destruct (z_signed z1); lia|]. reflexivity.
      * destruct (IHK z1 r' left' f) as [(z2 & r2 & U1 & U2 & U3 & U4 & U5)|[(v & z2 & r2 & l2 & U1 & U2 & U3 & U4 & U5 & U6 & U7)|(e & v & z2 & r2 & l2 & U1 & U2 & U3)]]; auto; [lia|apply Hr'; lia|eapply nozero_step; eauto| | |].
        -- left. exists z2, r2. auto.
        -- right; left. exists v, z2, r2, l2. repeat (split; [auto|]). auto.
        -- right; right. exists e, v, z2, r2, l2. auto.
  - right; right. destruct (Z.eqb_spec res 0); [lia|]. cbn [negb].
    do 5 eexists. split; [reflexivity|]. split; [auto|].
    intros v' z' r2 l2 H.
    apply obind_ret in H. destruct H as ([[[res2 out2] r3] l3] & P & H).
    destruct (Z.eqb_spec res2 0) as [->|]; cbn [negb] in H; [|inv H; lia].
    destruct out2 as [|b out2]; [discriminate|].
    destruct out2 as [|b2 out2].
    + apply (F f b r3 l3 Hf P).
    + (* a pull delivers at most one byte *)
      assert (Hlf : bytes_ok (left ++ f)) by (apply bytes_ok_app; auto).
      destruct (pull1_spec Hword r (left ++ f) Hr Hlf) as (q & qo & qr & qi & Q & _ & _ & _ & _ & Hq).
      rewrite P in Q. inv Q.
      destruct Hq as [(A1 & A2 & _)|[(_ & A2 & _)|[(_ & bb & A2 & _)|(A2 & _)]]]; try discriminate.
Qed.

(** The same for [unpack_size] itself. *)
Lemma unpack_size_spec : forall z r left f, rok r -> zok z ->
  bytes_ok left -> bytes_ok f -> nozero r (left ++ f) -> nozero r left ->
  (exists z1 r1, unpack_size z r left = Ret (1, 0, z1, r1, []) /\ rok r1 /\ zok z1 /\ nozero r1 f /\
     us 6 z r (left ++ f) = us 6 z1 r1 f) \/
  (exists v z1 r1 left1, unpack_size z r left = Ret (0, v, z1, r1, left1) /\ rok r1 /\
     z_cons z1 = false /\ bytes_ok left1 /\ nozero r1 (left1 ++ f) /\
     - 2 ^ 27 < v < 2 ^ 27 /\
     us 6 z r (left ++ f) = Ret (0, v, z1, r1, left1 ++ f)) \/
  (exists e v z1 r1 left1, unpack_size z r left = Ret (e, v, z1, r1, left1) /\ e < 0 /\
     forall v' z' r' l', us 6 z r (left ++ f) <> Ret (0, v', z', r', l')).
Proof.
  intros z r left f Hr Hz Hl Hf Hn Hn0. unfold unpack_size. rewrite us_unpack by auto.
  pose proof (zneed_le z Hz).
  destruct (us_spec 6 z r left f ltac:(lia) Hr Hz Hl Hf Hn) as [(z2 & r2 & U1 & U2 & U3 & U4 & U5)|[U|U]]; auto.
  left. exists z2, r2. repeat (split; [auto|]). apply U5. lia.
Qed.

(** An empty segment met on a prefix of the input is met on the whole input. *)
Lemma nozero_prefix : forall r left f, rok r -> bytes_ok left -> bytes_ok f ->
  nozero r (left ++ f) -> nozero r left.
Proof.
  intros r left f Hr Hl Hf Hn o r1 i1 r2 i2 P Q.
  revert Hr Hl Hn Q. induction P; intros Hr Hl Hn Q.
  - destruct (pull1_spec Hword r i Hr Hl) as (res & out & r' & left' & E & _ & _ & _ & _ & Hc).
    rewrite E in Q. inv Q.
    destruct Hc as [(A & _)|[(_ & _ & F)|[(_ & b & A & _)|(A & _)]]]; try discriminate; try lia.
    destruct (F f Hf) as (r3 & i3 & P). apply (Hn [] r (i ++ f) r3 i3); [constructor|auto].
  - destruct (pull1_spec Hword r i Hr Hl) as (res & out & r' & left' & E & Hr' & Hl' & _ & _ & Hc).
    rewrite H in E. inv E.
    apply IHP; auto; [apply Hr'; lia|].
    eapply nozero_step; [exact Hn|]. eapply pull_exact; eauto.
Qed.

End Sizes.
