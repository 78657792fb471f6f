(** Patches that are refused because of their header: the part of the proof that is the
    same for all four appliers. *)

From Coq Require Import ZArith List Bool Lia ZifyBool ZifyNat ZifyN.
From Verif Require Import Prelude Lib Heatshrink HsProofs CReader ReaderProofs SizeProofs SizeCodec CSeq CInPlace Spec SeqSim SeqRun.
Import ListNotations.
Open Scope Z_scope.

(** ** Headers *)

(** Reading [k] sizes from [l] ends with the error [code], or with [last] true. *)
Fixpoint refused_sizes (k : nat) (code : Z) (last : Prop) (z : size_st) (l : list Z) : Prop :=
  match k with
  | O => last
  | S k' =>
      (exists z1 l1, unpack_header_size l z = Ret (code, 0, z1, l1) /\ code = - E_CORRUPT_PATCH_OVERFLOW) \/
      (exists v z1 l1, unpack_header_size l z = Ret (0, v, z1, l1) /\ refused_sizes k' code last (z_first z1) l1)
  end.

(** A piece of the sizes. *)
Lemma refused_piece : forall k code last z l f, zok z -> refused_sizes (S k) code last z (l ++ f) ->
  (exists z1, unpack_header_size l z = Ret (1, 0, z1, []) /\ zok z1 /\ refused_sizes (S k) code last z1 f) \/
  (exists z1 l1, unpack_header_size l z = Ret (code, 0, z1, l1) /\ code = - E_CORRUPT_PATCH_OVERFLOW) \/
  (exists v z1 l1, unpack_header_size l z = Ret (0, v, z1, l1) /\ refused_sizes k code last (z_first z1) (l1 ++ f)).
Proof.
  intros k code last z l f Hz H. cbn [refused_sizes] in H.
  destruct (uhs_app l z f Hz) as [(z1 & A & B & C)|[(v & z1 & l1 & used & A & _ & _ & C)|(z1 & l1 & A & C)]]; rewrite C in H.
  - left. exists z1. split; [exact A|]. split; [exact B|]. exact H.
  - right; right. exists v, z1, l1. split; [exact A|]. destruct H as [(z2 & l2 & H & H1)|(v2 & z2 & l2 & H & H1)].
    + injection H as H _ _ _. rewrite H1 in H. discriminate.
    + injection H as <- <- <-. exact H1.
  - right; left. destruct H as [(z2 & l2 & H & H1)|(v2 & z2 & l2 & H & H1)]; [|discriminate]. exists z1, l1. rewrite H1. auto.
Qed.

Lemma refused_nil : forall k code last z, refused_sizes (S k) code last z [] -> False.
Proof. intros k code last z [(z1 & l1 & H & H1)|(v & z1 & l1 & H & _)]; cbn in H; [|discriminate]. injection H as H _ _. rewrite H1 in H. discriminate. Qed.

(** ** Calls *)

Section Machine.
Context {S W : Type}.
Variable left_of : S -> list Z.
Variable set_piece : S -> list Z -> S.
Variable once : S -> W -> outcome (Z * S * W).
Variable loop : nat -> Z -> S -> W -> outcome (Z * S * W).
Variable fin : nat -> S -> W -> outcome (Z * S * W).
Variable feeding : nat -> S -> W -> list (list Z) -> outcome (Z * S * W).
Hypothesis loop_eq : forall fuel res s w, loop fuel res s w =
  match left_of s with
  | [] => Ret (res, s, w)
  | _ => if res <? 0 then Ret (res, s, w)
         else match fuel with O => OutOfFuel | Datatypes.S f => letm (r1, s1, w1) := once s w in loop f r1 s1 w1 end
  end.
Hypothesis feed_eq : forall fuel s w c cs, feeding fuel s w (c :: cs) =
  letm (res, s1, w1) := loop fuel 0 (set_piece s c) w in
  let res1 := if (res =? 1) || (res =? - E_ALREADY_DONE) then 0 else res in
  if res1 =? 0 then feeding fuel s1 w1 cs
  else letm (r2, s2, w2) := fin fuel s1 w1 in Ret (res1, s2, w2).

Variable code : Z.
Hypothesis Hcode : code < 0 /\ code <> - E_ALREADY_DONE.
Variable rem : list Z -> S -> Prop.
Variable meas : S -> nat.
Variables failed over : S -> Prop.
Hypothesis Honce : forall f s w, rem f s -> left_of s <> [] -> exists res s1, once s w = Ret (res, s1, w) /\
  ((res = code /\ failed s1) \/ (res = 0 /\ rem f s1 /\ (meas s1 < meas s)%nat) \/ (res = 1 /\ rem f s1 /\ left_of s1 = [])).
Hypothesis Hfin : forall fuel s w, failed s -> (1 <= fuel)%nat -> exists v s1, fin fuel s w = Ret (v, s1, w) /\ over s1.
Hypothesis Hpiece : forall c f s, rem (c ++ f) s -> left_of s = [] -> rem f (set_piece s c) /\ (meas (set_piece s c) <= meas s)%nat.
Hypothesis Hend : forall s, rem [] s -> left_of s = [] -> False.
Variable most : nat.
Hypothesis Hmost : forall f s, rem f s -> (meas s < most)%nat.

Lemma loop_refused : forall fuel f s w res, rem f s -> res = 0 \/ (res = 1 /\ left_of s = []) -> (meas s < fuel)%nat ->
  (exists s1, loop fuel res s w = Ret (code, s1, w) /\ failed s1) \/
  (exists r s1, loop fuel res s w = Ret (r, s1, w) /\ (r = 0 \/ r = 1) /\ rem f s1 /\ left_of s1 = []).
Proof.
  induction fuel as [|fuel IH]; intros f s w res Hr Hres Hm; [lia|]. rewrite loop_eq.
  destruct (left_of s) as [|b l] eqn:El.
  { right. exists res, s. split; [reflexivity|]. split; [tauto|]. auto. }
  destruct Hres as [->|[_ X]]; [|discriminate]. change (0 <? 0) with false. cbv iota.
  destruct (Honce f s w Hr) as (r1 & s1 & A & B); [congruence|]. rewrite A. cbn [obind].
  destruct B as [(-> & B)|[(-> & B & C)|(-> & B & C)]].
  - left. exists s1. split; [|exact B]. rewrite loop_eq. destruct Hcode as [H _]. destruct (left_of s1); [reflexivity|]. destruct (Z.ltb_spec code 0); [reflexivity|lia].
  - apply IH; auto. lia.
  - right. exists 1, s1. split; [|auto]. rewrite loop_eq, C. reflexivity.
Qed.

Lemma feed_refused : forall cs fuel s w, rem (concat cs) s -> left_of s = [] -> (most <= fuel)%nat ->
  exists s1, feeding fuel s w cs = Ret (code, s1, w) /\ over s1.
Proof.
  induction cs as [|c cs IH]; intros fuel s w Hr Hl Hf; [exfalso; eapply Hend; eauto|].
  cbn [concat] in Hr. destruct (Hpiece _ _ _ Hr Hl) as [Hr1 _]. pose proof (Hmost _ _ Hr1). rewrite feed_eq.
  destruct (loop_refused fuel _ _ w 0 Hr1) as [(s1 & A & B)|(r & s1 & A & B & C & F)]; auto; try lia; rewrite A; cbn [obind]; cbv zeta.
  - destruct Hcode as [H1 H2]. destruct (Z.eqb_spec code 1); [lia|]. destruct (Z.eqb_spec code (- E_ALREADY_DONE)); [congruence|]. cbn [orb].
    destruct (Z.eqb_spec code 0); [lia|]. destruct (Hfin fuel s1 w B) as (v & s2 & G & K); [lia|]. rewrite G. cbn [obind]. eauto.
  - replace ((if (r =? 1) || (r =? - E_ALREADY_DONE) then 0 else r) =? 0) with true by (destruct B as [->| ->]; reflexivity).
    apply IH; auto.
Qed.

End Machine.
