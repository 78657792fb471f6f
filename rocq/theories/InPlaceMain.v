(** Applying in-place patches on the flash memory: whole updates. *)

From Coq Require Import ZArith List Bool Lia ZifyBool ZifyNat ZifyN.
From Verif Require Import Prelude Lib Heatshrink CReader CSeq CInPlace Spec ReaderProofs SeqMeaning SeqRun CreateProofs
  InPlaceSpec InPlaceMem InPlaceWorld InPlacePatch InPlaceRun.
Import ListNotations.
Open Scope Z_scope.

Section Main.
Context `{WBits : WordBits}.
Hypothesis Hword : 32 <= word_bits.
Variables memory segment shift : Z.
Variables from to : list Z.
Variable mem0 : list (option Z).
Context {ST : strictness mem0}.
Variable c : comp.
Variable patch : list Z.
Hypothesis Hsizes : sizes_ok memory segment shift (zlen from) (zlen to).
Hypothesis Hlen : memory <= zlen mem0.
Hypothesis Hfrom : holds mem0 from.
Variable segs : list (list prec).
Hypothesis P1 : in_place_patch c memory segment shift (zlen from) (zlen to) segs patch.
Hypothesis P2 : apply_segments memory segment shift from 0 segs = Some to.
Hypothesis P3 : segments_in_limits segment shift 0 segs.
Hypothesis Hbytes : bytes_ok patch.
Hypothesis Hps : zlen patch + 128 < 2 ^ word_bits.

Notation NS := (NS memory segment shift from).
Notation MS := (MS segment to).
Notation canon := (canon memory segment shift from to mem0).
Notation division := (division c memory segment shift (zlen from) (zlen to) patch).
Notation resumable := (resumable memory segment shift from to mem0).
Notation off := (off memory segment shift from to mem0).
Notation finished := (finished memory segment shift from to mem0).

(** The memory at the end of an update. *)
Definition end_mem : list (option Z) := if 0 <? zlen to then canon (NS + MS) else mem0.

Lemma end_holds : holds end_mem to.
Proof.
  unfold end_mem. destruct (Z.ltb_spec 0 (zlen to)).
  - apply canon_holds; auto.
  - pose proof (zlen_nonneg to). assert (to = []) by (apply zlen_0_nil; lia). subst to. reflexivity.
Qed.

Lemma zlen_end : zlen end_mem = zlen mem0.
Proof.
  unfold end_mem. destruct (Z.ltb_spec 0 (zlen to)); [|auto]. destruct (steps_bounds memory segment shift from to Hsizes H) as (SB1 & SB2 & _).
  apply zlen_canon; auto. lia.
Qed.

Lemma end_outside : forall k, memory <= k -> znth end_mem k = znth mem0 k.
Proof.
  intros k Hk. unfold end_mem. destruct (Z.ltb_spec 0 (zlen to)); [|auto]. destruct (steps_bounds memory segment shift from to Hsizes H) as (SB1 & SB2 & _).
  apply canon_outside; auto. lia.
Qed.

Lemma end_full : (forall x, znth mem0 x <> Some None) -> forall x, znth end_mem x <> Some None.
Proof.
  intros H0 x. unfold end_mem. destruct (Z.ltb_spec 0 (zlen to)); [|auto]. destruct (steps_bounds memory segment shift from to Hsizes H) as (SB1 & SB2 & _).
  apply canon_full; auto. lia.
Qed.

(** The device between attempts. *)
Definition between (d : dev) : Prop :=
  zlen (d_mem d) = zlen mem0 /\
  if 0 <? zlen to then resumable d else d_mem d = mem0 /\ d_step d = 0.

Lemma between_new : between (new_device mem0).
Proof.
  unfold between. split; [reflexivity|]. destruct (Z.ltb_spec 0 (zlen to)); [|split; reflexivity].
  destruct (steps_bounds memory segment shift from to Hsizes H) as (SB1 & SB2 & _).
  split; [cbn; lia|]. split; [reflexivity|]. intros. reflexivity.
Qed.

(** What an attempt may end with. *)
Definition ended (unl : bool) (c0 : Z) (o : outcome (Z * ip * dev)) : Prop :=
  exists r s d, o = Ret (r, s, d) /\ d_bad d = false /\ Forall (event_in_memory memory) (d_log d) /\ zlen (d_mem d) = zlen mem0 /\
    (forall k, memory <= k -> znth (d_mem d) k = znth mem0 k) /\
    ((r = zlen to /\ d_mem d = end_mem /\ d_step d = 0 /\
      (0 < zlen to -> exists pre ops, d_log d = pre ++ ops ++ [EStep 0] /\
         steps_log memory segment shift (zlen from) (zlen to) c0 (NS + MS - 1) pre /\
         Forall (event_of_step memory segment shift (zlen from) (zlen to) (NS + MS)) ops)) \/
     (r < 0 /\ unl = false /\ d_off d = true /\ (In (EStep 0) (d_log d) \/ between d))).

Definition enough : nat := Z.to_nat (2 * zlen (enc_segments segs) + 8).

Lemma attempt : forall fuel junk d power torn ts pieces, between d -> division pieces ->
  (ip_apply (flash_env_of strict) fuel junk (zlen patch) (power_up d power torn ts) pieces = OutOfFuel /\
   (fuel < enough)%nat) \/
  ended (match power with None => true | Some _ => false end) (d_step d) (ip_apply (flash_env_of strict) fuel junk (zlen patch) (power_up d power torn ts) pieces).
Proof.
  intros fuel junk d power torn ts pieces [Bz B] [D1 D2].
  destruct P1 as (P4 & stream & P5 & P6).
  set (unl := match power with None => true | Some _ => false end).
  destruct (Z.ltb_spec 0 (zlen to)) as [Ht|Ht].
  - (* something to do *)
    assert (Hs : segs <> []) by (intros Es; rewrite Es in P4; cbn in P4; lia).
    destruct P6 as [[? _]|[_ P6]]; [congruence|].
    assert (Hbs : bytes_ok stream) by (rewrite P5 in Hbytes; apply Forall_app in Hbytes; apply Hbytes).
    pose proof (zlen_nonneg stream) as Hs0. pose proof (zlen_nonneg (in_place_header c memory segment shift (zlen from) (zlen to))) as Hh0.
    assert (Hne : enc_segments segs <> []).
    { destruct segs as [|x y]; [congruence|]. rewrite enc_segments_cons. intros X. apply app_eq_nil in X. destruct X as [X _]. pose proof (enc_size_pos 0) as Y. rewrite X in Y. cbn in Y. lia. }
    assert (Hr : exists r0, reader_init (zlen stream) (comp_number c) = Some r0) by (destruct c; eexists; reflexivity).
    destruct Hr as [r0 Hr]. pose proof Hps as Hps'. rewrite P5, zlen_app in Hps'.
    destruct (stream_pulls Hword c _ _ _ _ P6 Hbs Hne Hr eq_refl ltac:(lia)) as (rE & Q1 & Q2 & Q3 & _).
    pose proof (steps_bounds memory segment shift from to Hsizes Ht) as (SB1 & SB2 & _).
    set (w := power_up d power torn ts).
    assert (Hg : glob memory mem0 unl w).
    { unfold glob, w, unl. cbn. split; [auto|]. split; [auto|]. split; [destruct power; [discriminate|auto]|constructor]. }
    assert (Hw : world memory segment shift from to mem0 (d_step d) unl w 1 None).
    { unfold world. split; [reflexivity|]. split; [auto|]. split; [lia|]. pose proof B as [B1 B2].
      destruct (Z.eq_dec (d_step d) 0) as [E|E].
      - left. rewrite E in B2. cbn [Z.add] in B2. split; [cbn; lia|]. split; [exact B2|]. split; [exact I|].
        exists [], []. split; [reflexivity|]. split; [rewrite E; constructor|constructor].
      - right. split; [cbn; lia|]. split; [reflexivity|]. split; [exact B|]. split; [reflexivity|auto]. }
    rewrite P5 in *.
    destruct (apply_spec Hword memory segment shift from to mem0 Hsizes Hlen Ht Hfrom (d_step d) unl c segs stream P2 P4 P3 Hps r0 rE Hr Q1 Q2 Q3
      fuel junk w pieces D1 D2 Hbytes Hw) as [[A1 A2]|[(s1 & d1 & A1 & A2)|(r & s1 & d1 & A1 & A2 & A3)]].
    + left. split; [exact A1|]. unfold enough. unfold body_bound in A2. lia.
    + right. exists (zlen to), s1, d1. destruct A2 as (F1 & (F2 & F3 & F4 & F5) & F6 & F7 & F8).
      split; [exact A1|]. split; [auto|]. split; [auto|]. split; [auto|]. split.
      { intros k Hk. rewrite F7. apply canon_outside; auto. lia. }
      left. split; [auto|]. split; [|auto]. unfold end_mem. destruct (Z.ltb_spec 0 (zlen to)); [auto|lia].
    + right. exists r, s1, d1. destruct A3 as (F1 & (F2 & F3 & F4 & F5) & F6 & F7).
      split; [exact A1|]. split; [auto|]. split; [auto|]. split; [auto|]. split.
      { intros k Hk. destruct F7 as [[G1 G2]|[_ G]]; [|rewrite G; apply canon_outside; auto; lia].
        destruct G2 as [G2 G3]. pose proof (area_bounds memory segment shift from to Hsizes Ht (d_step d1 + 1) ltac:(lia)).
        rewrite G3 by lia. apply canon_outside; auto. lia. }
      right. split; [auto|]. split; [auto|]. split; [auto|]. destruct F7 as [F7|[F7 _]]; [right|left; auto].
      unfold between. split; [auto|]. destruct (Z.ltb_spec 0 (zlen to)); [auto|lia].
  - (* nothing *)
    assert (Hz : zlen to = 0) by (pose proof (zlen_nonneg to); lia).
    assert (segs = []) by (eapply segments_ok_nil; [exact P4|exact Hz]).
    destruct P6 as [[_ P6]|[? _]]; [|congruence]. rewrite P6 in P5. rewrite app_nil_r in P5.
    rewrite P5 in *. rewrite Hz in *.
    destruct B as [B1 B2].
    destruct (empty_spec Hword memory segment shift (zlen from) Hsizes c (power_up d power torn ts) (flash_env_of strict) fuel junk pieces D1 D2 Hbytes)
      as [[A1 A2]|[(s1 & d1 & A1 & A2)|(r & s1 & d1 & A1 & A2 & [])]].
    + left. split; [exact A1|]. unfold enough. pose proof (zlen_nonneg (enc_segments segs)). lia.
    + right. subst d1. exists 0, s1, (power_up d power torn ts). split; [exact A1|]. split; [reflexivity|]. split; [constructor|]. split; [exact Bz|].
      split; [intros k _; cbn; rewrite B1; auto|].
      left. split; [auto|]. split; [cbn; unfold end_mem; rewrite Hz; change (0 <? 0) with false; cbv iota; exact B1|]. split; [exact B2|]. intros X. lia.
Qed.

End Main.
