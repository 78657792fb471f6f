(** Forms of the in-place results used by the property theorems. *)

From Coq Require Import ZArith List Bool Lia ZifyBool ZifyNat ZifyN.
From Verif Require Import Prelude Lib Heatshrink CReader CSeq CInPlace Spec InPlaceSpec InPlaceMem InPlaceWorld InPlaceMain.
Import ListNotations.
Open Scope Z_scope.

Section Final.
Context `{WBits : WordBits}.
Hypothesis Hword : 32 <= word_bits.
Variables memory segment shift : Z.
Variables from to : list Z.
Variable mem : list (option Z).
Variable c : comp.
Variable patch : list Z.
Hypothesis Hsizes : sizes_ok memory segment shift (zlen from) (zlen to).
Hypothesis Hupdate : in_place_update c memory segment shift from to patch.
Hypothesis Hbytes : bytes_ok patch.
Hypothesis Hps : zlen patch + 128 < 2 ^ word_bits.
Hypothesis Hlen : memory <= zlen mem.
Hypothesis Hfrom : holds mem from.

Notation division := (division c memory segment shift (zlen from) (zlen to) patch).

Definition loose : strictness mem := mkstrict mem false (fun H => match diff_false_true H with end).

Lemma interrupted_between : forall d, interrupted (zlen patch) division (new_device mem) d -> between memory segment shift from to mem d.
Proof.
  destruct Hupdate as (segs & P1 & P2 & P3).
  assert (K : forall d d', interrupted (zlen patch) division d d' -> between memory segment shift from to mem d -> between memory segment shift from to mem d').
  { induction 1 as [d|d power torn ts fuel junk pieces r s d1 d2 Hdiv A R N I IH]; intros B; [auto|].
    apply IH. destruct (attempt (ST := loose) Hword memory segment shift from to mem c patch Hsizes Hlen Hfrom segs P1 P2 P3 Hbytes Hps fuel junk d power torn ts pieces B Hdiv)
      as [[X _]|(r1 & s1 & d3 & X & _ & _ & _ & _ & [(Y & _)|(_ & _ & _ & Y)])]; change (flash_env_of (@strict mem loose)) with flash_env in X.
    - congruence.
    - rewrite A in X. inversion X; subst. pose proof (zlen_nonneg to). lia.
    - rewrite A in X. inversion X; subst. destruct Y; [contradiction|auto]. }
  intros d I. eapply K; [exact I|]. apply between_new; auto.
Qed.

(** Any attempt, after any number of interruptions. *)
Lemma any_attempt : exists n, forall d, interrupted (zlen patch) division (new_device mem) d ->
  forall fuel junk power torn torn_step pieces, division pieces -> (n <= fuel)%nat ->
  exists r s d1, ip_apply flash_env fuel junk (zlen patch) (power_up d power torn torn_step) pieces = Ret (r, s, d1) /\
    d_bad d1 = false /\ Forall (event_in_memory memory) (d_log d1) /\ zlen (d_mem d1) = zlen mem /\
    (forall k, memory <= k -> znth (d_mem d1) k = znth mem k) /\
    (r < 0 /\ power <> None \/
     r = zlen to /\ d_mem d1 = end_mem memory segment shift from to mem /\ d_step d1 = 0 /\
     (to <> [] -> exists pre ops, d_log d1 = pre ++ ops ++ [EStep 0] /\
       steps_log memory segment shift (zlen from) (zlen to) (d_step d) (total_steps memory segment shift (zlen from) (zlen to) - 1) pre /\
       Forall (event_of_step memory segment shift (zlen from) (zlen to) (total_steps memory segment shift (zlen from) (zlen to))) ops)).
Proof.
  destruct Hupdate as (segs & P1 & P2 & P3). exists (enough segs). intros d I fuel junk power torn ts pieces D F.
  assert (B : between memory segment shift from to mem d).
  { apply interrupted_between. exact I. }
  destruct (attempt (ST := loose) Hword memory segment shift from to mem c patch Hsizes Hlen Hfrom segs P1 P2 P3 Hbytes Hps fuel junk d power torn ts pieces B D)
    as [[_ X]|(r & s & d1 & A1 & A2 & A3 & A4 & A5 & A6)]; [lia|].
  exists r, s, d1. repeat (split; [eassumption|]). destruct A6 as [(R1 & R2 & R3 & R4)|(R1 & R2 & R3 & _)].
  - right. split; [auto|]. split; [auto|]. split; [auto|]. intros Hne. apply R4. destruct to; [congruence|]. rewrite zlen_cons. pose proof (zlen_nonneg l). lia.
  - left. split; [auto|]. destruct power; congruence.
Qed.

Lemma division_itself : division [patch].
Proof.
  split; [cbn [concat]; apply app_nil_r|]. intros _. cbn [hd]. destruct Hupdate as (segs & (_ & stream & -> & _) & _).
  rewrite zlen_app. pose proof (zlen_nonneg stream). lia.
Qed.

(** C19, application. *)
Lemma in_place_applied : forall pieces junk, division pieces ->
  exists n, forall fuel, (n <= fuel)%nat ->
  exists s d, ip_apply flash_env fuel junk (zlen patch) (new_device mem) pieces = Ret (zlen to, s, d) /\
    holds (d_mem d) to /\ d_step d = 0.
Proof.
  intros pieces junk D. destruct any_attempt as (n & A). exists n. intros fuel F.
  destruct (A (new_device mem) (interrupted_never _ _ _) fuel junk None (fun _ => None) false pieces D F) as (r & s & d1 & A1 & _ & _ & _ & _ & [[_ X]|(R1 & R2 & R3 & _)]); [congruence|].
  exists s, d1. subst r. split; [exact A1|]. rewrite R2. split; [|auto]. destruct Hupdate as (segs & P1 & P2 & P3). eapply end_holds; eauto.
Qed.

(** C20. *)
Lemma in_place_resumed : forall d pieces junk torn torn_step,
  interrupted (zlen patch) division (new_device mem) d -> division pieces ->
  exists n, forall fuel, (n <= fuel)%nat ->
  exists s d1, ip_apply flash_env fuel junk (zlen patch) (power_up d None torn torn_step) pieces = Ret (zlen to, s, d1) /\
    holds (d_mem d1) to /\ d_step d1 = 0 /\
    forall fuel2 junk2 pieces2 r2 s2 d2, division pieces2 ->
      ip_apply flash_env fuel2 junk2 (zlen patch) (new_device mem) pieces2 = Ret (r2, s2, d2) ->
      d_mem d1 = d_mem d2.
Proof.
  intros d pieces junk torn ts I D. destruct any_attempt as (n & A). exists n. intros fuel F.
  destruct (A d I fuel junk None torn ts pieces D F) as (r & s & d1 & A1 & _ & _ & _ & _ & [[_ X]|(R1 & R2 & R3 & _)]); [congruence|].
  exists s, d1. subst r. split; [exact A1|]. rewrite R2. split; [|split; [auto|]].
  - destruct Hupdate as (segs & P1 & P2 & P3). eapply end_holds; eauto.
  - intros fuel2 junk2 pieces2 r2 s2 d2 D2 A4.
    destruct Hupdate as (segs & P1 & P2 & P3). change (new_device mem) with (power_up (new_device mem) None (fun _ => None) false) in A4.
    assert (B : between memory segment shift from to mem (new_device mem)) by (eapply between_new; eauto).
    destruct (attempt (ST := loose) Hword memory segment shift from to mem c patch Hsizes Hlen Hfrom segs P1 P2 P3 Hbytes Hps fuel2 junk2 (new_device mem) None (fun _ => None) false pieces2 B D2)
      as [[X _]|(r & s3 & d3 & B1 & _ & _ & _ & _ & [(_ & B2 & _)|(_ & B3 & _)])]; change (flash_env_of (@strict mem loose)) with flash_env in *; try congruence.
Qed.

(** C22. *)
Lemma in_place_safe : forall d pieces junk power torn torn_step,
  interrupted (zlen patch) division (new_device mem) d -> division pieces ->
  exists n, forall fuel, (n <= fuel)%nat ->
  exists r s d1, ip_apply flash_env fuel junk (zlen patch) (power_up d power torn torn_step) pieces = Ret (r, s, d1) /\
    d_bad d1 = false /\ Forall (event_in_memory memory) (d_log d1) /\
    (forall k, memory <= k -> znth (d_mem d1) k = znth mem k).
Proof.
  intros d pieces junk power torn ts I D. destruct any_attempt as (n & A). exists n. intros fuel F.
  destruct (A d I fuel junk power torn ts pieces D F) as (r & s & d1 & A1 & A2 & A3 & A4 & A5 & _). eauto 10.
Qed.

(** C24. *)
Lemma in_place_steps : forall d pieces junk torn torn_step, to <> [] ->
  interrupted (zlen patch) division (new_device mem) d -> division pieces ->
  exists n, forall fuel, (n <= fuel)%nat ->
  exists s d1, ip_apply flash_env fuel junk (zlen patch) (power_up d None torn torn_step) pieces = Ret (zlen to, s, d1) /\
    let last := total_steps memory segment shift (zlen from) (zlen to) in
    exists before ops, d_log d1 = before ++ ops ++ [EStep 0] /\
      steps_log memory segment shift (zlen from) (zlen to) (d_step d) (last - 1) before /\
      Forall (event_of_step memory segment shift (zlen from) (zlen to) last) ops.
Proof.
  intros d pieces junk torn ts Hne I D. destruct any_attempt as (n & A). exists n. intros fuel F.
  destruct (A d I fuel junk None torn ts pieces D F) as (r & s & d1 & A1 & _ & _ & _ & _ & [[_ X]|(R1 & R2 & R3 & R4)]); [congruence|].
  subst r. cbv zeta. destruct (R4 Hne) as (pre & ops & Q). eauto 10.
Qed.

(** Erased cells are not read. *)
Lemma in_place_strict : (forall x, znth mem x <> Some None) -> exists n, forall d, interrupted (zlen patch) division (new_device mem) d ->
  forall fuel junk power torn torn_step pieces, division pieces -> (n <= fuel)%nat ->
  exists r s d1, ip_apply strict_flash_env fuel junk (zlen patch) (power_up d power torn torn_step) pieces = Ret (r, s, d1) /\
    (r = zlen to /\ d_mem d1 = end_mem memory segment shift from to mem /\ holds (d_mem d1) to /\ d_step d1 = 0 \/ r < 0 /\ power <> None /\ d_off d1 = true).
Proof.
  intros Hfull. pose (ST := mkstrict mem true (fun _ => Hfull)). destruct Hupdate as (segs & P1 & P2 & P3). exists (enough segs).
  intros d I fuel junk power torn ts pieces D F. pose proof (interrupted_between d I) as B.
  destruct (attempt (ST := ST) Hword memory segment shift from to mem c patch Hsizes Hlen Hfrom segs P1 P2 P3 Hbytes Hps fuel junk d power torn ts pieces B D)
    as [[_ X]|(r & s & d1 & A1 & A2 & A3 & A4 & A5 & A6)]; [lia|].
  exists r, s, d1. split; [exact A1|]. destruct A6 as [(R1 & R2 & R3 & R4)|(R1 & R2 & R3 & _)].
  - left. split; [auto|]. split; [auto|]. split; [|auto]. rewrite R2. eapply end_holds; eauto.
  - right. split; [auto|]. split; [destruct power; congruence|auto].
Qed.
End Final.
