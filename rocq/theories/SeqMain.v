(** The main results about the sequential applier in the form in which they are
    stated as properties. *)

From Coq Require Import ZArith List Bool Lia ZifyBool ZifyNat ZifyN.
From Verif Require Import Prelude Lib Heatshrink CReader CSeq Spec SeqSim SeqRun SeqTerm SeqMeaning SeqApply SeqExt.
Import ListNotations.
Open Scope Z_scope.

Section Main.
Context {WBits : WordBits}.
Hypothesis Hword : 32 <= word_bits.

Lemma chunking : forall junk1 junk2 ps from patch chunks1 chunks2,
  bytes_ok patch -> zlen patch <= ps -> ps + 128 < 2 ^ word_bits ->
  (announced_comp patch = 2 -> no_empty_segment (body_of patch) = true) ->
  concat chunks1 = patch -> concat chunks2 = patch ->
  (announced_comp patch = 0 -> header_complete (hd [] chunks1) = true \/ chunks1 = [patch]) ->
  (announced_comp patch = 0 -> header_complete (hd [] chunks2) = true \/ chunks2 = [patch]) ->
  forall v to,
    (exists fuel s w, c_apply fuel junk1 ps from chunks1 = Ret (v, s, w) /\ 0 <= v /\ f_to w = to) <->
    (exists fuel s w, c_apply fuel junk2 ps from chunks2 = Ret (v, s, w) /\ 0 <= v /\ f_to w = to).
Proof.
  intros junk1 junk2 ps from patch chunks1 chunks2 Hb Hl Hw Hz E1 E2 H1 H2 v to.
  assert (Hn : body_nz patch) by (apply crle_ok_nz; auto).
  split; intros S.
  - exact (chunking_independent Hword junk1 junk2 ps from patch chunks1 chunks2 v to Hb Hl Hw E1 E2 (fun _ => H1) (fun _ => H2) Hn S).
  - exact (chunking_independent Hword junk2 junk1 ps from patch chunks2 chunks1 v to Hb Hl Hw E2 E1 (fun _ => H2) (fun _ => H1) Hn S).
Qed.

Lemma truncated_rejected : forall junk c recs patch from to pre rest ps chunks,
  seq_patch c recs patch -> recs_in_limits recs -> apply_recs from 0 recs = Some to ->
  bytes_ok patch -> zlen patch + 128 < 2 ^ word_bits ->
  patch = pre ++ rest -> rest <> [] -> zlen pre <= ps <= zlen patch -> concat chunks = pre ->
  (c = CompNone -> header_complete (hd [] chunks) = true \/ chunks = [pre]) ->
  forall fuel v s w, c_apply fuel junk ps from chunks = Ret (v, s, w) -> v < 0.
Proof.
  intros junk c recs patch from to pre rest ps chunks H1 H2 H3 H4 H5 H6 H7 H8 H9 H10 fuel v s w E.
  destruct (Z.ltb_spec v 0); [auto|exfalso].
  eapply (truncated Hword junk c recs patch from to pre rest ps chunks v (f_to w)); eauto.
  exists fuel, s, w. auto.
Qed.

Lemma terminates : forall (W : Type) (E : seq_env W) junk ps chunks w, Forall bytes_ok chunks ->
  exists n, forall fuel, (n <= fuel)%nat -> feed E fuel 128 (ap_init junk ps) w chunks <> OutOfFuel.
Proof. intros. apply (feed_term Hword E); auto; [lia|apply tinv_init]. Qed.

Lemma callbacks_terminate : forall (W : Type) (E : seq_env W) junk patch_read ps w,
  (forall w n rr buf w1, patch_read w n = (rr, buf, w1) -> bytes_ok buf) ->
  exists n, forall fuel, (n <= fuel)%nat -> apply_patch_callbacks E fuel junk patch_read ps w <> OutOfFuel.
Proof.
  intros W E junk patch_read ps w H. unfold apply_patch_callbacks.
  apply (callbacks_term Hword E patch_read ps H (Z.to_nat ps)); [apply tinv_init|lia].
Qed.

End Main.
