(** Hostile in-place patches. *)

From Coq Require Import ZArith List Bool Lia.
From Verif Require Import Prelude Lib Heatshrink CReader CSeq Spec SeqSpec CInPlace InPlaceSpec IpCallbackSpec CallbackSpec IpBoundSpec Refuted InPlaceExamples.
Import ListNotations.
Open Scope Z_scope.

(** A memory of zeros without bounds. *)
Definition open_env : ip_env unit :=
  mkipenv unit (fun w _ n => (0, zrepeat 0 n, w)) (fun w _ _ => (0, w)) (fun w _ _ => (0, w)) None None.

Lemma open_codes : codes_ok open_env.
Proof. split; [|split]; intros; cbn; lia. Qed.

Lemma zlen_zeros : forall n, 0 <= n -> zlen (zrepeat 0 n) = n.
Proof. intros. apply zlen_zrepeat. auto. Qed.

(** A device whose reads fail outside the first 20 cells. *)
Definition ex_device_env : ip_env unit :=
  mkipenv unit
    (fun w a n => if (0 <=? a) && (0 <=? n) && (a + n <=? 20) then (0, zrepeat 0 n, w) else (-1, [], w))
    (fun w _ _ => (0, w)) (fun w _ _ => (0, w)) None None.

Lemma ex_device_codes : codes_ok ex_device_env.
Proof. split; [|split]; intros; cbn; try lia. destruct (_ && _); cbn; lia. Qed.

Lemma ex_device_reads : reads_all ex_device_env.
Proof.
  intros w a n r buf w1 H Hr. cbn in H. destruct ((0 <=? a) && (0 <=? n) && (a + n <=? 20)) eqn:D; inversion H; subst; [|discriminate].
  apply zlen_zeros. apply andb_prop in D. destruct D as [D _]. apply andb_prop in D. destruct D as [_ D]. apply Z.leb_le. exact D.
Qed.

(** 20 cells of memory, segments of 5, the 7 bytes of the from data moved up to 10,
    8 bytes of to data.  The first segment is in order, in the second one more
    extra data is announced than there is room for. *)
Definition ex_greedy_body : list Z := [0; 3; 1; 0; 2; 2; 65; 66; 0] ++ [0; 2; 0; 0; 33; 1; 1; 1; 1; 0].
Definition ex_greedy : list Z := [16; 20; 5; 10; 7; 8] ++ ex_greedy_body.
Definition ex_greedy_ann : announced := mkann 20 5 10 7 8 ex_greedy_body.

Lemma ex_greedy_hyps : bytes_ok ex_greedy /\ bytes_ok ex_greedy_body /\ announced_comp ex_greedy = comp_number CompNone /\
  announces ex_greedy = Some ex_greedy_ann /\ compressed CompNone ex_greedy_body (n_stream ex_greedy_ann) /\
  consistent ex_greedy_ann /\ body_fields ex_greedy_ann ex_greedy_body = [FDiff 3; FExtra 2; FAdjust 0; FDiff 2; FExtra 33] /\
  Forall size_nonneg (body_fields ex_greedy_ann ex_greedy_body) /\
  zlen ex_greedy_body + moved (body_fields ex_greedy_ann ex_greedy_body) < 2 ^ 30.
Proof.
  assert (F : body_fields ex_greedy_ann ex_greedy_body = [FDiff 3; FExtra 2; FAdjust 0; FDiff 2; FExtra 33]) by (vm_compute; reflexivity).
  split; [repeat constructor; vm_compute; congruence|]. split; [repeat constructor; vm_compute; congruence|].
  split; [reflexivity|]. split; [reflexivity|]. split; [constructor|].
  split. { unfold consistent. cbn. split; [lia|]. split; [lia|]. split; [lia|]. exists 2. reflexivity. }
  split; [exact F|]. rewrite F. split; [repeat constructor; cbn; lia|vm_compute; reflexivity].
Qed.

Lemma ex_greedy_run : exists s,
  @ip_run_calls w64 _ (watching ex_device_env) 100 (ip_init junk_ip 25) (tt, [])
    [CallProcess [16; 20; 5]; CallProcess (zdrop 3 ex_greedy); CallFinalize]
  = Ret ([0; - E_CORRUPT_PATCH; - E_ALREADY_FAILED], s,
         (tt, [EErase 15 5; ERead 5 5; EWrite 15 5; EErase 10 5; ERead 0 5; EWrite 10 5;
               EErase 0 5; ERead 10 3; EWrite 0 3; EWrite 3 2; EErase 5 3; ERead 10 2; EWrite 5 2])).
Proof. eexists. vm_compute. reflexivity. Qed.

Lemma ex_greedy_callbacks : exists res s log pos,
  @apply_patch_in_place_callbacks w64 _ (ip_env_with (watching ex_device_env) Z) 100 junk_ip (patch_file ex_greedy) (zlen ex_greedy) (tt, [], 0)
  = Ret (res, s, (tt, log, pos)) /\ res = - E_CORRUPT_PATCH /\ length log = 13%nat.
Proof. do 4 eexists. split; [vm_compute; reflexivity|]. split; reflexivity. Qed.

(** ** Undefined behaviour *)

(** Segments of no bytes at all. *)
Definition ex_zero_segment : list Z := [16; 10; 0; 0; 0; 1; 0].
(** Seventeen records without data that move the from position forth by 2^27 - 1. *)
Definition ex_far : list Z := [16; 10; 10; 0; 0; 1; 0] ++ concat (repeat [0; 0; 191; 255; 255; 127] 17).
(** An empty crle segment where a size is expected. *)
Definition ex_empty_segment : list Z := [18; 10; 10; 0; 0; 1; 0; 0; 0].

Lemma c50_refuted : exists zero_segment far empty_segment,
  nth 0 zero_segment 0 = header_byte TYPE_IN_PLACE CompNone /\ nth 0 far 0 = header_byte TYPE_IN_PLACE CompNone /\
  nth 0 empty_segment 0 = header_byte TYPE_IN_PLACE CompCrle /\
  (exists a, announces far = Some a /\ consistent a) /\ (exists a, announces empty_segment = Some a /\ consistent a) /\
  forall patch, In patch [zero_segment; far; empty_segment] ->
  forall junk, @ip_run_calls w64 _ open_env 200 (ip_init junk (zlen patch)) tt [CallProcess patch] = Undef.
Proof.
  exists ex_zero_segment, ex_far, ex_empty_segment. split; [reflexivity|]. split; [reflexivity|]. split; [reflexivity|].
  split. { eexists. split; [vm_compute; reflexivity|]. unfold consistent. cbn. split; [lia|]. split; [lia|]. split; [lia|]. exists 1. reflexivity. }
  split. { eexists. split; [vm_compute; reflexivity|]. unfold consistent. cbn. split; [lia|]. split; [lia|]. split; [lia|]. exists 1. reflexivity. }
  intros patch [<-|[<-|[<-|[]]]] junk; vm_compute; reflexivity.
Qed.

(** ** Changes outside the memory *)

(** More to data than memory; the data moved up further than the memory reaches; a
    memory that is not shifted by whole segments. *)
Definition ex_large_to : list Z := [16; 1; 10; 0; 0; 2; 0; 0; 2; 65; 66; 0].
Definition ex_large_shift : list Z := [16; 4; 4; 50; 4; 1; 0; 0; 1; 65; 0].
Definition ex_odd_shift : list Z := [16; 9; 4; 3; 6; 1; 0; 0; 1; 65; 0].
(** An extra size of -1 after one byte, 2^64 - 1 bytes as the code reads it, and a byte
    repeated 63 times by crle. *)
Definition ex_negative : list Z := [18; 4; 4; 0; 0; 2] ++ [0; 7; 0; 0; 1; 65; 0; 0; 65] ++ [1; 63; 66].

Definition outside (memory : Z) (log : list event) : Prop := Exists (fun e => ~ changes_within memory e) log.

Lemma c51_refuted : exists large_to large_shift odd_shift negative,
  forall patch, In patch [large_to; large_shift; odd_shift; negative] ->
  exists a, announces patch = Some a /\ (patch = negative -> consistent a) /\
    (patch <> negative -> Forall size_nonneg (body_fields a (n_stream a))) /\
    forall junk, exists rs s log,
      @ip_run_calls w64 _ (watching open_env) 200 (ip_init junk (zlen patch)) (tt, []) [CallProcess patch] = Ret (rs, s, (tt, log)) /\
      outside (n_memory a) log.
Proof.
  exists ex_large_to, ex_large_shift, ex_odd_shift, ex_negative.
  assert (K : forall memory log k e, nth_error log k = Some e -> ~ changes_within memory e -> outside memory log).
  { intros memory log k e N H. apply Exists_exists. exists e. split; [eapply nth_error_In; eauto|auto]. }
  intros patch [<-|[<-|[<-|[<-|[]]]]].
  - eexists. split; [vm_compute; reflexivity|]. split; [discriminate|]. split; [intros _; vm_compute; repeat constructor; discriminate|].
    intros junk. do 3 eexists. split; [vm_compute; reflexivity|]. apply (K _ _ 0%nat (EErase 0 2)); [reflexivity|]. cbn. unfold within. cbn. lia.
  - eexists. split; [vm_compute; reflexivity|]. split; [discriminate|]. split; [intros _; vm_compute; repeat constructor; discriminate|].
    intros junk. do 3 eexists. split; [vm_compute; reflexivity|]. apply (K _ _ 0%nat (EErase 50 4)); [reflexivity|]. cbn. unfold within. cbn. lia.
  - eexists. split; [vm_compute; reflexivity|]. split; [discriminate|]. split; [intros _; vm_compute; repeat constructor; discriminate|].
    intros junk. do 3 eexists. split; [vm_compute; reflexivity|]. apply (K _ _ 0%nat (EErase 7 4)); [reflexivity|]. cbn. unfold within. cbn. lia.
  - eexists. split; [vm_compute; reflexivity|]. split; [|split; [congruence|]].
    { intros _. unfold consistent. cbn. split; [lia|]. split; [lia|]. split; [lia|]. exists 1. reflexivity. }
    intros junk. do 3 eexists. split; [vm_compute; reflexivity|]. apply (K _ _ 2%nat (EWrite 1 63)); [reflexivity|]. cbn. unfold within. cbn. lia.
Qed.

(** Reads are not kept within the memory: the from position moved forth by 50. *)
Definition ex_far_read : list Z := [16; 10; 10; 0; 0; 3] ++ [0; 0; 1; 65; 50; 1; 7; 1; 8; 0].

Lemma c51_reads_refuted : exists patch a,
  announces patch = Some a /\ consistent a /\ Forall size_nonneg (body_fields a (n_stream a)) /\
  forall junk, exists rs s log,
    @ip_run_calls w64 _ (watching open_env) 200 (ip_init junk (zlen patch)) (tt, []) [CallProcess patch; CallFinalize] = Ret (rs, s, (tt, log)) /\
    rs = [0; 3] /\ Exists (fun e => ~ event_in_memory (n_memory a) e) log.
Proof.
  exists ex_far_read. eexists. split; [vm_compute; reflexivity|].
  split. { unfold consistent. cbn. split; [lia|]. split; [lia|]. split; [lia|]. exists 1. reflexivity. }
  split; [vm_compute; repeat constructor; discriminate|].
  intros junk. do 3 eexists. split; [vm_compute; reflexivity|]. split; [reflexivity|].
  apply Exists_exists. exists (ERead 60 1). split; [cbn; auto 10|]. cbn. unfold within. cbn. lia.
Qed.
