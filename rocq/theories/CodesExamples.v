(** A flash memory that cannot erase one of its cells, and patches that meet it. *)

From Coq Require Import ZArith List Bool Lia.
From Verif Require Import Prelude Lib Heatshrink CReader CSeq CInPlace Spec SeqSpec Refuted SeqExamples InPlaceSpec InPlaceExamples CodesSpec.
Import ListNotations.
Open Scope Z_scope.

Definition worn_flash (cell code : Z) : ip_env dev :=
  mkipenv dev flash_read flash_write
    (fun d a n => if a =? cell then (code, d) else flash_erase d a n)
    (Some record_step) (Some recorded_step).

Lemma worn_codes : forall cell code (P : Z -> Prop), P 0 -> P (-1) -> P code -> mem_codes P (worn_flash cell code).
Proof.
  intros cell code P H0 H1 H2. repeat split; cbn; intros.
  - unfold flash_read. destruct (d_off w); [auto|]. destruct (negb _); [auto|]. destruct (power_lost_now w); auto.
  - unfold flash_write. cbv zeta. destruct (d_off w); [auto|]. destruct (negb _); [auto|]. destruct (power_lost_now w); auto.
  - destruct (a =? cell); [auto|]. unfold flash_erase. destruct (d_off w); [auto|]. destruct (negb _); [auto|]. destruct (power_lost_now w); auto.
Qed.

(** Three segments of one byte each, the second and third a repetition of the first. *)
Definition worn_segs : list (list prec) := [[mkrec [] [7] 0]; [mkrec [] [7] 0]; [mkrec [] [7] 0]].
Definition worn_tokens : list token := [Lit 0; Lit 0; Lit 1; Lit 7; Lit 0; Ref 5 10].
Definition worn_stream : list Z := Eval vm_compute in pack_bits 100 (enc_tokens 8 7 worn_tokens).
Definition worn_pad : list bool :=
  Eval vm_compute in skipn (length (enc_tokens 8 7 worn_tokens)) (bytes_bits worn_stream).
Definition worn_patch : list Z := [20; 4; 1; 1; 0; 3; 68] ++ worn_stream.

Lemma worn_patch_ok : in_place_patch CompHeatshrink 4 1 1 0 3 worn_segs worn_patch.
Proof.
  split.
  - cbn. repeat split; try (exists [], (mkrec [] [7] 0); split; reflexivity).
  - exists (68 :: worn_stream). split; [vm_compute; reflexivity|]. right. split; [discriminate|].
    change (enc_segments worn_segs) with (tokens_expand [] worn_tokens).
    apply (compressed_heatshrink worn_tokens worn_pad).
    + repeat constructor; cbv; intuition discriminate.
    + all_bytes.
    + cbv. lia.
    + vm_compute. reflexivity.
Qed.

Definition worn_dev : dev := mkdev (zrepeat (Some 9) 4) 0 None (fun _ => None) false false false [].

Lemma worn_run : exists s w log,
  @ip_apply (32 : WordBits) _ (ip_noting flash_env) 200 junk_ip (zlen worn_patch) (worn_dev, []) [worn_patch] = Ret (3, s, (w, log)) /\
  d_mem w = [Some 7; Some 7; Some 7; Some 9] /\ zlen log = 17.
Proof. do 3 eexists. split; [vm_compute; reflexivity|]. split; reflexivity. Qed.

(** Raw codes come out. *)
Lemma worn_leak : exists s w,
  @ip_apply (32 : WordBits) _ (worn_flash 2 (-1000)) 200 junk_ip (zlen worn_patch) worn_dev [worn_patch] = Ret (-1000, s, w).
Proof. do 2 eexists. vm_compute. reflexivity. Qed.

(** A patch that ends in a run, broken off in its second segment.  Normally that is
    reported; with an erase callback that fails with -11 it is a success. *)
Definition run_patch : list Z := [18; 4; 1; 1; 0; 2; 0; 4; 0; 0; 1; 7; 1; 2; 0].

Lemma run_normal : exists s w,
  @ip_apply (32 : WordBits) _ flash_env 200 junk_ip (zlen run_patch) worn_dev [run_patch] = Ret (-19, s, w).
Proof. do 2 eexists. vm_compute. reflexivity. Qed.

Lemma run_masked : exists s w log,
  @ip_apply (32 : WordBits) _ (ip_noting (worn_flash 1 (-11))) 200 junk_ip (zlen run_patch) (worn_dev, []) [run_patch] = Ret (2, s, (w, log)) /\
  d_mem w = [Some 7; Some 9; Some 9; Some 9] /\ ~ all_zero log.
Proof.
  do 3 eexists. split; [vm_compute; reflexivity|]. split; [reflexivity|]. intros H.
  assert (In (-11) [0; 0; 0; 0; 0; 0; 0; -11]) as I by (cbn; tauto). unfold all_zero in H. rewrite Forall_forall in H. apply H in I. discriminate.
Qed.

(** The sequential applier with a to file that is full. *)
Definition full_env : seq_env files := mkenv files file_read file_seek (fun w d => (-1000, w)).

Lemma full_run : exists s w log,
  @feed (32 : WordBits) _ (noting full_env) 200 128 (ap_init ex_junk (zlen ex_none)) (mkfiles ex_from 0 [], []) [ex_none] = Ret (-10, s, (w, log)) /\
  ~ all_zero log.
Proof. do 3 eexists. split; [vm_compute; reflexivity|]. intros H. unfold all_zero in H. inversion H as [|x l A B]. inversion B as [|y l2 C D]. discriminate C. Qed.

Lemma fine_run : exists s w log,
  @feed (32 : WordBits) _ (noting file_env) 200 128 (ap_init ex_junk (zlen ex_none)) (mkfiles ex_from 0 [], []) [ex_none] = Ret (7, s, (w, log)) /\
  f_to w = ex_to /\ zlen log = 7.
Proof. do 3 eexists. split; [vm_compute; reflexivity|]. split; reflexivity. Qed.

Lemma fine_calls : exists s w,
  @run_calls (32 : WordBits) _ file_env 200 (ap_init ex_junk (zlen ex_none)) (mkfiles ex_from 0 []) [CallProcess [0; 7]; CallProcess [255; 255; 255; 255; 255]; CallFinalize] = Ret ([0; -25; -24], s, w).
Proof. do 2 eexists. vm_compute. reflexivity. Qed.

Lemma worn_codes_ok : mem_codes (fun r => r <= 0 /\ r <> -11) (worn_flash 2 (-1000)).
Proof. apply worn_codes; lia. Qed.
Lemma worn_codes_nonpos : mem_codes (fun r => r <= 0) (worn_flash 1 (-11)).
Proof. apply worn_codes; lia. Qed.
Lemma worn_codes_raw : mem_codes (fun r => r <= 0) (worn_flash 2 (-1000)).
Proof. apply worn_codes; lia. Qed.
Lemma worn_codes_documented : mem_codes (fun r => -27 <= r <= 0 /\ r <> -11) (worn_flash 2 (-15)).
Proof. apply worn_codes; lia. Qed.
