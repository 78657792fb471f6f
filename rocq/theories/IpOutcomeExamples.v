(** Examples for the outcome of in-place updates. *)

From Coq Require Import ZArith List Bool Lia.
From Verif Require Import Prelude Lib Heatshrink CReader CSeq CInPlace Spec SeqSpec Refuted SeqExamples InPlaceSpec InPlaceExamples CodesSpec CodesExamples IpBoundSpec CallbackSpec IpCallbackSpec IpOutcomeSpec.
Import ListNotations.
Open Scope Z_scope.

(** The second erase fails; nothing happens after that. *)
Lemma ex_ip_sticky : exists s w s1 w1,
  @ip_run_calls (32 : WordBits) _ (worn_flash 1 (-1000)) 200 (ip_init junk_ip 99) worn_dev
    [CallProcess (ztake 10 worn_patch)] = Ret ([0], s, w) /\ d_mem w = [None; Some 9; Some 9; Some 9] /\
  @ip_process (32 : WordBits) _ (worn_flash 1 (-1000)) 200 s w (zdrop 10 worn_patch) = Ret (-1000, s1, w1).
Proof. do 4 eexists. split; [vm_compute; reflexivity|]. split; [reflexivity|]. vm_compute. reflexivity. Qed.

Lemma ip_finalize_refuted : exists before after,
  forall junk, exists s1 w1 rs r s2 w2,
    @ip_run_calls w64 _ flash_env 200 (ip_init junk 9) worn_dev (before ++ [CallFinalize]) = Ret (rs ++ [r], s1, w1) /\
    r < 0 /\ d_mem w1 = d_mem worn_dev /\
    @ip_run_calls w64 _ flash_env 200 s1 w1 after = Ret ([0; 2], s2, w2) /\ d_mem w2 = [Some 7; Some 8; Some 9; Some 9].
Proof.
  exists [CallProcess [18; 4; 2; 2; 0; 2; 0]], [CallProcess [9; 0; 0; 2; 7; 8; 0]; CallFinalize]. intros junk.
  do 2 eexists. exists [0]. do 3 eexists. split; [vm_compute; reflexivity|].
  split; [vm_compute; reflexivity|]. split; [reflexivity|]. split; vm_compute; reflexivity.
Qed.

Lemma worn_sizes : sizes_ok 4 1 1 0 3.
Proof. unfold sizes_ok, size_limit. repeat split; try lia; exists 4 + exists 1; reflexivity. Qed.

Lemma worn_limits : segments_in_limits 1 1 0 worn_segs.
Proof. cbn. unfold size_limit, INT_MAX. repeat match goal with |- _ /\ _ => split | |- Forall _ [] => constructor | |- Forall _ (_ :: _) => constructor | |- True => exact I end; cbn; lia. Qed.

Lemma worn_bytes : bytes_ok worn_patch.
Proof. all_bytes. Qed.

(** A device that does not remember steps. *)
Definition plain_env : ip_env dev := mkipenv dev flash_read flash_write flash_erase None None.

Lemma plain_codes : mem_codes (fun r => r <= 0 /\ r <> -11) plain_env.
Proof.
  repeat split; cbn; intros.
  all: try (unfold flash_read; destruct (d_off w); [cbn; lia|]; destruct (negb _); [cbn; lia|]; destruct (power_lost_now w); cbn; lia).
  all: try (unfold flash_write; cbv zeta; destruct (d_off w); [cbn; lia|]; destruct (negb _); [cbn; lia|]; destruct (power_lost_now w); cbn; lia).
  all: unfold flash_erase; destruct (d_off w); [cbn; lia|]; destruct (negb _); [cbn; lia|]; destruct (power_lost_now w); cbn; lia.
Qed.

Lemma ex_success : exists s d log a,
  @ip_feed (32 : WordBits) _ (watching plain_env) 200 (ip_init junk_ip (zlen ip_patch)) (new_device ip_mem, []) (map (fun b => [b]) ip_patch) = Ret (43, s, (d, log)) /\
  announces (concat (map (fun b => [b]) ip_patch)) = Some a /\ consistent a /\ moves a = ztake 9 log /\ bytes_written (zdrop 9 log) = 43 /\ zlen log = 30.
Proof.
  do 4 eexists. split; [vm_compute; reflexivity|]. split; [vm_compute; reflexivity|]. split; [|vm_compute; auto].
  unfold consistent. cbn. repeat split; try lia. exists 3. reflexivity.
Qed.
