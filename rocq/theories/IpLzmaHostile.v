(** Examples for in-place LZMA patches that go wrong. *)

From Coq Require Import ZArith List Bool Lia.
From Verif Require Import Prelude Lib Heatshrink CReader CSeq CInPlace Spec InPlaceSpec InPlaceExamples IpBoundSpec CodesSpec Refuted CallbackSpec IpCallbackSpec
  CLzma CSeqLzma LzmaSpec LzmaExamples CIpLzma IpLzmaSpec IpLzmaExamples.
Import ListNotations.
Open Scope Z_scope.

Lemma toy_poor_bounded : forall m, bounded_output (toy_poor m).
Proof. intros m. exact toy_bounded. Qed.

(** The seventh allocation fails. *)
Lemma ip_lzma_poor : exists y d, @y_apply w64 toy (toy_poor 6) dev flash_env 400 junk_ip 0 (new_device ip_mem) [ztake 50 ip_lzma; zdrop 50 ip_lzma] = Ret (- E_OUT_OF_MEMORY, y, d) /\
  d_step d <> 0.
Proof. do 2 eexists. split; [vm_compute; reflexivity|]. vm_compute. discriminate. Qed.

(** Not a stream of the decoder. *)
Lemma ip_lzma_bad : exists y d, @y_apply w64 toy toy_lib dev flash_env 400 junk_ip 0 (new_device ip_mem) [ztake 10 ip_lzma; [9; 9; 9]] = Ret (- E_LZMA_DECODE, y, d) /\
  announced_comp (concat [ztake 10 ip_lzma; [9; 9; 9]]) = 1.
Proof. do 2 eexists. split; [vm_compute; reflexivity|]. vm_compute. reflexivity. Qed.

(** A patch_read that fails at the end. *)
Definition ex_ip_lzma_read (w : dev) (n : Z) : Z * list Z * dev :=
  if n =? 512 then (0, ip_lzma ++ zrepeat 0 (512 - zlen ip_lzma), w) else (5, [], w).

Lemma ex_ip_lzma_read_run :
  (forall buf w1, ex_ip_lzma_read (new_device ip_mem) (Z.min 600 512) = (0, buf, w1) -> announced_comp buf = 1) /\
  exists y d, @y_apply_patch_in_place_callbacks w64 toy toy_lib dev flash_env 400 junk_ip ex_ip_lzma_read 600 (new_device ip_mem) = Ret (- E_IO_FAILED, y, d) /\ holds (d_mem d) ip_to.
Proof.
  split; [intros buf w1 H; injection H as <- <-; reflexivity|]. do 2 eexists. split; [vm_compute; reflexivity|]. vm_compute. reflexivity.
Qed.
