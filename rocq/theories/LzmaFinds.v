(** Concrete runs of the applier with LZMA, with the decoder of LzmaExamples.v. *)

From Coq Require Import ZArith List Bool Lia.
From Verif Require Import Prelude Lib Heatshrink CReader CSeq Spec SeqSpec SeqExamples Refuted CLzma CSeqLzma LzmaSpec LzmaExamples.
Import ListNotations.
Open Scope Z_scope.

(** All of [ex_lzma] but its last byte, the end mark. *)
Definition ex_lzma_cut : list Z := [1; 7] ++ flat_map (fun b => [1; b]) ex_body.

Lemma ex_lzma_cut_prefix : ex_lzma_cut ++ [0] = ex_lzma.
Proof. reflexivity. Qed.

Lemma ex_lzma_cut_accepted : exists x w,
  @x_apply w64 toy toy_lib 100 ex_junk (zlen ex_lzma) ex_from [ex_lzma_cut] = Ret (zlen ex_to, x, w) /\ f_to w = ex_to.
Proof. do 2 eexists. split; [vm_compute; reflexivity|reflexivity]. Qed.

Lemma ex_lzma_run : exists x w,
  @x_apply w64 toy toy_lib 100 ex_junk (zlen ex_lzma) ex_from [[1]; [7; 1]; skipn 3 ex_lzma] = Ret (zlen ex_to, x, w) /\ f_to w = ex_to.
Proof. do 2 eexists. split; [vm_compute; reflexivity|reflexivity]. Qed.

(** Memory runs out in the middle. *)
Lemma ex_lzma_poor : exists x w,
  @x_apply w64 toy (toy_poor 5) 100 ex_junk (zlen ex_lzma) ex_from [ex_lzma] = Ret (- E_OUT_OF_MEMORY, x, w) /\ f_to w = [11; 20; 32].
Proof. do 2 eexists. split; [vm_compute; reflexivity|reflexivity]. Qed.

(** A stream that cannot be decoded. *)
Lemma ex_lzma_hostile : exists x w,
  @x_apply w64 toy toy_lib 100 ex_junk 9 ex_from [[1; 7; 1; 0; 1; 3; 9; 9; 9]] = Ret (- E_LZMA_DECODE, x, w).
Proof. do 2 eexists. vm_compute. reflexivity. Qed.

(** Bytes behind the end of the patch in the last piece, and in a piece of their own. *)
Lemma ex_lzma_trailing :
  (exists x w, @x_apply w64 toy toy_lib 100 ex_junk 99 ex_from [ex_lzma ++ [5]] = Ret (- E_CORRUPT_PATCH, x, w)) /\
  (exists x w, @x_apply w64 toy toy_lib 100 ex_junk 99 ex_from [ex_lzma; [5]] = Ret (zlen ex_to, x, w)).
Proof. split; do 2 eexists; vm_compute; reflexivity. Qed.

(** finalize() twice. *)
Lemma ex_lzma_twice : exists x w,
  @x_apply w64 toy toy_lib 100 ex_junk (zlen ex_lzma) ex_from [ex_lzma] = Ret (zlen ex_to, x, w) /\
  @x_finalize w64 toy toy_lib files file_env 100 x w = Undef.
Proof. do 2 eexists. split; [vm_compute; reflexivity|]. vm_compute. reflexivity. Qed.

Lemma ex_lzma_body_bytes : bytes_ok (enc_body ex_recs).
Proof. all_bytes. Qed.

Lemma ex_lzma_cut_refutes : exists cut rest x w,
  lzma_patch toy_lib ex_recs (cut ++ rest) /\ rest <> [] /\
  @x_apply w64 toy toy_lib 100 ex_junk (zlen ex_lzma) ex_from [cut] = Ret (zlen ex_to, x, w).
Proof.
  destruct ex_lzma_cut_accepted as (x & w & A & _). exists ex_lzma_cut, [0], x, w.
  split; [exact ex_lzma_patch|]. split; [discriminate|exact A].
Qed.

Lemma ex_lzma_cut_shorter : exists x w,
  @x_apply w64 toy toy_lib 100 ex_junk (zlen ex_lzma) ex_from [removelast ex_lzma_cut] = Ret (- E_NOT_ENOUGH_PATCH_DATA, x, w).
Proof. do 2 eexists. vm_compute. reflexivity. Qed.
