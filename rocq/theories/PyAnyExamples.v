(** Concrete cases for the theorems about arbitrary patches given to the Python
    functions. *)

From Coq Require Import ZArith List Bool Lia.
From Verif Require Import Prelude Lib PyApply PySpec PyApplyInPlace PyExamples PyMemExamples InPlaceSpec InPlaceExamples PyAnySpec PyMemAny PyFinite.
Import ListNotations.
Open Scope Z_scope.

Lemma ex_quiet : quiet (x_heatshrink ex_ext).
Proof. intros ((wb & lb) & l). cbn. rewrite app_nil_r. reflexivity. Qed.

Lemma ex_announced : announced_sizes ip_patch = Some (mksizes 80 16 32 40 43).
Proof. vm_compute. reflexivity. Qed.

Lemma ex_ip_finite : finite_compression ex_ext ip_patch.
Proof. apply known_finite; [exact ex_quiet|]. vm_compute. auto. Qed.

(** A patch of nonsense whose first byte announces an in-place patch compressed with
    heatshrink. *)
Definition nonsense_patch : list Z := [20; 144; 1; 16; 32; 40; 43; 1; 2; 3; 4; 5; 6; 7; 8; 9; 10; 11; 12].

Lemma ex_nonsense : finite_compression ex_ext nonsense_patch /\ announced_sizes nonsense_patch = Some (mksizes 80 16 32 40 43) /\
  apply_patch_in_place ex_ext 100 true py_mem nonsense_patch = raise DetoolsError.
Proof. split; [apply known_finite; [exact ex_quiet|]; vm_compute; auto|]. split; vm_compute; reflexivity. Qed.

Lemma ex_small : 0 < is_to (mksizes 80 16 32 40 43) /\ zlen (ztake 79 py_mem) < is_memory (mksizes 80 16 32 40 43).
Proof. split; vm_compute; reflexivity. Qed.
