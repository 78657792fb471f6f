(** The Python functions on arbitrary patches: C60 and more of C41. *)

From Coq Require Import ZArith List Bool.
From Verif Require Import Prelude PyApply PySpec PyApplyInPlace PyExamples PyMemExamples InPlaceSpec InPlaceExamples PyAnySpec PyMemAny PyFinite PyAnyExamples.
Import ListNotations.
Open Scope Z_scope.

(** C60: on any memory and any patch, of whatever bytes, apply_patch_in_place() ends. If
    it returns a size then that is the to size in the patch; if the size is positive the
    memory was as large as the patch says, it has at least that size now, and bytes
    beyond both the announced memory and the to data are the same as before, if the
    announced shift is within the memory. *)
Theorem C60_total : forall X bytesio mem patch,
  finite_compression X patch ->
  exists m, forall fuel, (m <= fuel)%nat -> exists v, apply_patch_in_place X fuel bytesio mem patch = Ret v /\
    forall n mem1, v = Val (n, mem1) -> exists z, announced_sizes patch = Some z /\ n = is_to z /\
      (n <= 0 -> mem1 = mem) /\
      (0 < n -> is_memory z <= zlen mem /\ (0 < is_segment z -> n <= zlen mem1) /\
         (0 <= is_shift z <= is_memory z -> zdrop (Z.max (is_memory z) n) mem1 = zdrop (Z.max (is_memory z) n) mem /\ zlen mem <= zlen mem1)).
Proof. exact in_place_any. Qed.
Print Assumptions C60_total.

Example C60_example : finite_compression ex_ext nonsense_patch /\ announced_sizes nonsense_patch = Some (mksizes 80 16 32 40 43) /\
  apply_patch_in_place ex_ext 100 true py_mem nonsense_patch = raise DetoolsError.
Proof. exact ex_nonsense. Qed.

Example C60_accepted_example : finite_compression ex_ext ip_patch /\ announced_sizes ip_patch = Some (mksizes 80 16 32 40 43) /\
  forall bytesio, exists mem1, apply_patch_in_place ex_ext 100 bytesio py_mem ip_patch = ret (43, mem1) /\
    ztake 43 mem1 = ip_to /\ zdrop 80 mem1 = zrepeat 1 20.
Proof. exact (conj ex_ip_finite (conj ex_announced ex_py_mem_run)). Qed.

(** The compressions that are part of the project meet the hypothesis on any data;
    heatshrink does if its decoder returns nothing when it is given nothing. *)
Theorem C60_known : forall X patch, quiet (x_heatshrink X) ->
  (match patch with [] => True | b :: _ => Z.land b 15 = 0 \/ Z.land b 15 = 2 \/ Z.land b 15 = 4 \/ 6 < Z.land b 15 end) ->
  finite_compression X patch.
Proof. exact known_finite. Qed.
Print Assumptions C60_known.

Example C60_known_example : quiet (x_heatshrink ex_ext).
Proof. exact ex_quiet. Qed.

(** A memory smaller than the patch says is refused before anything is written. *)
Theorem C60_small_memory : forall X fuel bytesio mem patch z, announced_sizes patch = Some z -> 0 < is_to z -> zlen mem < is_memory z ->
  apply_patch_in_place X fuel bytesio mem patch = raise DetoolsError.
Proof. exact in_place_small_memory. Qed.
Print Assumptions C60_small_memory.

Example C60_small_example : announced_sizes ip_patch = Some (mksizes 80 16 32 40 43) /\
  0 < is_to (mksizes 80 16 32 40 43) /\ zlen (ztake 79 py_mem) < is_memory (mksizes 80 16 32 40 43).
Proof. exact (conj ex_announced ex_small). Qed.

(** Success does not mean that anything was written: with a negative segment size there
    are no segments, and the size is returned all the same. *)
Theorem C60_unwritten_refuted : exists patch, announced_sizes patch = Some (mksizes 10 (-1) 0 0 5) /\
  forall X fuel bytesio mem, zlen mem = 10 -> apply_patch_in_place X fuel bytesio mem patch = ret (5, mem).
Proof. exact (ex_intro _ unwritten_patch ex_unwritten). Qed.
Print Assumptions C60_unwritten_refuted.

(** C41 for every compression that ends on any data, heatshrink included. *)
Theorem C41_any : forall X F hdiff clamps from patch, finite_compression X patch ->
  (forall format from1 data n, exists v, F format from1 data n = Ret v) -> (forall a b, exists v, hdiff a b = Ret v) ->
  exists m, forall fuel, (m <= fuel)%nat -> exists v, apply_patch X F hdiff fuel clamps from patch = Ret v /\
    (forall n to, v = Val (n, to) -> (match patch with [] => True | b :: _ => fst (unpack_header b) <> 2 end) -> zlen to = Z.max 0 n).
Proof. exact apply_finite. Qed.
Print Assumptions C41_any.

Example C41_any_example : finite_compression ex_ext nonsense_patch /\
  (forall format from1 data n, exists v, ex_formats format from1 data n = Ret v) /\ (forall a b, exists v, ex_hdiff a b = Ret v).
Proof. exact (conj (proj1 ex_nonsense) (conj (fun _ _ _ _ => ex_intro _ _ eq_refl) (fun _ _ => ex_intro _ _ eq_refl))). Qed.
