(** Concrete runs of the models that violate a property. *)

From Coq Require Import ZArith List Bool Lia.
From Verif Require Import Prelude Heatshrink CReader CSeq Spec SeqSpec.
Import ListNotations.
Open Scope Z_scope.

Definition w64 : WordBits := 64.

(** C04: the header of an uncompressed patch split over two process() calls. *)
Definition c04_recs : list prec := [mkrec [] [65] 0].
Definition c04_patch : list Z := [0; 1; 0; 0; 1; 65; 0].

Lemma c04_wellformed : seq_patch CompNone c04_recs c04_patch.
Proof.
  right. split; [exists [], (mkrec [] [65] 0); split; reflexivity|].
  exists [0; 0; 1; 65; 0]. split; [apply compressed_none|reflexivity].
Qed.

Lemma c04_meaning : apply_recs [] 0 c04_recs = Some [65].
Proof. reflexivity. Qed.

Lemma c04_run : forall junk, exists s w,
  @c_apply w64 100 junk 7 [] [[0]; [1; 0; 0; 1; 65; 0]] = Ret (- E_CORRUPT_PATCH, s, w).
Proof. intros junk. do 2 eexists. vm_compute. reflexivity. Qed.

(** C06: a negative extra size passes the bound check; announced size 2, the
    crle body then repeats a byte 100 times. *)
Definition c06_patch : list Z :=
  [2; 2] ++                           (* sequential, crle, to_size 2 *)
  [0; 7] ++ [0] ++                    (* 7 scattered bytes: no data-format patch, *)
  [0; 1; 65; 0] ++                    (* diff 0, extra 1: "A", adjustment 0, *)
  [0; 65] ++                          (* diff 0, extra -1, *)
  [1; 100; 66].                       (* 100 times "B" *)

Lemma c06_run : forall junk, exists s w,
  @c_apply w64 100 junk (zlen c06_patch) [] [c06_patch] = Ret (- E_NOT_ENOUGH_PATCH_DATA, s, w) /\
  a_to_size s = 2 /\ zlen (f_to w) = 101.
Proof. intros junk. do 2 eexists. split; [vm_compute; reflexivity|]. split; reflexivity. Qed.

(** C10: trailing bytes after a complete crle patch. *)
Definition c10_recs : list prec := [mkrec [] [65] 0].
Definition c10_patch : list Z := [2; 1] ++ [0; 5; 0; 0; 1; 65; 0].

Lemma c10_wellformed : seq_patch CompCrle c10_recs c10_patch.
Proof.
  right. split; [exists [], (mkrec [] [65] 0); split; reflexivity|].
  exists [0; 5; 0; 0; 1; 65; 0]. split; [|reflexivity].
  change (enc_body c10_recs) with (segs_expand [Scattered [0; 0; 1; 65; 0]]).
  change [0; 5; 0; 0; 1; 65; 0] with (enc_segs [Scattered [0; 0; 1; 65; 0]]).
  constructor. constructor; [cbn; lia|constructor].
Qed.

Lemma c10_run : forall junk, exists s w,
  @c_apply w64 100 junk 12 [] [c10_patch ++ [1; 2; 3]] = Ret (1, s, w) /\ f_to w = [65].
Proof. intros junk. do 2 eexists. split; vm_compute; reflexivity. Qed.

(** C11: a zero length crle segment where a size is expected. *)
Definition c11_patch : list Z := [2; 1] ++ [0; 0; 0].

Lemma c11_run : forall junk, @c_apply w64 100 junk 5 [] [c11_patch] = Undef.
Proof. intros junk. vm_compute. reflexivity. Qed.

(** C11: seventeen adjustments of 2^27 - 1 overflow the int from_offset. *)
Definition c11_adjust : list Z := [0; 0; 191; 255; 255; 127].
Definition c11_overflow : list Z :=
  [0; 1; 0] ++ concat (repeat c11_adjust 17).

Lemma c11_overflow_run : forall junk,
  @c_apply w64 200 junk (zlen c11_overflow) [] [c11_overflow] = Undef.
Proof. intros junk. vm_compute. reflexivity. Qed.

Lemma c04_refuted : exists recs patch to chunks,
  seq_patch CompNone recs patch /\ apply_recs [] 0 recs = Some to /\
  concat chunks = patch /\
  forall junk, exists s w,
    @c_apply w64 100 junk (zlen patch) [] chunks = Ret (- E_CORRUPT_PATCH, s, w).
Proof.
  exists c04_recs, c04_patch, [65], [[0]; [1; 0; 0; 1; 65; 0]].
  split; [exact c04_wellformed|]. split; [exact c04_meaning|]. split; [reflexivity|]. exact c04_run.
Qed.

Lemma c06_refuted : exists patch, forall junk, exists res s w,
  @c_apply w64 100 junk (zlen patch) [] [patch] = Ret (res, s, w) /\
  a_to_size s = 2 /\ zlen (f_to w) = 101.
Proof.
  exists c06_patch. intros junk. destruct (c06_run junk) as (s & w & A & B & C).
  exists (- E_NOT_ENOUGH_PATCH_DATA), s, w. auto.
Qed.

Lemma c10_refuted : exists recs patch to trailing,
  seq_patch CompCrle recs patch /\ apply_recs [] 0 recs = Some to /\ trailing <> [] /\
  forall junk, exists s w,
    @c_apply w64 100 junk (zlen (patch ++ trailing)) [] [patch ++ trailing] = Ret (zlen to, s, w) /\
    f_to w = to.
Proof.
  exists c10_recs, c10_patch, [65], [1; 2; 3]. split; [exact c10_wellformed|].
  split; [reflexivity|]. split; [discriminate|]. exact c10_run.
Qed.

Lemma c11_refuted : exists crle_patch none_patch,
  nth 0 crle_patch 0 = header_byte TYPE_SEQUENTIAL CompCrle /\
  nth 0 none_patch 0 = header_byte TYPE_SEQUENTIAL CompNone /\
  (forall junk, @c_apply w64 100 junk (zlen crle_patch) [] [crle_patch] = Undef) /\
  (forall junk, @c_apply w64 200 junk (zlen none_patch) [] [none_patch] = Undef).
Proof.
  exists c11_patch, c11_overflow. split; [reflexivity|]. split; [reflexivity|].
  split; [exact c11_run|exact c11_overflow_run].
Qed.

(** C07: an error reported by finalize() is not remembered: after finalize() has
    complained about missing data the rest of the patch can still be processed. *)
Lemma c07_run : forall junk, exists s w,
  @run_calls w64 files file_env 100 (ap_init junk 9) (mkfiles [] 0 [])
    [CallProcess [2; 1; 0; 5]; CallFinalize; CallProcess [0; 0; 1; 65; 0]; CallFinalize]
  = Ret ([0; - E_NOT_ENOUGH_PATCH_DATA; 0; 1], s, w) /\ f_to w = [65].
Proof. intros junk. do 2 eexists. split; vm_compute; reflexivity. Qed.

Lemma c07_refuted : exists before after,
  forall junk, exists s1 w1 rs r s2 w2,
    @run_calls w64 files file_env 100 (ap_init junk 9) (mkfiles [] 0 []) (before ++ [CallFinalize]) = Ret (rs ++ [r], s1, w1) /\
    r < 0 /\ f_to w1 = [] /\
    @run_calls w64 files file_env 100 s1 w1 after = Ret ([0; 1], s2, w2) /\ f_to w2 = [65].
Proof.
  exists [CallProcess [2; 1; 0; 5]], [CallProcess [0; 0; 1; 65; 0]; CallFinalize]. intros junk.
  do 2 eexists. exists [0], (- E_NOT_ENOUGH_PATCH_DATA). do 2 eexists. split; [vm_compute; reflexivity|].
  split; [reflexivity|]. split; [reflexivity|]. split; vm_compute; reflexivity.
Qed.
