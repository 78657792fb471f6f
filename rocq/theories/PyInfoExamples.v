(** Concrete cases for the theorems about patch_info() and about arbitrary patches. *)

From Coq Require Import ZArith List Bool Lia ZifyBool ZifyNat ZifyN.
From Verif Require Import Prelude Lib Spec PySize Bsdiff BsdiffSpec PyCreate PyInPlace PyApply PySpec PyApplyInPlace PyInfo PyInfoSpec PyInfoThms PyMemCut.
From Verif Require Import InPlaceSpec CreateExamples InPlaceExamples PyExamples PyMemExamples.
Import ListNotations.
Open Scope Z_scope.

Definition ex_di : df_info := fun _ _ => raise OtherError.
Definition ex_hi (patch : list Z) : pyo (Z * Z * Z) := raise OtherError.

Lemma ex_info : exists patch i, create_sequential CompCrle literals ex_sa ex_from ex_to = Ret (Some patch) /\
  patch_info ex_ext ex_di ex_hi 100 patch = ret (InfoSequential i) /\ ii_to_size (si_inner i) = 28 /\
  ii_diffs (si_inner i) = [0; 12; 15] /\ ii_extras (si_inner i) = [0; 1; 0] /\ ii_adjustments (si_inner i) = [3; -15; -5].
Proof. eexists. eexists. split; [vm_compute; reflexivity|]. split; [vm_compute; reflexivity|]. repeat split. Qed.

Definition ip_infos : list (Z * option Z * inner_info) :=
  [(0, None, mkinner 16 [0; 13] [3; 0] [5; -13] 6); (0, None, mkinner 16 [0; 16] [0; 0] [18; -16] 6); (0, None, mkinner 11 [0] [11] [7] 3)].

Lemma ex_info_in_place : patch_info ex_ext ex_di ex_hi 100 ip_patch = ret (InfoInPlace (49, 2, (80, 16, 32, 40, 43), ip_infos)).
Proof. vm_compute. reflexivity. Qed.

(** A negative size of a diff: the applier takes it for zero, patch_info() subtracts it
    and expects more data. *)
Definition negative_patch : list Z := [0; 2; 0; 65; 2; 7; 8; 0].

Lemma ex_negative : forall X F hdiff DI HI clamps from,
  apply_patch X F hdiff 100 clamps from negative_patch = ret (2, [7; 8]) /\ patch_info X DI HI 100 negative_patch = raise DetoolsError.
Proof. intros. split; vm_compute; reflexivity. Qed.

(** A negative size of the to file. *)
Definition minus_patch : list Z := [0; 65; 0].

Lemma ex_minus : forall X F hdiff clamps from, apply_patch X F hdiff 100 clamps from minus_patch = ret (-1, []).
Proof. intros. vm_compute. reflexivity. Qed.

(** patch_info() does not look at what follows an in-place patch. *)
Lemma ex_info_trailing : forall X DI HI,
  patch_info X DI HI 100 (ip_patch ++ [1; 2; 3]) = ret (InfoInPlace (52, 2, (80, 16, 32, 40, 43), ip_infos)) /\
  forall bytesio, apply_patch_in_place X 100 bytesio py_mem (ip_patch ++ [1; 2; 3]) = raise DetoolsError.
Proof. intros. split; [vm_compute; reflexivity|]. intros []; vm_compute; reflexivity. Qed.

(** A body that is not one of a created patch, for info_applies: its second record
    reads behind the from file. *)
Definition odd_body : list Z := [0; 1; 5; 1; 9; 10; 2; 1; 1; 0; 0].

Lemma ex_odd : py_stream CompNone odd_body odd_body /\ odd_body <> [] /\
  forall X F hdiff DI HI clamps,
  (exists i, patch_info X DI HI 100 (header_byte TYPE_SEQUENTIAL CompNone :: enc_size 4 ++ odd_body) = ret (InfoSequential i) /\
     ii_diffs (si_inner i) = [1; 2] /\ ii_extras (si_inner i) = [1; 0]) /\
  apply_patch X F hdiff 100 clamps [1; 2; 3; 4; 5; 6; 7; 8; 9; 10; 11; 12; 13] (header_byte TYPE_SEQUENTIAL CompNone :: enc_size 4 ++ odd_body) = ret (4, [6; 9; 13; 14]) /\
  apply_patch X F hdiff 100 clamps [1] (header_byte TYPE_SEQUENTIAL CompNone :: enc_size 4 ++ odd_body) = raise OtherError.
Proof.
  split; [constructor|]. split; [discriminate|]. intros. split; [|split; vm_compute; reflexivity]. eexists. split; [vm_compute; reflexivity|]. split; reflexivity.
Qed.

Lemma ex_total : (match negative_patch with [] => True | b :: _ => fst (unpack_header b) = 2 \/ snd (unpack_header b) = 0 \/ snd (unpack_header b) = 2 \/ decompressor_of ex_ext (snd (unpack_header b)) = None end) /\
  (forall format from1 data n, exists v, ex_formats format from1 data n = Ret v) /\ (forall a b, exists v, ex_hdiff a b = Ret v).
Proof. split; [right; left; reflexivity|]. split; intros; eexists; reflexivity. Qed.
