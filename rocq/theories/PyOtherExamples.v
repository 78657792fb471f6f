(** Concrete cases for the theorems about compressions of other packages. *)

From Coq Require Import ZArith List Bool Lia ZifyBool ZifyNat ZifyN.
From Verif Require Import Prelude Lib Spec Bsdiff BsdiffSpec PyCreate PyInPlace PyApply PySpec PyApplyInPlace PyOther PyOtherSpec PyOtherProofs CreateExamples PyExamples.
From Verif Require Import InPlaceSpec InPlaceExamples PyMemExamples.
Import ListNotations.
Open Scope Z_scope.

(** ** A package without a trailer *)

(** It stores the data as it is. *)
Definition plain_lib : zstd_lib := mkzs (fun body => body) unit tt (fun st data => Some (data, st)).

Lemma plain_prompt : zstd_prompt plain_lib.
Proof.
  exists (fun _ file out => file = out). split; [|split; [|split]]; auto. intros st data rest out <-. exists data, rest, st. auto.
Qed.

Definition plain_ext : externals := mkext ex_reader (fun _ => zstd_dec plain_lib).

Lemma ex_plain_run : exists patch, create_sequential_with 5 (zstd_compress plain_lib) ex_sa ex_from ex_to = Ret (Some patch) /\
  apply_patch plain_ext ex_formats ex_hdiff 200 false ex_from patch = ret (28, ex_to).
Proof. eexists. split; [vm_compute; reflexivity|]. vm_compute. reflexivity. Qed.

Lemma ex_plain_in_place : exists patch, create_in_place_with 5 (zstd_compress plain_lib) sort_suffixes 80 16 None ip_from ip_to = Ret (Some patch) /\
  exists mem1, apply_patch_in_place plain_ext 500 true py_mem patch = ret (43, mem1) /\ ztake 43 mem1 = ip_to.
Proof. eexists. split; [vm_compute; reflexivity|]. eexists. split; [vm_compute; reflexivity|]. vm_compute. reflexivity. Qed.

(** ** A package with a trailer *)

(** Every byte of the data follows a 1; a 0 is the end.  The states are 0: between
    bytes, 1: behind a 1, 2: at the end. *)
Fixpoint marked_run (st : Z) (data : list Z) : list Z * Z :=
  match data with
  | [] => ([], st)
  | b :: l =>
      if st =? 1 then let r := marked_run 0 l in (b :: fst r, snd r)
      else if (st =? 0) && (b =? 1) then marked_run 1 l
      else marked_run 2 l
  end.

Definition marked_lib : zstd_lib :=
  mkzs (fun body => flat_map (fun b => [1; b]) body ++ [0]) Z 0 (fun st data => Some (marked_run st data)).

Lemma marked_app : forall a b st, marked_run st (a ++ b) = (fst (marked_run st a) ++ fst (marked_run (snd (marked_run st a)) b), snd (marked_run (snd (marked_run st a)) b)).
Proof.
  induction a as [|x a IH]; intros b st; cbn [app marked_run fst snd]; [destruct (marked_run st b); reflexivity|].
  destruct (st =? 1); [rewrite IH; reflexivity|]. destruct ((st =? 0) && (x =? 1)); apply IH.
Qed.

Lemma marked_body : forall body, marked_run 0 (flat_map (fun b => [1; b]) body ++ [0]) = (body, 2).
Proof. induction body as [|b body IH]; [reflexivity|]. cbn [flat_map app marked_run]. cbn [Z.eqb andb Pos.eqb]. rewrite IH. reflexivity. Qed.

Lemma marked_ok : zstd_ok marked_lib.
Proof.
  exists (fun st file out => marked_run st file = (out, 2)). split; [|split].
  - intros st data rest out H. cbn [marked_lib zs_write zs_state] in *. rewrite marked_app in H. injection H as <- H2. eexists _, _, _. split; [rewrite <- surjective_pairing; reflexivity|]. split; [reflexivity|].
    rewrite <- H2 at 1. apply surjective_pairing.
  - intros st out H. cbn in H. congruence.
  - intros body _ _. apply marked_body.
Qed.

Definition marked_ext : externals := mkext ex_reader (fun _ => zstd_dec marked_lib).

Lemma ex_marked_run : exists patch, create_sequential_with 5 (zstd_compress marked_lib) ex_sa ex_from ex_to = Ret (Some patch) /\ zlen patch <= 4096 /\
  apply_patch marked_ext ex_formats ex_hdiff 400 false ex_from patch = ret (28, ex_to).
Proof. eexists. split; [vm_compute; reflexivity|]. split; [vm_compute; discriminate|]. vm_compute. reflexivity. Qed.

(** To data for which exactly the end mark is beyond the first 4096 bytes. *)
Definition long_to : list Z := zrepeat 7 2043.

Lemma ex_long : exists patch, create_sequential_with 5 (zstd_compress marked_lib) (sort_suffixes []) [] long_to = Ret (Some patch) /\ zlen patch = 4100 /\
  apply_patch marked_ext ex_formats ex_hdiff (Z.to_nat 20000) false [] patch = raise DetoolsError.
Proof. eexists. split; [vm_compute; reflexivity|]. split; [vm_compute; reflexivity|]. vm_compute. reflexivity. Qed.

(** ** A package that writes frames *)

Definition frame_lib : lz4_lib := mkl4 Z ([4; 34], 0) (fun st data => (zlen data :: data, st + zlen data)) (fun st => [0; st]).

Lemma ex_frame : lz4_compress frame_lib [[7; 8]; []; [9]] = Some [4; 34; 2; 7; 8; 0; 1; 9; 0; 3].
Proof. reflexivity. Qed.
