(** Concrete cases for the theorems about BSDIFF40 patches. *)

From Coq Require Import ZArith List Bool Lia ZifyBool ZifyNat ZifyN.
From Verif Require Import Prelude Lib Spec Bsdiff BsdiffSpec PyApply PySpec PyBsdiff40 PyBsdiff40Spec CreateExamples.
Import ListNotations.
Open Scope Z_scope.

(** A compressor that does not compress: the first byte is a header. *)
Definition stored : bz2 :=
  mkbz (fun pieces => 90 :: concat pieces) (option (list Z)) None
       (fun s data n =>
          match s with
          | None => match data with b :: l => if b =? 90 then Some (ztake n l, Some (zdrop n l)) else None | [] => Some ([], None) end
          | Some [] => None
          | Some l => Some (ztake n l, Some (zdrop n l))
          end)
       (fun s => match s with Some [] => true | _ => false end).

Definition stored_rel (s : bz_state stored) (out : list Z) : Prop := s = Some out.

Lemma stored_ok : bz_ok stored stored_rel.
Proof.
  split; [|split].
  - intros s out n -> Ho Hn. destruct out as [|b out]; [congruence|]. eexists. split; [reflexivity|]. reflexivity.
  - intros s n ->. reflexivity.
  - intros s out ->. destruct out; cbn; split; intros; congruence.
Qed.

Lemma stored_stream : forall pieces, bz_stream stored stored_rel (concat pieces) (bz_compress stored pieces).
Proof.
  intros pieces. exists (Some (concat pieces)). split; [|reflexivity]. cbn [stored bz_decompress bz_open bz_compress]. change (90 =? 90) with true. cbn iota. rewrite ztake_0, zdrop_0. reflexivity.
Qed.

Lemma stored_lossless : bz_lossless stored.
Proof. exists stored_rel. split; [apply stored_ok|]. intros. apply stored_stream. Qed.

Lemma stored_short : forall pieces, zlen (bz_compress stored pieces) <= 2 * zlen (concat pieces) + 1000.
Proof. intros. cbn [stored bz_compress]. rewrite zlen_cons. pose proof (zlen_nonneg (concat pieces)). lia. Qed.

Lemma ex_bsdiff_run : exists patch, create_patch_bsdiff stored ex_sa ex_from ex_to = ret patch /\ zlen patch = 135 /\
  apply_patch_bsdiff stored 10 false ex_from patch = ret (28, ex_to).
Proof. eexists. split; [vm_compute; reflexivity|]. split; vm_compute; reflexivity. Qed.

(** The control data announces five extra bytes, there are three. *)
Lemma ex_bsdiff_short : apply_patch_bsdiff stored 10 false [] (bsdiff40 5 (90 :: off 0 ++ off 5 ++ off 0) [90] [90; 1; 2; 3]) = ret (5, [1; 2; 3]).
Proof. vm_compute. reflexivity. Qed.

Lemma ex_streams : bz_stream stored stored_rel (off 0 ++ off 5 ++ off 0) (90 :: off 0 ++ off 5 ++ off 0) /\
  bz_stream stored stored_rel [] [90] /\ bz_stream stored stored_rel [1; 2; 3] [90; 1; 2; 3].
Proof.
  split; [|split].
  - pose proof (stored_stream [off 0 ++ off 5 ++ off 0]) as H. cbn [concat] in H. rewrite app_nil_r in H. cbn [stored bz_compress concat] in H. rewrite app_nil_r in H. exact H.
  - exact (stored_stream []).
  - exact (stored_stream [[1; 2; 3]]).
Qed.

Definition ex_records : list prec := [mkrec [1; 255] [7] (-1); mkrec [] [] 1; mkrec [0; 0] [] (-2)].

Lemma ex_records_ok : last_nonempty ex_records /\ recs_fit ex_records /\ apply_recs [10; 20; 30; 40] 0 ex_records = Some [11; 19; 7; 30; 40].
Proof.
  split; [exists [mkrec [1; 255] [7] (-1); mkrec [] [] 1], (mkrec [0; 0] [] (-2)); split; [reflexivity|vm_compute; reflexivity]|].
  split; [|vm_compute; reflexivity]. split; [vm_compute; reflexivity|]. repeat constructor.
Qed.
