(** The suffix array algorithm (C72). *)

From Coq Require Import ZArith List Bool.
From Verif Require Import Prelude Spec Bsdiff BsdiffSpec PyCreate PyInPlace PyApply PyOther PyBsdiff40 CreateExamples InPlaceExamples SuffixUnique SuffixThms.
Import ListNotations.
Open Scope Z_scope.

(** C72: a file has one suffix array only; *)
Theorem C72_unique : forall from sa1 sa2, is_suffix_array sa1 from -> is_suffix_array sa2 from -> sa1 = sa2.
Proof. exact suffix_array_unique. Qed.
Print Assumptions C72_unique.

(** so whichever algorithm computes it, the patch is the same: sequential patches with
    the compressions of detools and of other packages, *)
Theorem C72_sequential : forall sa1 sa2 from, is_suffix_array sa1 from -> is_suffix_array sa2 from -> forall c hs to,
  create_sequential c hs sa1 from to = create_sequential c hs sa2 from to.
Proof. exact same_sequential. Qed.
Print Assumptions C72_sequential.

Theorem C72_sequential_other : forall sa1 sa2 from, is_suffix_array sa1 from -> is_suffix_array sa2 from -> forall number compress to,
  create_sequential_with number compress sa1 from to = create_sequential_with number compress sa2 from to.
Proof. exact same_sequential_with. Qed.
Print Assumptions C72_sequential_other.

(** in-place patches, *)
Theorem C72_in_place : forall sa1 sa2, (forall l, is_suffix_array (sa1 l) l) -> (forall l, is_suffix_array (sa2 l) l) ->
  forall c hs memory segment minimum from to,
  create_in_place c hs sa1 memory segment minimum from to = create_in_place c hs sa2 memory segment minimum from to.
Proof. exact same_in_place. Qed.
Print Assumptions C72_in_place.

Theorem C72_in_place_other : forall sa1 sa2, (forall l, is_suffix_array (sa1 l) l) -> (forall l, is_suffix_array (sa2 l) l) ->
  forall number compress memory segment minimum from to,
  create_in_place_with number compress sa1 memory segment minimum from to = create_in_place_with number compress sa2 memory segment minimum from to.
Proof. exact same_in_place_with. Qed.
Print Assumptions C72_in_place_other.

(** and patches of the type bsdiff. *)
Theorem C72_bsdiff : forall sa1 sa2 from, is_suffix_array sa1 from -> is_suffix_array sa2 from -> forall bz to,
  create_patch_bsdiff bz sa1 from to = create_patch_bsdiff bz sa2 from to.
Proof. exact same_bsdiff. Qed.
Print Assumptions C72_bsdiff.

(** Insertion sort computes it for every file. *)
Example C72_example : (forall l, is_suffix_array (sort_suffixes l) l) /\ sort_suffixes [98; 97; 110; 97; 110; 97] = [6; 5; 3; 1; 0; 4; 2].
Proof. split; [exact sort_suffixes_suffix_array|vm_compute; reflexivity]. Qed.
