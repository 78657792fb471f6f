(** What the theorems about the data formats are stated with. *)

From Coq Require Import ZArith List Bool.
From Verif Require Import Prelude PyFormat.
Import ListNotations.
Open Scope Z_scope.

(** A matching block (i, j, n) of difflib: n elements from i in the first list equal n
    elements from j in the second. *)
Definition matching (a b : list Z) (m : Z * Z * Z) : Prop :=
  match m with
  | (i, j, n) =>
      0 <= i /\ 0 <= j /\ 0 <= n /\ i + n <= zlen a /\ j + n <= zlen b /\
      ztake n (zdrop i a) = ztake n (zdrop j b)
  end.

(** Any function that finds matching blocks, in any order, overlapping
    or not. *)
Definition matcher_ok (M : matcher) : Prop :=
  forall a b, Forall (matching a b) (M a b) /\ zlen (M a b) < 2 ^ 63.

(** The addresses that can be packed (see C14). *)
Definition address (v : Z) : Prop := 0 <= v < 2 ^ 64 /\ v <> 2 ^ 63.

(** The description of the from file: the addresses can be packed, and the area of the
    data in the file is as long as the data; no data is described by no area. *)
Definition segment_ok (sg : segment) : Prop :=
  let r := sg_from sg in
  (r_data_end r = 0 -> r_offset_end r <= r_offset_begin r) /\
  (r_data_end r <> 0 ->
     address (r_offset_begin r) /\ address (r_data_begin r) /\ address (r_data_end r) /\
     r_offset_end r = r_offset_begin r + r_data_end r - r_data_begin r) /\
  (r_code_end r <> 0 -> address (r_code_begin r) /\ address (r_code_end r)).

(** Any address in one range minus any address in the other fits in 64 bits. *)
Definition near (b1 e1 b2 e2 : Z) : Prop := b1 < e1 -> b2 < e2 -> e1 - b2 <= 2 ^ 63 /\ e2 - b1 <= 2 ^ 63.

(** The pointers of the to file: for the 32 bit formats below 2^31 (see C37), for
    AArch64 not too far from those of the from file. *)
Definition pointers_fit (number : Z) (sg : segment) : Prop :=
  if number =? 1
  then near (r_data_begin (sg_from sg)) (r_data_end (sg_from sg)) (r_data_begin (sg_to sg)) (r_data_end (sg_to sg)) /\
       near (r_code_begin (sg_from sg)) (r_code_end (sg_from sg)) (r_code_begin (sg_to sg)) (r_code_end (sg_to sg))
  else r_data_end (sg_to sg) <= 2 ^ 31 /\ r_code_end (sg_to sg) <= 2 ^ 31.
