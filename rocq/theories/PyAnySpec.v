(** For statements about arbitrary patches: the sizes in the header of an in-place
    patch, and what is asked of a decompressor that is given arbitrary data.

    After the first byte of an in-place patch come the sizes of the memory, a segment,
    the shift, the from data and the to data. *)

From Coq Require Import ZArith List Bool.
From Verif Require Import Prelude PySize PyApply PySpec.
Import ListNotations.
Open Scope Z_scope.

Record ip_sizes := mksizes { is_memory : Z; is_segment : Z; is_shift : Z; is_from : Z; is_to : Z }.

(** [n] sizes from the start of [l]. *)
Fixpoint take_sizes (n : nat) (l : list Z) : option (list Z) :=
  match n with
  | O => Some []
  | S n' =>
      match py_unpack_size l with
      | None => None
      | Some (v, rest) => match take_sizes n' rest with Some vs => Some (v :: vs) | None => None end
      end
  end.

Definition announced_sizes (patch : list Z) : option ip_sizes :=
  match take_sizes 5 (tl patch) with
  | Some [m; s; sh; f; t] => Some (mksizes m s sh f t)
  | _ => None
  end.

(** However it is called on [file], the decompressor delivers some bytes and then
    raises or reports the end. *)
Definition finite_output (D : decompressor) (file : list Z) : Prop :=
  exists R out, contract D R /\ R (d_init D (zlen file)) file out.

(** The compression the patch announces, if it is known, is one that ends on any
    data. *)
Definition finite_compression (X : externals) (patch : list Z) : Prop :=
  match patch with
  | [] => True
  | b :: _ => forall D, decompressor_of X (snd (unpack_header b)) = Some D -> forall file, finite_output D file
  end.

(** The decoder of the heatshrink2 package returns nothing new if it is given
    nothing new. *)
Definition quiet (H : hs_reader) : Prop := forall st, hsr_fill H st [] = Some ([], st).
