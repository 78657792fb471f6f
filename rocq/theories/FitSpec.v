(** Which patches lie within the limits of the C implementation: every size is written
    in at most four bytes, and no position exceeds the largest int. *)

From Coq Require Import ZArith List Bool.
From Verif Require Import Prelude Spec SeqSpec BodySpec.
Import ListNotations.
Open Scope Z_scope.

(** The field at the beginning of [l], followed by [rest], takes at most four bytes. *)
Definition short (l rest : list Z) : bool := zlen l - zlen rest <=? 4.

(** The same records as in [records_mean]. *)
Fixpoint records_fit (k : nat) (pos left : Z) (l : list Z) : bool :=
  if left =? 0 then true
  else
    match k with
    | O => false
    | S k' =>
        match dec_size l with
        | None => false
        | Some (d, l1) =>
            short l l1 &&
            match dec_size (zdrop d l1) with
            | None => false
            | Some (e, l2) =>
                short (zdrop d l1) l2 &&
                match dec_size (zdrop e l2) with
                | None => false
                | Some (adjustment, l3) =>
                    short (zdrop e l2) l3 && (pos + d + adjustment <=? INT_MAX) &&
                    records_fit k' (pos + d + adjustment) (left - d - e) l3
                end
            end
        end
    end.

(** A patch that announces [n] bytes and whose decompressed body is [body]. *)
Definition fits (n : Z) (patch body : list Z) : bool :=
  short (tl patch) (body_of patch) &&
  if n =? 0 then true
  else
    match dec_size body with
    | None => false
    | Some (_, l) => short body l && records_fit (length l) 0 n l
    end.
