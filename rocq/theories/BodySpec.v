(** What the body of a sequential patch describes, whatever its bytes are.  Sizes need
    not be written in the shortest way, records may be empty, and bytes may follow the
    last record. *)

From Coq Require Import ZArith List Bool.
From Verif Require Import Prelude Spec SeqSpec.
Import ListNotations.
Open Scope Z_scope.

(** The records in [l], until [left] bytes of to data are complete; [pos] is the
    position in the from data.  The result is the data and the bytes not used.  [None]:
    [l] breaks off, a size is negative or larger than what is left, or a position is
    outside of the from data.  [k] is a bound on the number of records. *)
Fixpoint records_mean (k : nat) (from : list Z) (pos left : Z) (l : list Z) : option (list Z * list Z) :=
  if left =? 0 then Some ([], l)
  else
    match k with
    | O => None
    | S k' =>
        match dec_size l with
        | None => None
        | Some (d, l1) =>
            if (d <? 0) || (left <? d) || (zlen l1 <? d) then None
            else
              match slice from pos d, dec_size (zdrop d l1) with
              | Some old, Some (e, l2) =>
                  if (e <? 0) || (left - d <? e) || (zlen l2 <? e) then None
                  else
                    match dec_size (zdrop e l2) with
                    | None => None
                    | Some (adjustment, l3) =>
                        if pos + d + adjustment <? 0 then None
                        else
                          match records_mean k' from (pos + d + adjustment) (left - d - e) l3 with
                          | None => None
                          | Some (to, rest) => Some (add_mod (ztake d l1) old ++ ztake e l2 ++ to, rest)
                          end
                    end
              | _, _ => None
              end
        end
    end.

(** The body of a patch that announces [n] bytes: nothing if [n] is 0, otherwise the
    size of the data format patch, which must not be positive, and the records.  Every
    record takes three bytes or more, so their number is below the number of bytes. *)
Definition described (from : list Z) (n : Z) (body : list Z) : option (list Z * list Z) :=
  if n =? 0 then Some ([], body)
  else
    match dec_size body with
    | None => None
    | Some (dfpatch_size, l) => if 0 <? dfpatch_size then None else records_mean (length l) from 0 n l
    end.
