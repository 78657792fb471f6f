(** What the Python applier takes the body of a sequential patch to mean, whatever its
    bytes are.  It differs from BodySpec.v in two points: a negative size stands for no
    data, and a position before the beginning of the from file is position 0 if the file
    object has that habit ([clamps], io.BytesIO). *)

From Coq Require Import ZArith List Bool.
From Verif Require Import Prelude Spec SeqSpec.
Import ListNotations.
Open Scope Z_scope.

(** The records in [l], until [left] bytes of to data are complete: the data and the
    bytes not used.  [None]: [l] breaks off, a size is larger than what is left, or data
    outside of the from file is used. *)
Fixpoint loose_records (k : nat) (clamps : bool) (from : list Z) (pos left : Z) (l : list Z) : option (list Z * list Z) :=
  if left <=? 0 then Some ([], l)
  else
    match k with
    | O => None
    | S k' =>
        match dec_size l with
        | None => None
        | Some (dsize, l1) =>
            let d := Z.max dsize 0 in
            if (left <? d) || (zlen l1 <? d) then None
            else
              match slice from pos d, dec_size (zdrop d l1) with
              | Some old, Some (esize, l2) =>
                  let e := Z.max esize 0 in
                  if (left - d <? e) || (zlen l2 <? e) then None
                  else
                    match dec_size (zdrop e l2) with
                    | None => None
                    | Some (adjustment, l3) =>
                        let next := pos + d + adjustment in
                        if (next <? 0) && negb clamps then None
                        else
                          match loose_records k' clamps from (Z.max next 0) (left - d - e) l3 with
                          | None => None
                          | Some (to, rest) => Some (add_mod (ztake d l1) old ++ ztake e l2 ++ to, rest)
                          end
                    end
              | _, _ => None
              end
        end
    end.

(** The body of a patch that announces [n] bytes; it is not looked at if [n] is 0. *)
Definition loose (clamps : bool) (from : list Z) (n : Z) (body : list Z) : option (list Z * list Z) :=
  if n =? 0 then Some ([], [])
  else
    match dec_size body with
    | None => None
    | Some (_, l) => loose_records (length l) clamps from 0 n l
    end.

(** An uncompressed patch: the size announced and the data.  Nothing may follow the last
    record. *)
Definition loose_patch (clamps : bool) (from patch : list Z) : option (Z * list Z) :=
  match dec_size (tl patch) with
  | None => None
  | Some (n, body) =>
      match loose clamps from n body with
      | Some (to, []) => Some (n, to)
      | _ => None
      end
  end.
