(** What a BSDIFF40 patch means to the Python applier, whatever its three streams hold. *)

From Coq Require Import ZArith List Bool.
From Verif Require Import Prelude Spec.
Import ListNotations.
Open Scope Z_scope.

(** 8 bytes, least significant first; the most significant bit is the sign. *)
Fixpoint le_value (l : list Z) : Z := match l with [] => 0 | b :: l' => b + 256 * le_value l' end.
Definition field (l : list Z) : option (Z * list Z) :=
  if zlen l <? 8 then None
  else let v := le_value (ztake 8 l) in Some (if v <? 2 ^ 63 then v else 2 ^ 63 - v, zdrop 8 l).

(** The records described by the control stream [c], with their data in [d] and [e], until
    [left] bytes are complete: the data, and what is left of the streams.  Negative sizes
    stand for no data.  There must be some data if any is asked for; there may be less
    than asked for, but as much diff data as there is from data. *)
Fixpoint bsdiff_records (k : nat) (clamps : bool) (from : list Z) (pos left : Z) (c d e : list Z)
  : option (list Z * (list Z * list Z * list Z)) :=
  if left <=? 0 then Some ([], (c, d, e))
  else
    match k with
    | O => None
    | S k' =>
        match field c with
        | None => None
        | Some (dsize, c1) =>
            match field c1 with
            | None => None
            | Some (esize, c2) =>
                match field c2 with
                | None => None
                | Some (adjustment, c3) =>
                    let n := Z.max dsize 0 in
                    let m := Z.max esize 0 in
                    let old := ztake n (zdrop pos from) in
                    let next := pos + zlen old + adjustment in
                    if (left <? n) || ((0 <? n) && (zlen d =? 0)) || negb (zlen (ztake n d) =? zlen old) then None
                    else if (left - n <? m) || ((0 <? m) && (zlen e =? 0)) then None
                    else if (next <? 0) && negb clamps then None
                    else
                      match bsdiff_records k' clamps from (Z.max next 0) (left - n - m) c3 (zdrop n d) (zdrop m e) with
                      | None => None
                      | Some (to, rest) => Some (add_mod (ztake n d) old ++ ztake m e ++ to, rest)
                      end
                end
            end
        end
    end.
