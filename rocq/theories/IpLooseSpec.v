(** What an in-place patch of any content means: the data its segments describe, taken
    from memory whose old data has been moved. *)

From Coq Require Import ZArith List Bool.
From Verif Require Import Prelude Spec SeqSpec PyAnySpec.
Import ListNotations.
Open Scope Z_scope.

(** A body means some data and leaves some bytes over, or it is bad, or it uses memory
    that may have been overwritten; of the latter nothing is said. *)
Inductive verdict :=
| Means (to rest : list Z)
| Bad
| Stale.

(** The records of one segment, which is written to memory up to position [lo].  [old] is
    the memory before the first segment.  Negative sizes stand for no data. *)
Fixpoint segment_records (k : nat) (old : list Z) (lo pos left : Z) (l : list Z) : verdict :=
  if left <=? 0 then Means [] l
  else
    match k with
    | O => Bad
    | S k' =>
        match dec_size l with
        | None => Bad
        | Some (dsize, l1) =>
            let d := Z.max dsize 0 in
            if left <? d then Bad
            else if (0 <? d) && (pos <? lo) then Stale
            else if zlen l1 <? d then Bad
            else
              match slice old pos d, dec_size (zdrop d l1) with
              | Some data, Some (esize, l2) =>
                  let e := Z.max esize 0 in
                  if (left - d <? e) || (zlen l2 <? e) then Bad
                  else
                    match dec_size (zdrop e l2) with
                    | None => Bad
                    | Some (adjustment, l3) =>
                        match segment_records k' old lo (pos + d + adjustment) (left - d - e) l3 with
                        | Means to rest => Means (add_mod (ztake d l1) data ++ ztake e l2 ++ to) rest
                        | v => v
                        end
                    end
              | _, _ => Bad
              end
        end
    end.

(** [count] segments, the first of them number [i]: each starts with the size of a data
    format patch, which must not be positive. *)
Fixpoint segments_mean (count : nat) (i segment shift n : Z) (old l : list Z) : verdict :=
  match count with
  | O => Means [] l
  | S count' =>
      match dec_size l with
      | None => Bad
      | Some (dfpatch_size, l1) =>
          if 0 <? dfpatch_size then Bad
          else
            let size := Z.min segment (n - i * segment) in
            match segment_records (length l1) old (i * segment + size) (Z.max (segment * (i + 1)) shift) size l1 with
            | Means to l2 =>
                match segments_mean count' (i + 1) segment shift n old l2 with
                | Means to2 rest => Means (to ++ to2) rest
                | v => v
                end
            | v => v
            end
      end
  end.

(** The memory once the from data has been moved. *)
Definition moved (z : ip_sizes) (mem : list Z) : list Z :=
  let data := ztake (Z.min (is_from z) (is_memory z - is_shift z)) mem in
  ztake (is_shift z) mem ++ data ++ zdrop (is_shift z + zlen data) mem.

(** The body of a patch with sizes [z] applied to [mem]. *)
Definition body_means (z : ip_sizes) (mem body : list Z) : verdict :=
  segments_mean (Z.to_nat ((is_to z + is_segment z - 1) / is_segment z)) 0 (is_segment z) (is_shift z) (is_to z) (moved z mem) body.

(** The five sizes of the header, and what follows them. *)
Definition in_place_header (patch : list Z) : option (ip_sizes * list Z) :=
  match dec_size (tl patch) with
  | None => None
  | Some (memory, l1) =>
      match dec_size l1 with
      | None => None
      | Some (segment, l2) =>
          match dec_size l2 with
          | None => None
          | Some (shift, l3) =>
              match dec_size l3 with
              | None => None
              | Some (from, l4) =>
                  match dec_size l4 with
                  | None => None
                  | Some (to, l5) => Some (mksizes memory segment shift from to, l5)
                  end
              end
          end
      end
  end.

(** Sizes that fit together and into a memory of [n] bytes. *)
Definition fitting (z : ip_sizes) (n : Z) : Prop :=
  0 < is_segment z /\ 0 <= is_shift z <= is_memory z /\ 0 <= is_from z <= is_memory z /\ 0 < is_to z <= is_memory z /\ is_memory z <= n.
