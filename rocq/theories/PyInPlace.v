(** Model of the creation of in-place patches, detools/create.py:234-327, without a
    data format. *)

From Coq Require Import ZArith List Bool.
From Verif Require Import Prelude PySize PyCrle Bsdiff Spec PyCreate.
Import ListNotations.
Open Scope Z_scope.

(** div_ceil, common.py:101-102.  Python's // rounds down, like [Z.div]. *)
Definition py_div_ceil (a b : Z) : Z := (a + b - 1) / b.

(** Python's slice l[a:b] (a step of one, both bounds given). *)
Definition py_index (n len : Z) : Z := if n <? 0 then Z.max (n + len) 0 else Z.min n len.
Definition py_slice (l : list Z) (a b : Z) : list Z :=
  let a' := py_index a (zlen l) in
  let b' := py_index b (zlen l) in
  ztake (b' - a') (zdrop a' l).

(** calc_shift, create.py:234-248. *)
Definition calc_shift (memory segment minimum_shift from_size : Z) : Z :=
  let shift_segments := py_div_ceil memory segment - py_div_ceil from_size segment in
  let shift := shift_segments * segment in
  if shift <? minimum_shift then minimum_shift else shift.

(** The loop of create_patch_in_place, create.py:288-305: [count] segments, the
    first of which is number [i].  [sa] is the suffix array algorithm; [from] is
    from_data[:shifted_size]. *)
Fixpoint create_in_place_segments (sa : list Z -> list Z) (segment shift : Z) (from to : list Z)
         (count : nat) (i : Z) : outcome (option (list Z)) :=
  match count with
  | O => Ret (Some [])
  | S n =>
      let to_offset := i * segment in
      let from_offset := Z.max (to_offset + segment - shift) 0 in
      let from_part := py_slice from from_offset (zlen from) in
      letm r := create_sequential_data CompNone (fun _ => []) (sa from_part) from_part
                  (py_slice to to_offset (to_offset + segment)) in
      match r with
      | None => Ret None
      | Some body =>
          letm rest := create_in_place_segments sa segment shift from to n (i + 1) in
          Ret (match rest with None => None | Some more => Some (body ++ more) end)
      end
  end.

(** Writes the concatenated results of pack_size() for the given sizes. *)
Fixpoint pack_sizes (sizes : list Z) : outcome (option (list Z)) :=
  match sizes with
  | [] => Ret (Some [])
  | n :: rest =>
      letm a := py_pack_size n in
      letm b := pack_sizes rest in
      Ret (match a, b with Some x, Some y => Some (x ++ y) | _, _ => None end)
  end.

(** The default of minimum_shift_size, create.py:270-271; [None]: not given. *)
Definition minimum_of (segment : Z) (minimum_shift : option Z) : Z :=
  match minimum_shift with Some m => m | None => 2 * segment end.

(** create_patch_in_place, create.py:251-327.  The result is [None] if an exception is raised (a segment size of zero
    raises ZeroDivisionError). *)
Definition create_in_place (c : comp) (hs : list (list Z) -> list Z) (sa : list Z -> list Z)
           (memory segment : Z) (minimum_shift : option Z) (from to : list Z)
  : outcome (option (list Z)) :=
  if segment =? 0 then Ret None
  else if negb (memory mod segment =? 0) then Ret None
  else
    let minimum := minimum_of segment minimum_shift in
    if negb (minimum mod segment =? 0) then Ret None
    else
      let shift := calc_shift memory segment minimum (zlen from) in
      let from_data := py_slice from 0 (memory - shift) in
      letm segs := create_in_place_segments sa segment shift from_data to
                     (Z.to_nat (py_div_ceil (zlen to) segment)) 0 in
      match segs with
      | None => Ret None
      | Some body =>
          letm sizes := pack_sizes [memory; segment; shift; zlen from; zlen to] in
          match sizes with
          | None => Ret None
          | Some sz =>
              let header := py_pack_header 1 (comp_number c) :: sz in
              if zlen to =? 0 then Ret (Some header)
              else
                letm r := py_compress c hs [body] in
                Ret (match r with None => None | Some stream => Some (header ++ stream) end)
          end
      end.
