(** Model of the patch creation in detools/bsdiff.c.

    Arrays are lists.  A read outside an array and an [int32_t] computation whose
    exact result does not fit are [Undef].  Pointers such as [to_p + scan] are the
    array and an offset. *)

From Coq Require Import ZArith List Bool.
From Verif Require Import Prelude PySize.
Import ListNotations.
Open Scope Z_scope.

(** The result of an [int32_t] computation. *)
Definition ci (v : Z) : outcome Z := if in_int v then Ret v else Undef.

(** Read of an array element. *)
Definition rd (l : list Z) (i : Z) : outcome Z :=
  match znth l i with Some b => Ret b | None => Undef end.

(** matchlen, bsdiff.c:35-49; [k] counts the remaining iterations. *)
Fixpoint matchlen_loop (k : nat) (from : list Z) (fo : Z) (to : list Z) (t : Z) (i : Z) : outcome Z :=
  match k with
  | O => Ret i
  | S k' =>
      letm x := rd from (fo + i) in
      letm y := rd to (t + i) in
      if x =? y then matchlen_loop k' from fo to t (i + 1) else Ret i
  end.

Definition matchlen (from : list Z) (fo from_size : Z) (to : list Z) (t to_size : Z) : outcome Z :=
  matchlen_loop (Z.to_nat (Z.min from_size to_size)) from fo to t 0.

(** [memcmp(from_p + fo, to_p + t, n) < 0]. *)
Fixpoint memcmp_less (n : nat) (from : list Z) (fo : Z) (to : list Z) (t : Z) : outcome bool :=
  match n with
  | O => Ret false
  | S n' =>
      letm x := rd from fo in
      letm y := rd to t in
      if x =? y then memcmp_less n' from (fo + 1) to (t + 1) else Ret (x <? y)
  end.

(** search, bsdiff.c:51-91: the length and the position found.  The recursion
    halves [end - begin]. *)
Fixpoint search (fuel : nat) (sa from : list Z) (from_size : Z) (to : list Z) (t to_size begin end_ : Z)
  : outcome (Z * Z) :=
  letm d := ci (end_ - begin) in
  if d <? 2 then
    letm pb := rd sa begin in
    letm nb := ci (from_size - pb) in
    letm x := matchlen from pb nb to t to_size in
    letm pe := rd sa end_ in
    letm ne := ci (from_size - pe) in
    letm y := matchlen from pe ne to t to_size in
    if y <? x then Ret (x, pb) else Ret (y, pe)
  else
    letm x := ci (begin + d / 2) in
    letm p := rd sa x in
    letm n := ci (from_size - p) in
    letm less := memcmp_less (Z.to_nat (Z.min n to_size)) from p to t in
    match fuel with
    | O => OutOfFuel
    | S f =>
        if less then search f sa from from_size to t to_size x end_
        else search f sa from from_size to t to_size begin x
    end.

(** ** write_diff_extra_and_adjustment, bsdiff.c:175-303 *)

(** The loop at 208-219, returning diff_size. *)
Fixpoint forward_loop (k : nat) (from to : list Z) (scan last_scan last_pos s sf diff_size i : Z) : outcome Z :=
  letm a := ci (last_scan + i) in
  if a <? scan then
    letm b := ci (last_pos + i) in
    if b <? zlen from then
      match k with
      | O => OutOfFuel
      | S k' =>
          letm x := rd from b in
          letm y := rd to a in
          letm s1 := (if x =? y then ci (s + 1) else Ret s) in
          letm i1 := ci (i + 1) in
          letm l := ci (s1 * 2) in
          letm l1 := ci (l - i1) in
          letm r := ci (sf * 2) in
          letm r1 := ci (r - diff_size) in
          if r1 <? l1 then forward_loop k' from to scan last_scan last_pos s1 s1 i1 i1
          else forward_loop k' from to scan last_scan last_pos s1 sf diff_size i1
      end
    else Ret diff_size
  else Ret diff_size.

(** The loop at 227-236, returning lenb. *)
Fixpoint backward_loop (k : nat) (from to : list Z) (scan pos last_scan s sb lenb i : Z) : outcome Z :=
  letm a := ci (last_scan + i) in
  if (a <=? scan) && (i <=? pos) then
    match k with
    | O => OutOfFuel
    | S k' =>
        letm x := rd from (pos - i) in
        letm y := rd to (scan - i) in
        letm s1 := (if x =? y then ci (s + 1) else Ret s) in
        letm l := ci (s1 * 2) in
        letm l1 := ci (l - i) in
        letm r := ci (sb * 2) in
        letm r1 := ci (r - lenb) in
        letm i1 := ci (i + 1) in
        if r1 <? l1 then backward_loop k' from to scan pos last_scan s1 s1 i i1
        else backward_loop k' from to scan pos last_scan s1 sb lenb i1
    end
  else Ret lenb.

(** The loop at 246-260, returning lens.  [k] counts the remaining iterations;
    [p1], [q1], [p2] and [q2] are the four index expressions without [+ i]. *)
Fixpoint overlap_loop (k : nat) (from to : list Z) (p1 q1 p2 q2 s ss lens i : Z) : outcome Z :=
  match k with
  | O => Ret lens
  | S k' =>
      letm x := rd to (p1 + i) in
      letm y := rd from (q1 + i) in
      letm s1 := (if x =? y then ci (s + 1) else Ret s) in
      letm x2 := rd to (p2 + i) in
      letm y2 := rd from (q2 + i) in
      letm s2 := (if x2 =? y2 then ci (s1 - 1) else Ret s1) in
      if ss <? s2 then overlap_loop k' from to p1 q1 p2 q2 s2 s2 (i + 1) (i + 1)
      else overlap_loop k' from to p1 q1 p2 q2 s2 ss lens (i + 1)
  end.

(** The loop at 267-269: [to - from] modulo 256. *)
Fixpoint diff_loop (k : nat) (from to : list Z) (last_scan last_pos i : Z) : outcome (list Z) :=
  match k with
  | O => Ret []
  | S k' =>
      letm a := ci (last_scan + i) in
      letm b := ci (last_pos + i) in
      letm y := rd to a in
      letm x := rd from b in
      letm l := diff_loop k' from to last_scan last_pos (i + 1) in
      Ret ((y - x) mod 256 :: l)
  end.

(** The loop at 281-283. *)
Fixpoint extra_loop (k : nat) (to : list Z) (extra_pos i : Z) : outcome (list Z) :=
  match k with
  | O => Ret []
  | S k' =>
      letm a := ci (extra_pos + i) in
      letm y := rd to a in
      letm l := extra_loop k' to extra_pos (i + 1) in
      Ret (y :: l)
  end.

(** append_buffer, bsdiff.c:148-173: a size and the first [size] bytes of the
    buffer, which has room for [room] bytes.  [None]: exception (a negative size).
    Memory allocation is assumed to succeed. *)
Definition append_buffer (room : Z) (data : list Z) (size : Z) : outcome (option (list (list Z))) :=
  if room <? zlen data then Undef
  else
    letm sz := c_pack_size size in
    if size <? 0 then Ret None else Ret (Some [sz; data]).

Record wstate := mkws { last_scan : Z; last_pos : Z; last_offset : Z }.

(** 241-264: diff_size and lenb, with the overlap given to one of the two.  [e1] is
    [last_scan + diff_size]. *)
Definition trim_overlap (from to : list Z) (scan pos last_pos diff_size lenb e1 overlap : Z) : outcome (Z * Z) :=
  if 0 <? overlap then
    letm q1 := ci (last_pos + diff_size) in
    letm lens := overlap_loop (Z.to_nat overlap) from to (e1 - overlap) (q1 - overlap)
                              (scan - lenb) (pos - lenb) 0 0 0 0 in
    letm d1 := ci (diff_size + (lens - overlap)) in
    letm b1 := ci (lenb - lens) in
    Ret (d1, b1)
  else Ret (diff_size, lenb).

Definition write_record (room : Z) (from to : list Z) (scan pos : Z) (w : wstate)
  : outcome (option (list (list Z) * wstate)) :=
  let to_size := zlen to in
  letm d0 := forward_loop (S (length to)) from to scan (last_scan w) (last_pos w) 0 0 0 0 in
  letm b0 := (if scan <? to_size
              then backward_loop (S (length to)) from to scan pos (last_scan w) 0 0 0 1
              else Ret 0) in
  letm e1 := ci (last_scan w + d0) in
  letm e2 := ci (scan - b0) in
  letm overlap := ci (e1 - e2) in
  letm (diff_size, lenb) := trim_overlap from to scan pos (last_pos w) d0 b0 e1 overlap in
  letm diff := diff_loop (Z.to_nat diff_size) from to (last_scan w) (last_pos w) 0 in
  letm r1 := append_buffer room diff diff_size in
  match r1 with
  | None => Ret None
  | Some c1 =>
      letm extra_pos := ci (last_scan w + diff_size) in
      letm e3 := ci (scan - lenb) in
      letm extra_size := ci (e3 - extra_pos) in
      letm extra := extra_loop (Z.to_nat extra_size) to extra_pos 0 in
      letm r2 := append_buffer room extra extra_size in
      match r2 with
      | None => Ret None
      | Some c2 =>
          letm p1 := ci (pos - lenb) in
          letm p2 := ci (last_pos w + diff_size) in
          letm adj := ci (p1 - p2) in
          letm c3 := c_pack_size adj in
          letm off := ci (pos - scan) in
          Ret (Some (c1 ++ c2 ++ [c3], mkws e3 p1 off))
      end
  end.

(** ** create_patch_loop, bsdiff.c:305-381 *)

(** [(scsc + last_offset < from_size) && (from_p[scsc + last_offset] == to_p[scsc])],
    345-346 and 355-356. *)
Definition old_match (from to : list Z) (offset at_ : Z) : outcome bool :=
  letm a := ci (at_ + offset) in
  if a <? zlen from then
    letm x := rd from a in
    letm y := rd to at_ in
    Ret (x =? y)
  else Ret false.

(** The loop at 344-349, returning scsc and from_score. *)
Fixpoint score_loop (k : nat) (from to : list Z) (offset limit scsc score : Z) : outcome (Z * Z) :=
  if scsc <? limit then
    match k with
    | O => OutOfFuel
    | S k' =>
        letm m := old_match from to offset scsc in
        letm score1 := (if m : bool then ci (score + 1) else Ret score) in
        letm scsc1 := ci (scsc + 1) in
        score_loop k' from to offset limit scsc1 score1
    end
  else Ret (scsc, score).

(** The loop at 334-359: scan, len, pos and from_score at its end. *)
Fixpoint scan_loop (k : nat) (sa from to : list Z) (offset scan len pos scsc score : Z)
  : outcome (Z * Z * Z * Z) :=
  let to_size := zlen to in
  if scan <? to_size then
    letm n := ci (to_int to_size - scan) in
    letm (len1, pos1) := search (length sa) sa from (to_int (zlen from)) to scan n 0 (to_int (zlen from)) in
    letm limit := ci (scan + len1) in
    letm (scsc1, score1) := score_loop (S (length to)) from to offset limit scsc score in
    if (len1 =? score1) && negb (len1 =? 0) then Ret (scan, len1, pos1, score1)
    else
      letm s8 := ci (score1 + 8) in
      if s8 <? len1 then Ret (scan, len1, pos1, score1)
      else
        letm m := old_match from to offset scan in
        letm score2 := (if m : bool then ci (score1 - 1) else Ret score1) in
        letm scan1 := ci (scan + 1) in
        match k with
        | O => OutOfFuel
        | S k' => scan_loop k' sa from to offset scan1 len1 pos1 scsc1 score2
        end
  else Ret (scan, len, pos, score).

(** The loop at 330-378; [acc] is the list of byte strings.  [None]: exception. *)
Fixpoint create_loop (fuel : nat) (room : Z) (sa from to : list Z) (scan len pos : Z) (w : wstate) (acc : list (list Z))
  : outcome (option (list (list Z))) :=
  if scan <? zlen to then
    match fuel with
    | O => OutOfFuel
    | S f =>
        letm scan1 := ci (scan + len) in
        letm (scan2, len2, pos2, score) := scan_loop (length to) sa from to (last_offset w) scan1 len pos scan1 0 in
        if negb (len2 =? score) || (scan2 =? zlen to) then
          letm r := write_record room from to scan2 pos2 w in
          match r with
          | None => Ret None
          | Some (chunks, w1) => create_loop f room sa from to scan2 len2 pos2 w1 (acc ++ chunks)
          end
        else create_loop f room sa from to scan2 len2 pos2 w acc
    end
  else Ret (Some acc).

(** m_create_patch, bsdiff.c:476-530, with the work buffer of [len(to) + 1] bytes
    its callers pass (create.py:114 and 145). *)
Definition create_patch (sa from to : list Z) : outcome (option (list (list Z))) :=
  create_loop (2 * length to + 1) (zlen to + 1) sa from to 0 0 0 (mkws 0 0 0) [].

(** m_add_bytes, bsdiff.c:566-622; [None]: ValueError. *)
Fixpoint add_bytes_loop (a b : list Z) : list Z :=
  match a, b with
  | x :: a', y :: b' => (x + y) mod 256 :: add_bytes_loop a' b'
  | _, _ => []
  end.

Definition add_bytes (a b : list Z) : option (list Z) :=
  if zlen a =? zlen b then Some (add_bytes_loop a b) else None.
