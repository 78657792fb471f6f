(** Model of the ranges given on the command line: parse_integer and parse_range,
    detools/__init__.py:46-84.  Strings are lists of the codes of their characters.
    Simplification: white space and digits are those of ASCII. *)

From Coq Require Import ZArith List Bool.
From Verif Require Import Prelude PyApply.
Import ListNotations.
Open Scope Z_scope.

Definition is_space (c : Z) : bool := (c =? 32) || ((9 <=? c) && (c <=? 13)).
Fixpoint skip_spaces (s : list Z) : list Z :=
  match s with
  | c :: s' => if is_space c then skip_spaces s' else s
  | [] => []
  end.

(** The value of a digit; 37 if the character is none. *)
Definition digit (c : Z) : Z :=
  if (48 <=? c) && (c <=? 57) then c - 48
  else if (97 <=? c) && (c <=? 122) then c - 87
  else if (65 <=? c) && (c <=? 90) then c - 55
  else 37.

(** '_' *)
Definition underscore : Z := 95.

(** Digits with single underscores between them: [acc] is the value so far, [sep] says that
    the character before was an underscore.  [None]: ValueError. *)
Fixpoint digits (base acc : Z) (sep : bool) (s : list Z) : option (Z * list Z) :=
  match s with
  | c :: s' =>
      if c =? underscore then if sep then None else digits base acc true s'
      else if digit c <? base then digits base (acc * base + digit c) false s'
      else if sep then None else Some (acc, s)
  | [] => if sep then None else Some (acc, [])
  end.

(** The prefix of the base: the base, whether only zeros may follow, whether there was a
    prefix, and the rest. *)
Definition base_prefix (s : list Z) : Z * bool * bool * list Z :=
  match s with
  | 48 :: c :: s' =>
      if (c =? 120) || (c =? 88) then (16, false, true, s')
      else if (c =? 111) || (c =? 79) then (8, false, true, s')
      else if (c =? 98) || (c =? 66) then (2, false, true, s')
      else (10, true, false, s)
  | 48 :: [] => (10, true, false, s)
  | _ => (10, false, false, s)
  end.

(** int(value, 0) of Python: [None] if it raises ValueError. *)
Definition py_int (value : list Z) : option Z :=
  let s := skip_spaces value in
  let (negative, s) := match s with
                       | c :: s' => if c =? 43 then (false, s') else if c =? 45 then (true, s') else (false, s)
                       | [] => (false, s)
                       end in
  let '(base, zeros, prefix, s) := base_prefix s in
  let s := match s with c :: s' => if prefix && (c =? underscore) then s' else s | [] => s end in
  match s with
  | [] => None
  | c :: _ =>
      if digit c <? base then
        match digits base 0 false s with
        | None => None
        | Some (n, rest) =>
            if zeros && negb (n =? 0) then None
            else match skip_spaces rest with
                 | [] => Some (if negative then - n else n)
                 | _ => None
                 end
        end
      else None
  end.

(** parse_integer, __init__.py:46-51. *)
Definition parse_integer (value : list Z) : pyo Z :=
  match py_int value with Some n => ret n | None => raise DetoolsError end.

(** value.split('-'): the first part and the others. *)
Fixpoint split_at (sep : Z) (s : list Z) : list Z * list (list Z) :=
  match s with
  | [] => ([], [])
  | c :: s' => let (p, ps) := split_at sep s' in if c =? sep then ([], p :: ps) else (c :: p, ps)
  end.

(** parse_range, __init__.py:61-84; [None] if the option is not given. *)
Definition parse_range (value : option (list Z)) : pyo (Z * Z) :=
  match value with
  | None => ret (0, 0)
  | Some s =>
      match split_at 45 s with
      | (s1, [s2]) =>
          dop b := parse_integer s1 in
          dop e := parse_integer s2 in
          if e <? b then raise DetoolsError else ret (b, e)
      | _ => raise DetoolsError
      end
  end.
