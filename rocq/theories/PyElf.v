(** Model of the use of ELF files: detools/data_format/elf.py, and the functions of
    detools/__init__.py that find the data of an ELF file in a binary. *)

From Coq Require Import ZArith List Bool.
From Verif Require Import Prelude PyApply.
Import ListNotations.
Open Scope Z_scope.

(** What is used of the package elftools.  A symbol: st_info.type, st_value, st_size.  A
    section: sh_addr, sh_offset, sh_size, data(), and the symbols, [None] if it is not a
    SymbolTableSection, with sh_entsize.  An ELF file is the list of its sections. *)
Inductive sym_type := Func | Object | OtherType.
Record symbol := mksym { sy_type : sym_type; sy_value : Z; sy_size : Z }.
Record section := mksec {
  sec_addr : Z;
  sec_offset : Z;
  sec_size : Z;
  sec_data : list Z;
  sec_symbols : option (list symbol);
  sec_entsize : Z
}.

(** class AddressRange, elf.py:9-25. *)
Record arange := mkrange { ar_begin : Z; ar_end : Z; ar_section : option nat }.
Definition ar_size (r : arange) : Z := ar_end r - ar_begin r.
Definition no_range : arange := mkrange 0 0 None.

(** begin <= address < begin + size, elf.py:102 and __init__.py:125. *)
Definition sec_has (s : section) (address : Z) : bool := (sec_addr s <=? address) && (address <? sec_addr s + sec_size s).

(** find_section_index_for_symbol, elf.py:95-105: [None] if it raises. *)
Fixpoint find_section (i : nat) (sections : list section) (address : Z) : option nat :=
  match sections with
  | [] => None
  | s :: rest => if sec_has s address then Some i else find_section (S i) rest address
  end.

(** symbols_per_section[section_index].append(symbol), elf.py:52: a dict keeps the order
    in which its keys were added. *)
Fixpoint dict_append (key : nat) (x : symbol) (d : list (nat * list symbol)) : list (nat * list symbol) :=
  match d with
  | [] => [(key, [x])]
  | (k, l) :: rest => if Nat.eqb k key then (k, l ++ [x]) :: rest else (k, l) :: dict_append key x rest
  end.

(** The two loops, elf.py:37-52. *)
Definition wanted (y : symbol) : bool :=
  match sy_type y with OtherType => false | _ => negb (sy_size y =? 0) end.
Fixpoint collect (elf : list section) (symbols : list symbol) (d : list (nat * list symbol)) : pyo (list (nat * list symbol)) :=
  match symbols with
  | [] => ret d
  | y :: rest =>
      if wanted y then
        match find_section 0 elf (sy_value y) with
        | None => raise DetoolsError
        | Some i => collect elf rest (dict_append i y d)
        end
      else collect elf rest d
  end.
Definition symbols_of (s : section) : list symbol :=
  match sec_symbols s with
  | None => []
  | Some l => if sec_entsize s =? 0 then [] else l
  end.
Definition all_symbols (elf : list section) : list symbol := flat_map symbols_of elf.

(** list.sort(), which is stable. *)
Fixpoint insert_by {A : Type} (le : A -> A -> bool) (x : A) (l : list A) : list A :=
  match l with
  | [] => [x]
  | y :: l' => if le x y then x :: l else y :: insert_by le x l'
  end.
Fixpoint sort_by {A : Type} (le : A -> A -> bool) (l : list A) : list A :=
  match l with
  | [] => []
  | x :: l' => insert_by le x (sort_by le l')
  end.

Definition is_func (t : sym_type) : bool := match t with Func => true | _ => false end.

(** The loop over the symbols of a section and what follows it, elf.py:67-90: the ranges
    in the order in which they are appended, with their type, which is a function or an
    object here. *)
Fixpoint blocks (i : nat) (btype : sym_type) (bbegin bend : Z) (symbols : list symbol) : list (sym_type * arange) :=
  match symbols with
  | [] => [(btype, mkrange bbegin bend (Some i))]
  | y :: rest =>
      if Bool.eqb (is_func (sy_type y)) (is_func btype) then blocks i btype bbegin (sy_value y + sy_size y) rest
      else (btype, mkrange bbegin bend (Some i)) :: blocks i (sy_type y) (sy_value y) (sy_value y + sy_size y) rest
  end.

(** elf.py:54-64 for one section.  A list in the dict is never empty. *)
Definition section_blocks (entry : nat * list symbol) : list (sym_type * arange) :=
  match sort_by (fun a b => sy_value a <=? sy_value b) (snd entry) with
  | [] => []
  | y :: rest => blocks (fst entry) (sy_type y) (sy_value y) (sy_size y) (y :: rest)
  end.

(** The two dicts returned, elf.py:58-92: the lists of their values, in order; a section
    without ranges of a type is not in the dict. *)
Definition ranges_of (func : bool) (entry : nat * list symbol) : list arange :=
  map snd (filter (fun b => Bool.eqb (is_func (fst b)) func) (section_blocks entry)).
Definition ranges_per_section (func : bool) (d : list (nat * list symbol)) : list (list arange) :=
  filter (fun l => match l with [] => false | _ => true end) (map (ranges_of func) d).

(** create_code_range, elf.py:108-119. *)
Definition whole (l : list arange) : arange :=
  mkrange (ar_begin (hd no_range l)) (ar_end (last l no_range)) (ar_section (hd no_range l)).
Definition larger (best r : arange) : arange := if ar_size best <? ar_size r then r else best.
Definition create_code_range (l : list (list arange)) : arange :=
  fold_left (fun best rs => larger best (whole rs)) l no_range.

(** create_data_range, elf.py:122-154. *)
Definition inside (r : arange) (a : Z) : bool := (ar_begin r <? a) && (a <? ar_end r).
Definition cut (code r : arange) : arange :=
  let left := mkrange (ar_begin r) (ar_begin code) (ar_section r) in
  let right := mkrange (ar_end code) (ar_end r) (ar_section r) in
  if inside r (ar_begin code) then
    if inside r (ar_end code) then if ar_size right <? ar_size left then left else right
    else left
  else if inside r (ar_end code) then right else r.
Definition create_data_range (l : list (list arange)) (code : arange) : arange :=
  fold_left (fun best r => larger best (cut code r)) (concat l) no_range.

(** from_file, elf.py:157-168: the code range and the data range. *)
Definition from_file (elf : list section) : pyo (arange * arange) :=
  dop d := collect elf (all_symbols elf) [] in
  let code := create_code_range (ranges_per_section true d) in
  ret (code, create_data_range (ranges_per_section false d) code).

(** A slice [a:b] of a list of bytes. *)
Definition slice_index (n len : Z) : Z := if n <? 0 then Z.max 0 (n + len) else Z.min n len.
Definition py_slice (a b : Z) (l : list Z) : list Z :=
  zdrop (slice_index a (zlen l)) (ztake (slice_index b (zlen l)) l).

(** bytes.index(): the first place of [data] in [l]; [None] if it raises. *)
Fixpoint starts_with (data l : list Z) : bool :=
  match data, l with
  | [], _ => true
  | a :: data', b :: l' => (a =? b) && starts_with data' l'
  | _ :: _, [] => false
  end.
Fixpoint bytes_index (data l : list Z) : option Z :=
  if starts_with data l then Some 0
  else match l with
       | [] => None
       | _ :: l' => option_map Z.succ (bytes_index data l')
       end.

(** find_data_offset_into_binfile, __init__.py:87-113; [bin] is the contents of the
    binary.  get_section() raises for the section number None. *)
Definition find_data_offset (elf : list section) (bin : list Z) (r : arange) : pyo Z :=
  match match ar_section r with Some i => nth_error elf i | None => None end with
  | None => raise OtherError
  | Some s =>
      let offset := ar_begin r - sec_addr s in
      match bytes_index (py_slice offset (offset + ar_size r) (sec_data s)) bin with
      | Some n => ret n
      | None => raise DetoolsError
      end
  end.

(** find_offset_for_address, __init__.py:116-128: tuples are compared one field after
    the other. *)
Definition tuple_le (a b : section) : bool :=
  if sec_addr a =? sec_addr b then
    if sec_offset a =? sec_offset b then sec_size a <=? sec_size b else sec_offset a <? sec_offset b
  else sec_addr a <? sec_addr b.
Definition find_offset_for_address (elf : list section) (address : Z) : pyo Z :=
  match find (fun s => sec_has s address) (sort_by tuple_le elf) with
  | Some s => ret (address - sec_addr s + sec_offset s)
  | None => raise DetoolsError
  end.

(** data_format_from_files, __init__.py:131-149: the data offsets, the code addresses and
    the data addresses.  [offset] is the value of the option, if any. *)
Definition data_format_from_files (elf : list section) (bin : list Z) (offset : option Z) : pyo ((Z * Z) * (Z * Z) * (Z * Z)) :=
  dop (code, data) := from_file elf in
  dop place := match offset with
               | None => find_data_offset elf bin data
               | Some o => dop n := find_offset_for_address elf (ar_begin data) in ret (n - o)
               end in
  ret ((place, place + ar_size data), (ar_begin code, ar_end code), (ar_begin data, ar_end data)).
