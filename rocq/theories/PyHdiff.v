(** Model of what detools does with the HDiffPatch library: detools/hdiffpatch.cpp,
    patches of the type hdiffpatch (create.py, apply.py), and the choice of the
    algorithm in create_patch.  The library itself is not part of the repository (it
    is a git submodule); it is a parameter. *)

From Coq Require Import ZArith List Bool.
From Verif Require Import Prelude PySize PyCreate PyApply.
From Verif Require Spec.
Import ListNotations.
Open Scope Z_scope.

(** ** Results *)

(** A Python call returns, raises, or the process ends (exit() or abort()). *)
Inductive hres (A : Type) : Type :=
| HVal (a : A)
| HRaise (e : exn)
| HKilled.
Arguments HVal {A} a.
Arguments HRaise {A} e.
Arguments HKilled {A}.

Definition hpy (A : Type) : Type := outcome (hres A).
Definition hbind {A B} (m : hpy A) (k : A -> hpy B) : hpy B :=
  match m with
  | Ret (HVal a) => k a
  | Ret (HRaise e) => Ret (HRaise e)
  | Ret HKilled => Ret HKilled
  | Undef => Undef
  | OutOfFuel => OutOfFuel
  end.

(** What cannot end the process. *)
Definition of_py {A} (m : pyo A) : hpy A :=
  match m with
  | Ret (Val a) => Ret (HVal a)
  | Ret (Raise e) => Ret (HRaise e)
  | Undef => Undef
  | OutOfFuel => OutOfFuel
  end.

(** A step of creation that may raise. *)
Definition of_step {A} (m : outcome (option A)) : hpy A :=
  match m with
  | Ret (Some a) => Ret (HVal a)
  | Ret None => Ret (HRaise OtherError)
  | Undef => Undef
  | OutOfFuel => OutOfFuel
  end.

(** ** The library *)

(** create_compressed_diff(from, to, match score, patch type) and
    create_compressed_diff_stream(from, to, block size, patch type), [None] if they
    throw; getCompressedDiffInfo(patch): the sizes of the from and to data, [None]
    if it fails; patch_decompress_with_cache(from, patch, size of the cache): the to
    data, [None] if it does not return 1. *)
Record hdiff_lib := mkhl {
  hl_diff : list Z -> list Z -> Z -> Z -> option (list Z);
  hl_diff_stream : list Z -> list Z -> Z -> Z -> option (list Z);
  hl_info : list Z -> option (Z * Z);
  hl_patch : list Z -> list Z -> Z -> option (list Z)
}.

(** The memory: whether a byte array of the given size can be made, and whether the
    given attempt of malloc() succeeds for the given size. *)
Record hdiff_memory := mkhm {
  hm_bytearray : Z -> bool;
  hm_malloc : nat -> Z -> bool
}.

(** ** hdiffpatch.create_patch *)

(** create_patch_suffix_array, hdiffpatch.cpp:76-102: exceptions become RuntimeError. *)
Definition create_suffix_array (L : hdiff_lib) (from to : list Z) (score type : Z) : hres (list Z) :=
  match hl_diff L from to score type with
  | None => HRaise OtherError
  | Some patch => HVal patch
  end.

(** create_patch_match_blocks, hdiffpatch.cpp:104-176.  Exceptions are not caught: they
    end the process.  The temporary file and the byte array are taken to work. *)
Definition create_blocks (L : hdiff_lib) (from to : list Z) (block type : Z) : hres (list Z) :=
  match hl_diff_stream L from to block type with
  | None => HKilled
  | Some patch => HVal patch
  end.

(** m_create_patch, hdiffpatch.cpp:185-226. *)
Definition lib_create_patch (L : hdiff_lib) (from to : list Z) (score block type : Z) : hres (list Z) :=
  if block =? 0 then create_suffix_array L from to score type
  else create_blocks L from to block type.

(** ** hdiffpatch.apply_patch *)

(** get_patch_mem_cache, hdiffpatch.cpp:267-295: the loop. *)
Fixpoint cache_loop (fuel : nat) (malloc : nat -> Z -> bool) (attempt : nat) (size : Z) : outcome Z :=
  match fuel with
  | O => OutOfFuel
  | Datatypes.S f =>
      if malloc attempt size then Ret size
      else cache_loop f malloc (Datatypes.S attempt) (if 16384 <=? size then Z.shiftr size 1 else size)
  end.

Definition mem_cache (fuel : nat) (malloc : nat -> Z -> bool) (old_size : Z) : outcome Z :=
  cache_loop fuel malloc O (if old_size + 2097152 <? 67108864 then old_size + 2097152 else 67108864).

(** m_apply_patch, hdiffpatch.cpp:300-370.  Returning NULL without having set an
    exception is a SystemError. *)
Definition lib_apply_patch (L : hdiff_lib) (M : hdiff_memory) (fuel : nat) (from patch : list Z) : hpy (list Z) :=
  match hl_info L patch with
  | None => Ret (HRaise OtherError)
  | Some (old_size, new_size) =>
      if negb (zlen from =? old_size) then Ret (HRaise OtherError)
      else if negb (hm_bytearray M new_size) then Ret (HRaise OtherError)
      else
        letm cache := mem_cache fuel (hm_malloc M) (zlen from) in
        match hl_patch L from patch cache with
        | None => Ret HKilled
        | Some to => Ret (HVal to)
        end
  end.

(** ** Creation *)

(** A file-like object: its content, and whether it has a file descriptor. *)
Record py_file := mkpf { pf_content : list Z; pf_fileno : bool }.

(** mmap_read_only, create.py:88-89: fileno() raises if there is none, mmap() for an
    empty file. *)
Definition mmap_read_only (f : py_file) : hpy (list Z) :=
  if negb (pf_fileno f) then Ret (HRaise OtherError)
  else match pf_content f with
       | [] => Ret (HRaise OtherError)
       | content => Ret (HVal content)
       end.

(** create_patch_hdiffpatch_generic, create.py:389-408. *)
Definition create_generic (L : hdiff_lib) (ffrom fto : py_file) (score block type : Z) (use_mmap : bool) : hpy (list Z) :=
  if use_mmap then
    hbind (mmap_read_only ffrom) (fun from =>
    hbind (mmap_read_only fto) (fun to =>
    Ret (lib_create_patch L from to score block type)))
  else Ret (lib_create_patch L (pf_content ffrom) (pf_content fto) score block type).

(** The compressor: the number in the header, and what compress() returns for the
    pieces followed by what flush() returns, [None] if one of them raises. *)
Record compressor := mkcm { cm_number : Z; cm_compress : list (list Z) -> option (list Z) }.

(** The compressors of detools itself, create.py:46-70. *)
Definition own_compressor (c : Spec.comp) (hs : list (list Z) -> list Z) : compressor :=
  mkcm (Spec.comp_number c) (fun pieces => match py_compress c hs pieces with Ret r => r | _ => None end).

(** The header and the data of a patch of the type hdiffpatch: create.py:435-440 and
    471-475, 484-485. *)
Definition hdiff_patch_file (C : compressor) (to_size : Z) (patch : list Z) : hpy (list Z) :=
  hbind (of_step (py_pack_size to_size)) (fun size =>
  hbind (of_step (py_pack_size (zlen patch))) (fun patch_size =>
  hbind (of_step (Ret (cm_compress C [patch]))) (fun stream =>
  Ret (HVal (py_pack_header 2 (cm_number C) :: size ++ patch_size ++ stream))))).

(** create_patch_hdiffpatch, create.py:411-443. *)
Definition create_hdiffpatch (L : hdiff_lib) (C : compressor) (ffrom fto : py_file) (score : Z) (use_mmap : bool) : hpy (list Z) :=
  hbind (create_generic L ffrom fto score 0 2 use_mmap) (fun patch =>
  hdiff_patch_file C (zlen (pf_content fto)) patch).

(** The patch types a user can ask for; any other string is [TUnknown].  PATCH_TYPES,
    common.py:13-17, does not have 'bsdiff'. *)
Inductive type_name := TSequential | TInPlace | THdiffpatch | TBsdiff | TUnknown.

Definition type_number (t : type_name) : option Z :=
  match t with
  | TSequential => Some 0
  | TInPlace => Some 1
  | THdiffpatch => Some 2
  | TBsdiff | TUnknown => None
  end.

(** create_patch_match_blocks, create.py:446-488.  An unknown type is a KeyError. *)
Definition create_match_blocks (L : hdiff_lib) (C : compressor) (ffrom fto : py_file) (t : type_name) (block : Z) (use_mmap : bool)
  : hpy (list Z) :=
  match type_number t with
  | None => Ret (HRaise OtherError)
  | Some number =>
      hbind (create_generic L ffrom fto 0 block number use_mmap) (fun patch =>
      match t with
      | THdiffpatch => hdiff_patch_file C (zlen (pf_content fto)) patch
      | TSequential =>
          hbind (of_step (py_pack_size (zlen (pf_content fto)))) (fun size =>
          hbind (of_step (py_pack_size 0)) (fun dfpatch =>
          hbind (of_step (Ret (cm_compress C [dfpatch; patch]))) (fun stream =>
          Ret (HVal (py_pack_header 0 (cm_number C) :: size ++ stream)))))
      | _ => Ret (HRaise DetoolsError)
      end)
  end.

(** create_patch, create.py:562-612.  The functions for the algorithm bsdiff are
    modelled elsewhere (PyCreate.v, PyInPlace.v, PyBsdiff40.v, PyOther.v); [bsdiff] is
    what they return for the given type. *)
Inductive algorithm := ABsdiff | AHdiffpatch | AMatchBlocks | AUnknown.

Definition create_patch (L : hdiff_lib) (C : compressor) (bsdiff : type_name -> hpy (list Z)) (ffrom fto : py_file)
           (a : algorithm) (t : type_name) (score block : Z) (use_mmap : bool) : hpy (list Z) :=
  match a, t with
  | ABsdiff, TSequential | ABsdiff, TInPlace | ABsdiff, TBsdiff => bsdiff t
  | AHdiffpatch, THdiffpatch => create_hdiffpatch L C ffrom fto score use_mmap
  | AMatchBlocks, _ => create_match_blocks L C ffrom fto t block use_mmap
  | _, _ => Ret (HRaise DetoolsError)
  end.

(** ** Application *)

(** read_header_hdiffpatch, apply.py:167-188. *)
Definition read_header_hdiffpatch (X : externals) (file : list Z) : pyo (decompressor * Z * Z * list Z) :=
  match file with
  | [] => raise DetoolsError
  | b :: file1 =>
      let (type, number) := unpack_header b in
      if negb (type =? 2) then raise DetoolsError
      else match decompressor_of X number with
           | None => raise DetoolsError
           | Some D =>
               dop (to_size, file2) := file_unpack_size file1 in
               dop (patch_size, file3) := file_unpack_size file2 in
               ret (D, to_size, patch_size, file3)
           end
  end.

(** apply_patch_hdiffpatch, apply.py:502-525: the value returned and the data
    written. *)
Definition apply_patch_hdiffpatch (X : externals) (L : hdiff_lib) (M : hdiff_memory) (fuel : nat) (from patch : list Z) : hpy (Z * list Z) :=
  hbind (of_py (read_header_hdiffpatch X patch)) (fun '(D, to_size, patch_size, file) =>
  if to_size =? 0 then Ret (HVal (to_size, []))
  else
    hbind (of_py (pr_decompress fuel patch_size (pr_open D file))) (fun '(data, _) =>
    hbind (lib_apply_patch L M fuel from data) (fun to =>
    Ret (HVal (zlen to, to))))).

(** apply_patch, apply.py:326-346, with patches of every type. *)
Definition apply_patch_any (X : externals) (F : df_readers) (L : hdiff_lib) (M : hdiff_memory) (fuel : nat) (clamps : bool)
           (from patch : list Z) : hpy (Z * list Z) :=
  match patch with
  | [] => Ret (HRaise DetoolsError)
  | b :: _ =>
      let (type, _) := unpack_header b in
      if type =? 0 then of_py (apply_patch_sequential X F fuel clamps from patch)
      else if type =? 2 then apply_patch_hdiffpatch X L M fuel from patch
      else Ret (HRaise DetoolsError)
  end.
