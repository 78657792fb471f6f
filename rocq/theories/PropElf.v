(** Theorems about the use of ELF files by the command line.  What is said of an ELF file
    is in ElfSpec.v.  Every proof is an application of a lemma of the other files. *)

From Coq Require Import ZArith List Bool.
From Verif Require Import Prelude PyApply PyElf ElfSpec ElfThms ElfExamples.
Import ListNotations.
Open Scope Z_scope.

(** C83: an ELF file is refused if and only if a function or an object of it is in no
    section. *)
Theorem C83_total : forall elf,
  (exists code data, from_file elf = ret (code, data) /\ forall y, listed elf y -> exists i, home elf i (sy_value y)) \/
  (from_file elf = raise DetoolsError /\ exists y, listed elf y /\ forall s, In s elf -> ~ has_address s (sy_value y)).
Proof. exact from_file_total. Qed.
Print Assumptions C83_total.

(** The code addresses: those from the first to the last function of a section, and every
    function of the section starts within them; the functions of no section are spread
    further.  There are none only if there are no functions. *)
Theorem C83_code : forall elf code data, elf_ok elf -> from_file elf = ret (code, data) ->
  (code = no_range /\ forall y, listed elf y -> sy_type y <> Func) \/
  exists i first final, ar_section code = Some i /\ function_of elf i first /\ function_of elf i final /\
    ar_begin code = sy_value first /\ ar_end code = symbol_end final /\
    (forall y, function_of elf i y -> ar_begin code <= sy_value y < ar_end code) /\
    forall j y z, function_of elf j y -> function_of elf j z -> sy_value z - sy_value y < ar_end code - ar_begin code.
Proof. exact code_range. Qed.
Print Assumptions C83_code.

(** The data addresses: within a sequence of objects of a section that is not interrupted
    by a function, and neither end of the code addresses is strictly within them.  There
    are none only if there are no objects. *)
Theorem C83_data : forall elf code data, elf_ok elf -> from_file elf = ret (code, data) ->
  ((data = no_range /\ forall y, listed elf y -> sy_type y <> Object) \/
   exists i first final, ar_section data = Some i /\ object_of elf i first /\ object_of elf i final /\
     sy_value first <= ar_begin data < ar_end data /\ ar_end data <= symbol_end final /\
     (ar_begin data = sy_value first \/ ar_begin data = ar_end code) /\ (ar_end data = symbol_end final \/ ar_end data = ar_begin code) /\
     forall y, symbol_of elf i y -> sy_value first < sy_value y < sy_value final -> sy_type y = Object) /\
  ~ straddles data (ar_begin code) /\ ~ straddles data (ar_end code).
Proof. exact data_range. Qed.
Print Assumptions C83_data.

(** No larger data was overlooked: objects of a section with no function between them,
    outside of the code addresses, never spread further than the data addresses. *)
Theorem C83_data_largest : forall elf code data, elf_ok elf -> from_file elf = ret (code, data) ->
  forall j y z, object_of elf j y -> object_of elf j z -> sy_value y <= sy_value z ->
  (forall x, symbol_of elf j x -> sy_value y <= sy_value x <= sy_value z -> sy_type x = Object) ->
  sy_value z < ar_begin code \/ ar_end code <= sy_value y ->
  sy_value z - sy_value y < ar_end data - ar_begin data.
Proof. exact data_largest. Qed.
Print Assumptions C83_data_largest.

(** The data offsets, if no offset is given: the first place of the data in the binary.
    They are as many bytes as the data addresses, and all of them are the data of the
    section, provided the section has so much data. *)
Theorem C83_offset : forall elf bin b e cb ce db de, elf_ok elf -> data_format_from_files elf bin None = ret ((b, e), (cb, ce), (db, de)) ->
  exists code data i s, from_file elf = ret (code, data) /\ cb = ar_begin code /\ ce = ar_end code /\ db = ar_begin data /\ de = ar_end data /\
  ar_section data = Some i /\ nth_error elf i = Some s /\ sec_addr s <= db < de /\
  let part := zdrop (db - sec_addr s) (ztake (de - sec_addr s) (sec_data s)) in
  0 <= b /\ e = b + (de - db) /\ ztake (zlen part) (zdrop b bin) = part /\ (forall m, 0 <= m < b -> ztake (zlen part) (zdrop m bin) <> part) /\
  (de - sec_addr s <= zlen (sec_data s) -> zlen part = de - db).
Proof. exact offset_searched. Qed.
Print Assumptions C83_offset.

(** If an offset is given: the place of the data in the ELF file, according to the section
    with the lowest address that contains it, less the offset. *)
Theorem C83_offset_given : forall elf bin o b e cb ce db de, data_format_from_files elf bin (Some o) = ret ((b, e), (cb, ce), (db, de)) ->
  exists code data s, from_file elf = ret (code, data) /\ cb = ar_begin code /\ ce = ar_end code /\ db = ar_begin data /\ de = ar_end data /\
  In s elf /\ has_address s db /\ b = sec_offset s + (db - sec_addr s) - o /\ e = b + (de - db) /\
  forall t, In t elf -> has_address t db -> sec_addr s <= sec_addr t.
Proof. exact offset_given. Qed.
Print Assumptions C83_offset_given.

Example C83_example : elf_ok ex_elf /\
  from_file ex_elf = ret (mkrange 4096 4128 (Some 1%nat), mkrange 8192 8200 (Some 2%nat)) /\
  data_format_from_files ex_elf ex_bin None = ret ((51, 59), (4096, 4128), (8192, 8200)) /\
  data_format_from_files ex_elf ex_bin (Some 64) = ret ((64, 72), (4096, 4128), (8192, 8200)).
Proof. exact ex_elf_runs. Qed.

Example C83_errors : from_file [text [1]; symtab [mksym Func 5000 4]] = raise DetoolsError /\
  data_format_from_files ex_elf [5; 6; 7] None = raise DetoolsError /\
  data_format_from_files [text [1; 2]; symtab [mksym Func 4096 2]] [1; 2] None = raise OtherError.
Proof. exact ex_elf_errors. Qed.

(** The data addresses may be among the code addresses: constants between two functions. *)
Theorem C83_disjoint_refuted : exists code dat, elf_ok ex_table /\ from_file ex_table = ret (code, dat) /\ ar_begin code < ar_begin dat < ar_end dat /\ ar_end dat < ar_end code.
Proof. exact ex_overlap. Qed.
Print Assumptions C83_disjoint_refuted.

(** They may end before the end of the first object: an object within another one. *)
Theorem C83_covered_refuted : exists code dat, elf_ok ex_nested /\ from_file ex_nested = ret (code, dat) /\ object_of ex_nested 0 outer /\
  ar_begin dat = sy_value outer /\ ar_end dat < symbol_end outer.
Proof. exact ex_uncovered. Qed.
Print Assumptions C83_covered_refuted.
