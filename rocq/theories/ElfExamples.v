(** Concrete ELF files. *)

From Coq Require Import ZArith List Bool Lia.
From Verif Require Import Prelude PyApply PyElf ElfSpec ElfProofs.
Import ListNotations.
Open Scope Z_scope.

Definition no_section : section := mksec 0 0 0 [] None 0.
Definition text (l : list Z) : section := mksec 4096 64 (zlen l) l None 0.
Definition data (l : list Z) : section := mksec 8192 128 (zlen l) l None 0.
Definition symtab (l : list symbol) : section := mksec 0 256 99 [] (Some l) 16.

(** Two functions, two objects, a file symbol and a label without a size. *)
Definition ex_elf : list section :=
  [no_section; text (zrepeat 1 48); data [5; 6; 7; 8; 9; 10; 11; 12];
   symtab [mksym OtherType 0 0; mksym Object 8196 4; mksym Func 4112 16; mksym Func 4096 16; mksym Object 8192 4; mksym Func 4100 0]].
Definition ex_bin : list Z := zrepeat 1 48 ++ [5; 6; 0; 5; 6; 7; 8; 9; 10; 11; 12].

Lemma ok_by : forall elf, forallb (fun y => negb (wanted y) || (0 <=? sy_size y)) (all_symbols elf) = true -> elf_ok elf.
Proof. intros elf H y L. rewrite forallb_forall in H. apply listed_in in L. destruct L as (A & B). specialize (H y A). rewrite B in H. cbn in H. lia. Qed.

Lemma ex_elf_runs : elf_ok ex_elf /\
  from_file ex_elf = ret (mkrange 4096 4128 (Some 1%nat), mkrange 8192 8200 (Some 2%nat)) /\
  data_format_from_files ex_elf ex_bin None = ret ((51, 59), (4096, 4128), (8192, 8200)) /\
  data_format_from_files ex_elf ex_bin (Some 64) = ret ((64, 72), (4096, 4128), (8192, 8200)).
Proof. split; [apply ok_by; vm_compute; reflexivity|]. split; [vm_compute; reflexivity|]. split; vm_compute; reflexivity. Qed.

(** A symbol in no section, and a binary that does not contain the data. *)
Lemma ex_elf_errors : from_file [text [1]; symtab [mksym Func 5000 4]] = raise DetoolsError /\
  data_format_from_files ex_elf [5; 6; 7] None = raise DetoolsError /\
  data_format_from_files [text [1; 2]; symtab [mksym Func 4096 2]] [1; 2] None = raise OtherError.
Proof. split; [vm_compute; reflexivity|]. split; vm_compute; reflexivity. Qed.

(** A table of constants between two functions. *)
Definition ex_table : list section := [text (zrepeat 1 48); symtab [mksym Func 4096 16; mksym Object 4112 8; mksym Func 4120 16]].

Lemma ex_overlap : exists code dat, elf_ok ex_table /\ from_file ex_table = ret (code, dat) /\ ar_begin code < ar_begin dat < ar_end dat /\ ar_end dat < ar_end code.
Proof. do 2 eexists. split; [apply ok_by; vm_compute; reflexivity|]. split; [vm_compute; reflexivity|]. cbn. lia. Qed.

(** An object within another one. *)
Definition outer : symbol := mksym Object 8192 16.
Definition ex_nested : list section := [data (zrepeat 3 16); symtab [outer; mksym Object 8196 4]].

Lemma ex_uncovered : exists code dat, elf_ok ex_nested /\ from_file ex_nested = ret (code, dat) /\ object_of ex_nested 0 outer /\
  ar_begin dat = sy_value outer /\ ar_end dat < symbol_end outer.
Proof.
  do 2 eexists. split; [apply ok_by; vm_compute; reflexivity|]. split; [vm_compute; reflexivity|]. split; [|cbn; unfold symbol_end; cbn; lia].
  split; [|reflexivity]. apply goes_iff. vm_compute. auto.
Qed.
