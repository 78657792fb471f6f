(** Model of the Python functions that take file names: create_patch_filenames,
    create.py:615-680, apply_patch_filenames, apply_patch_in_place_filenames and
    apply_patch_bsdiff_filenames, apply.py:528-569, patch_info_filename, info.py:183-190. *)

From Coq Require Import ZArith List Bool.
From Verif Require Import Prelude Spec PyCreate PyInPlace PyApply PyApplyInPlace PyBsdiff40 PyInfo.
Import ListNotations.
Open Scope Z_scope.

(** The files of a disk by name (names are numbers), and the names that open() cannot
    open for writing.  Simplifications: a file can always be read, writing to an open file
    and closing it never fail. *)
Record store := mkstore { st_file : Z -> option (list Z); st_locked : Z -> bool }.

Definition st_put (s : store) (name : Z) (data : list Z) : store :=
  mkstore (fun n => if n =? name then Some data else st_file s n) (st_locked s).

(** What a function returns or raises, and the files afterwards. *)
Definition on_files (A : Type) : Type := outcome (res A * store).

(** The contents of a file that has been opened for reading, at the time it is read. *)
Definition st_read (s : store) (name : Z) : list Z := match st_file s name with Some l => l | None => [] end.

(** The three nested with statements that the functions have in common: two files are
    opened with 'rb' and a third one with 'wb', which makes it empty; [run] works on the
    contents of the first two and gives the data written to the third one.  If it
    raises, [written] is what it had written before.  All files are closed in any case.
    The third file may be the second one: it is read before anything is written to it.
    Not meant for the third file being the first one, which is read while it is
    written. *)
Definition two_to_one {A : Type} (run : list Z -> list Z -> pyo (A * list Z)) (written : list Z -> list Z -> list Z)
           (s : store) (name1 name2 name3 : Z) : on_files A :=
  match st_file s name1 with
  | None => Ret (Raise OtherError, s)
  | Some _ =>
      match st_file s name2 with
      | None => Ret (Raise OtherError, s)
      | Some _ =>
          if st_locked s name3 then Ret (Raise OtherError, s)
          else
            let s1 := st_put s name3 [] in
            letm r := run (st_read s1 name1) (st_read s1 name2) in
            match r with
            | Val (a, data) => Ret (Val a, st_put s1 name3 data)
            | Raise e => Ret (Raise e, st_put s1 name3 (written (st_read s1 name1) (st_read s1 name2)))
            end
      end
  end.

(** create_patch_filenames, create.py:615-680: [create] is create_patch() with the other
    arguments; nothing is returned. *)
Definition create_patch_filenames (create : list Z -> list Z -> pyo (list Z)) (written : list Z -> list Z -> list Z)
           (s : store) (fromfile tofile patchfile : Z) : on_files unit :=
  two_to_one (fun from to => dop patch := create from to in ret (tt, patch)) written s fromfile tofile patchfile.

(** apply_patch_filenames, apply.py:528-540.  seek() of a file opened with open() does
    not clamp. *)
Definition apply_patch_filenames (X : externals) (F : df_readers) (hdiff : list Z -> list Z -> pyo (Z * list Z)) (fuel : nat)
           (written : list Z -> list Z -> list Z) (s : store) (fromfile patchfile tofile : Z) : on_files Z :=
  two_to_one (fun from patch => apply_patch X F hdiff fuel false from patch) written s fromfile patchfile tofile.

(** apply_patch_bsdiff_filenames, apply.py:557-569. *)
Definition apply_patch_bsdiff_filenames (bz : bz2) (fuel : nat) (written : list Z -> list Z -> list Z)
           (s : store) (fromfile patchfile tofile : Z) : on_files Z :=
  two_to_one (fun from patch => apply_patch_bsdiff bz fuel false from patch) written s fromfile patchfile tofile.

(** apply_patch_in_place_filenames, apply.py:543-554: 'r+b' leaves the contents of the
    file.  If an exception is raised then the memory is [written]. *)
Definition apply_patch_in_place_filenames (X : externals) (fuel : nat) (written : list Z -> list Z -> list Z)
           (s : store) (memfile patchfile : Z) : on_files Z :=
  match st_file s memfile with
  | None => Ret (Raise OtherError, s)
  | Some mem =>
      if st_locked s memfile then Ret (Raise OtherError, s)
      else
        match st_file s patchfile with
        | None => Ret (Raise OtherError, s)
        | Some patch =>
            letm r := apply_patch_in_place X fuel false mem patch in
            match r with
            | Val (size, mem1) => Ret (Val size, st_put s memfile mem1)
            | Raise e => Ret (Raise e, st_put s memfile (written mem patch))
            end
        end
  end.

(** patch_info_filename, info.py:183-190. *)
Definition patch_info_filename (X : externals) (DI : df_info) (HI : list Z -> pyo (Z * Z * Z)) (fuel : nat)
           (s : store) (patchfile : Z) : on_files patch_info_result :=
  match st_file s patchfile with
  | None => Ret (Raise OtherError, s)
  | Some patch => letm r := patch_info X DI HI fuel patch in Ret (r, s)
  end.

(** create_patch() for the type sequential or in-place, create.py:491-612: the functions
    of PyCreate.v and PyInPlace.v give [None] if they raise. *)
Definition raising {A : Type} (m : outcome (option A)) : pyo A :=
  letm r := m in match r with Some a => ret a | None => raise DetoolsError end.
