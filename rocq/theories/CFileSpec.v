(** What the theorems about the file functions are stated with: a file system in which
    nothing goes wrong, and a record of the files opened, used and closed. *)

From Coq Require Import ZArith List Bool.
From Verif Require Import Prelude CFile.
Import ListNotations.
Open Scope Z_scope.

(** ** A file system

    [fs_file] are the contents of the files by name.  An open file has a name and a
    position.  [fs_next] is the next FILE pointer given out. *)
Record fs := mkfs {
  fs_file : Z -> option (list Z);
  fs_open : Z -> option (Z * Z);
  fs_next : Z
}.

Definition put {A : Type} (f : Z -> A) (k : Z) (v : A) : Z -> A := fun x => if x =? k then v else f x.

Definition contents (w : fs) (name : Z) : list Z := match fs_file w name with Some c => c | None => [] end.

(** Contents [c] with [data] written at [pos]; a gap is filled with zeros. *)
Definition overwrite (c : list Z) (pos : Z) (data : list Z) : list Z :=
  ztake pos c ++ zrepeat 0 (pos - zlen c) ++ data ++ zdrop (pos + zlen data) c.

Definition fs_fopen (w : fs) (name : Z) (mode : fmode) : option Z * fs :=
  let opened file := (Some (fs_next w), mkfs file (put (fs_open w) (fs_next w) (Some (name, 0))) (fs_next w + 1)) in
  match mode with
  | WriteBinary => opened (put (fs_file w) name (Some []))
  | _ => match fs_file w name with None => (None, w) | Some _ => opened (fs_file w) end
  end.

Definition fs_at (w : fs) (f name pos : Z) : fs := mkfs (fs_file w) (put (fs_open w) f (Some (name, pos))) (fs_next w).

Definition fs_fseek (w : fs) (f offset : Z) (from : whence) : Z * fs :=
  match fs_open w f with
  | None => (-1, w)
  | Some (name, pos) =>
      let p := match from with SeekSet => 0 | SeekCur => pos | SeekEnd => zlen (contents w name) end + offset in
      if p <? 0 then (-1, w) else (0, fs_at w f name p)
  end.

Definition fs_ftell (w : fs) (f : Z) : Z * fs :=
  (match fs_open w f with None => -1 | Some (_, pos) => pos end, w).

(** Nothing is read partly: at the end of the file the position is moved there. *)
Definition fs_fread (w : fs) (f n : Z) : Z * list Z * fs :=
  match fs_open w f with
  | None => (0, [], w)
  | Some (name, pos) =>
      let c := contents w name in
      if pos + n <=? zlen c then (1, ztake n (zdrop pos c), fs_at w f name (pos + n))
      else (0, zdrop pos c, fs_at w f name (Z.max pos (zlen c)))
  end.

Definition fs_fwrite (w : fs) (f : Z) (data : list Z) : Z * fs :=
  match fs_open w f with
  | None => (0, w)
  | Some (name, pos) =>
      (1, mkfs (put (fs_file w) name (Some (overwrite (contents w name) pos data)))
               (put (fs_open w) f (Some (name, pos + zlen data))) (fs_next w))
  end.

Definition fs_fclose (w : fs) (f : Z) : Z * fs :=
  match fs_open w f with
  | None => (-1, w)
  | Some _ => (0, mkfs (fs_file w) (put (fs_open w) f None) (fs_next w))
  end.

Definition fs_stdio : stdio fs := mkstdio fs fs_fopen fs_fseek fs_ftell fs_fread fs_fwrite fs_fclose.

(** The same file system on a device that fails when a file is closed. *)
Definition fs_full : stdio fs :=
  mkstdio fs fs_fopen fs_fseek fs_ftell fs_fread fs_fwrite (fun w f => let '(_, w1) := fs_fclose w f in (-1, w1)).

(** A file system with the given files, none of them open. *)
Definition disk (file : Z -> option (list Z)) : fs := mkfs file (fun _ => None) 1.

(** ** A record of what is done with the files *)

Inductive fevent :=
| EvOpen (f : Z)      (* opened successfully *)
| EvUse (f : Z)       (* fseek, ftell, fread, fwrite *)
| EvClose (f c : Z).   (* fclose, with what it returned *)

(** Any stdio with a record of all its calls. *)
Definition tracked {W : Type} (F : stdio W) : stdio (W * list fevent) :=
  mkstdio (W * list fevent)
    (fun x name mode => let '(o, w1) := fopen F (fst x) name mode in
       (o, (w1, match o with Some f => snd x ++ [EvOpen f] | None => snd x end)))
    (fun x f offset from => let '(r, w1) := fseek F (fst x) f offset from in (r, (w1, snd x ++ [EvUse f])))
    (fun x f => let '(r, w1) := ftell F (fst x) f in (r, (w1, snd x ++ [EvUse f])))
    (fun x f n => let '(k, data, w1) := fread F (fst x) f n in (k, data, (w1, snd x ++ [EvUse f])))
    (fun x f data => let '(k, w1) := fwrite F (fst x) f data in (k, (w1, snd x ++ [EvUse f])))
    (fun x f => let '(r, w1) := fclose F (fst x) f in (r, (w1, snd x ++ [EvClose f r]))).

(** [disciplined open log]: with the files [open], all uses in the record are of files
    opened and not yet closed, every file is closed once, and none is open at the end. *)
Fixpoint disciplined (open : list Z) (log : list fevent) : Prop :=
  match log with
  | [] => open = []
  | EvOpen f :: rest => disciplined (f :: open) rest
  | EvUse f :: rest => In f open /\ disciplined open rest
  | EvClose f _ :: rest => exists a b, open = a ++ f :: b /\ disciplined (a ++ b) rest
  end.

(** Nothing failed to be closed. *)
Definition all_closed (log : list fevent) : Prop := forall f c, In (EvClose f c) log -> c = 0.

(** Step callbacks that do not touch the files. *)
Definition tracked_set {W : Type} (sset : W -> Z -> Z * W) : W * list fevent -> Z -> Z * (W * list fevent) :=
  fun x step => let '(r, w1) := sset (fst x) step in (r, (w1, snd x)).
Definition tracked_get {W : Type} (sget : W -> Z * Z * W) : W * list fevent -> Z * Z * (W * list fevent) :=
  fun x => let '(r, step, w1) := sget (fst x) in (r, step, (w1, snd x)).
