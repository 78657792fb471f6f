(** Vocabulary for properties of result codes: callbacks whose results are written
    down as they are returned. *)

From Coq Require Import ZArith List Bool.
From Verif Require Import Prelude Heatshrink CReader CSeq CInPlace.
Import ListNotations.
Open Scope Z_scope.

(** The callbacks [E] with a list of all results they have returned. *)
Definition noting {W : Type} (E : seq_env W) : seq_env (W * list Z) :=
  mkenv (W * list Z)
    (fun wl n => let '(r, buf, w1) := from_read E (fst wl) n in (r, buf, (w1, snd wl ++ [r])))
    (fun wl off => let '(r, w1) := from_seek E (fst wl) off in (r, (w1, snd wl ++ [r])))
    (fun wl data => let '(r, w1) := to_write E (fst wl) data in (r, (w1, snd wl ++ [r]))).

Definition ip_noting {W : Type} (E : ip_env W) : ip_env (W * list Z) :=
  mkipenv (W * list Z)
    (fun wl a n => let '(r, buf, w1) := mem_read E (fst wl) a n in (r, buf, (w1, snd wl ++ [r])))
    (fun wl a data => let '(r, w1) := mem_write E (fst wl) a data in (r, (w1, snd wl ++ [r])))
    (fun wl a n => let '(r, w1) := mem_erase E (fst wl) a n in (r, (w1, snd wl ++ [r])))
    (match step_set E with
     | None => None
     | Some f => Some (fun wl n => let '(r, w1) := f (fst wl) n in (r, (w1, snd wl ++ [r])))
     end)
    (match step_get E with
     | None => None
     | Some f => Some (fun wl => let '(r, n, w1) := f (fst wl) in (r, n, (w1, snd wl ++ [r])))
     end).

Definition noted {W : Type} (patch_read : W -> Z -> Z * list Z * W) (wl : W * list Z) (n : Z)
  : Z * list Z * (W * list Z) :=
  let '(r, buf, w1) := patch_read (fst wl) n in (r, buf, (w1, snd wl ++ [r])).

(** All callbacks succeeded. *)
Definition all_zero (log : list Z) : Prop := Forall (fun r => r = 0) log.

(** Every result of a memory callback satisfies [P]. *)
Definition mem_codes {W : Type} (P : Z -> Prop) (E : ip_env W) : Prop :=
  (forall w a n, P (fst (fst (mem_read E w a n)))) /\
  (forall w a data, P (fst (mem_write E w a data))) /\
  (forall w a n, P (fst (mem_erase E w a n))).

(** A result of the library: a size or one of the 27 errors of detools.h:60-90. *)
Definition documented (v : Z) : Prop := 0 <= v \/ -27 <= v <= -1.
