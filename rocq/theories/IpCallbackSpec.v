(** Worlds for the in-place callback API. *)

From Coq Require Import ZArith List Bool.
From Verif Require Import Prelude CSeq CInPlace.
Import ListNotations.
Open Scope Z_scope.

(** The in-place callbacks [E], carrying along something they do not touch. *)
Definition ip_env_with {W : Type} (E : ip_env W) (X : Type) : ip_env (W * X) :=
  mkipenv (W * X)
    (fun wx a n => let '(r, buf, w1) := mem_read E (fst wx) a n in (r, buf, (w1, snd wx)))
    (fun wx a data => let '(r, w1) := mem_write E (fst wx) a data in (r, (w1, snd wx)))
    (fun wx a n => let '(r, w1) := mem_erase E (fst wx) a n in (r, (w1, snd wx)))
    (match step_set E with
     | None => None
     | Some f => Some (fun wx n => let '(r, w1) := f (fst wx) n in (r, (w1, snd wx)))
     end)
    (match step_get E with
     | None => None
     | Some f => Some (fun wx => let '(r, n, w1) := f (fst wx) in (r, n, (w1, snd wx)))
     end).

(** The memory callbacks return zero or a negative error code, as documented in
    detools.h:127-185. *)
Definition codes_ok {W : Type} (E : ip_env W) : Prop :=
  (forall w a n, fst (fst (mem_read E w a n)) <= 0) /\
  (forall w a data, fst (mem_write E w a data) <= 0) /\
  (forall w a n, fst (mem_erase E w a n) <= 0).
