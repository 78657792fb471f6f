(** Vocabulary for properties of the sequential applier with arbitrary user
    callbacks. *)

From Coq Require Import ZArith List Bool.
From Verif Require Import Prelude Heatshrink CReader CSeq Spec.
Import ListNotations.
Open Scope Z_scope.

(** The calls a user can make on an initialised applier. *)
Inductive call :=
| CallProcess (piece : list Z)
| CallFinalize.

Section Calls.
Context `{WordBits}.
Context {W : Type} (E : seq_env W).

(** The results of a sequence of calls, the final state and the world. *)
Fixpoint run_calls (fuel : nat) (s : ap) (w : W) (calls : list call) : outcome (list Z * ap * W) :=
  match calls with
  | [] => Ret ([], s, w)
  | c :: cs =>
      letm (r, s1, w1) :=
        match c with
        | CallProcess piece => process E fuel 128 s w piece
        | CallFinalize => finalize E fuel 128 s w
        end in
      letm (rs, s2, w2) := run_calls fuel s1 w1 cs in
      Ret (r :: rs, s2, w2)
  end.

(** The pieces handed over in a sequence of calls. *)
Definition pieces_of (calls : list call) : list (list Z) :=
  map (fun c => match c with CallProcess p => p | CallFinalize => [] end) calls.

Definition call_bytes (c : call) : Prop :=
  match c with CallProcess piece => bytes_ok piece | CallFinalize => True end.

(** What a call may report after a failure: nothing to do for an empty piece, an
    error otherwise. *)
Definition after_failure (c : call) (r : Z) : Prop :=
  match c with CallProcess [] => r = 0 | _ => r < 0 end.

(** The same callbacks with a count of all bytes passed to to_write. *)
Definition counting : seq_env (W * Z) :=
  mkenv (W * Z)
    (fun wn n => let '(r, buf, w1) := from_read E (fst wn) n in (r, buf, (w1, snd wn)))
    (fun wn off => let '(r, w1) := from_seek E (fst wn) off in (r, (w1, snd wn)))
    (fun wn data => let '(r, w1) := to_write E (fst wn) data in (r, (w1, snd wn + zlen data))).

(** Callbacks that honour their contract, over a from area of at most 2 GB:
    [pos] is the current from position; a read that succeeds delivers the bytes it
    was asked for and moves the position, a seek that succeeds moves it, and it
    never leaves the range of [int]. *)
Definition honest (pos : W -> Z) : Prop :=
  (forall w n rr buf w1, from_read E w n = (rr, buf, w1) -> rr = 0 ->
     zlen buf = n /\ pos w1 = pos w + n /\ pos w1 <= INT_MAX) /\
  (forall w off rr w1, from_seek E w off = (rr, w1) -> rr = 0 ->
     pos w1 = pos w + off /\ 0 <= pos w1 <= INT_MAX) /\
  (forall w data rr w1, to_write E w data = (rr, w1) -> rr = 0 -> pos w1 = pos w).

End Calls.

(** The to-size announced in a patch header: the magnitude of the size field that
    follows the type byte. *)
Definition announced_size (patch : list Z) : option Z :=
  match tl patch with
  | [] => None
  | b :: l =>
      if b <? 128 then Some (b mod 64)
      else match dec_usize l with
           | None => None
           | Some (v, _) => Some (b mod 64 + 64 * v)
           end
  end.

(** Value of the signed size field at the beginning of [l], and what follows it. *)
Definition dec_size (l : list Z) : option (Z * list Z) :=
  match l with
  | [] => None
  | b :: l' =>
      match (if b <? 128 then Some (b mod 64, l')
             else match dec_usize l' with
                  | None => None
                  | Some (v, rest) => Some (b mod 64 + 64 * v, rest)
                  end) with
      | None => None
      | Some (a, rest) => Some (if Z.testbit b 6 then - a else a, rest)
      end
  end.

(** No negative diff or extra size among the first [k] records in [l]; [l] may
    break off anywhere. *)
Fixpoint records_nonneg (k : nat) (l : list Z) : bool :=
  match k with
  | O => true
  | S k' =>
      match dec_size l with
      | None => true
      | Some (diff_size, l1) =>
          (0 <=? diff_size) &&
          match dec_size (zdrop diff_size l1) with
          | None => true
          | Some (extra_size, l2) =>
              (0 <=? extra_size) &&
              match dec_size (zdrop extra_size l2) with
              | None => true
              | Some (_, l3) => records_nonneg k' l3
              end
          end
      end
  end.

(** No negative diff or extra size in the (uncompressed) body of a patch. *)
Definition sizes_nonneg (body : list Z) : bool :=
  match dec_size body with
  | None => true
  | Some (_, l) => records_nonneg (length l) l
  end.
