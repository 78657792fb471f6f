(** Vocabulary for properties of the in-place applier on arbitrary patches: what the
    header announces, the size and adjustment fields of the body, and callbacks whose
    requests are written down. *)

From Coq Require Import ZArith List Bool.
From Verif Require Import Prelude Heatshrink CReader CSeq CInPlace Spec SeqSpec InPlaceSpec.
Import ListNotations.
Open Scope Z_scope.

(** ** Calls *)

(** The results of a sequence of calls, the final state and the world. *)
Fixpoint ip_run_calls `{WordBits} {W : Type} (E : ip_env W) (fuel : nat) (s : ip) (w : W) (calls : list call)
  : outcome (list Z * ip * W) :=
  match calls with
  | [] => Ret ([], s, w)
  | c :: cs =>
      letm (r, s1, w1) :=
        match c with
        | CallProcess piece => ip_process E fuel s w piece
        | CallFinalize => ip_finalize E fuel s w
        end in
      letm (rs, s2, w2) := ip_run_calls E fuel s1 w1 cs in
      Ret (r :: rs, s2, w2)
  end.

(** The callbacks [E] with a list of all requests to read, write and erase memory,
    whether they succeed or not. *)
Definition watching {W : Type} (E : ip_env W) : ip_env (W * list event) :=
  mkipenv (W * list event)
    (fun wl a n => let '(r, buf, w1) := mem_read E (fst wl) a n in (r, buf, (w1, snd wl ++ [ERead a n])))
    (fun wl a data => let '(r, w1) := mem_write E (fst wl) a data in (r, (w1, snd wl ++ [EWrite a (zlen data)])))
    (fun wl a n => let '(r, w1) := mem_erase E (fst wl) a n in (r, (w1, snd wl ++ [EErase a n])))
    (match step_set E with
     | None => None
     | Some f => Some (fun wl n => let '(r, w1) := f (fst wl) n in (r, (w1, snd wl)))
     end)
    (match step_get E with
     | None => None
     | Some f => Some (fun wl => let '(r, n, w1) := f (fst wl) in (r, n, (w1, snd wl)))
     end).

(** Nothing outside the first [memory] cells is changed by the request. *)
Definition changes_within (memory : Z) (e : event) : Prop :=
  match e with
  | EErase a n | EWrite a n => within (0, memory) a n
  | ERead _ _ | EStep _ => True
  end.

(** A read that succeeds delivers as many bytes as it was asked for. *)
Definition reads_all {W : Type} (E : ip_env W) : Prop :=
  forall w a n r buf w1, mem_read E w a n = (r, buf, w1) -> r = 0 -> zlen buf = n.

(** ** Headers *)

(** The magnitude of the size field at the beginning of [l] (the sign bit is not
    looked at in headers), and what follows it. *)
Definition dec_magnitude (l : list Z) : option (Z * list Z) :=
  match l with
  | [] => None
  | b :: l' =>
      if b <? 128 then Some (b mod 64, l')
      else match dec_usize l' with
           | None => None
           | Some (v, rest) => Some (b mod 64 + 64 * v, rest)
           end
  end.

(** What the header of an in-place patch announces. *)
Record announced := mkann {
  n_memory : Z;
  n_segment : Z;
  n_shift : Z;
  n_from : Z;
  n_to : Z;
  n_stream : list Z   (* what follows the header *)
}.

Definition announces (patch : list Z) : option announced :=
  match dec_magnitude (tl patch) with
  | None => None
  | Some (memory, l1) =>
      match dec_magnitude l1 with
      | None => None
      | Some (segment, l2) =>
          match dec_magnitude l2 with
          | None => None
          | Some (shift, l3) =>
              match dec_magnitude l3 with
              | None => None
              | Some (from, l4) =>
                  match dec_magnitude l4 with
                  | None => None
                  | Some (to, l5) => Some (mkann memory segment shift from to l5)
                  end
              end
          end
      end
  end.

(** Sizes that fit together. *)
Definition consistent (a : announced) : Prop :=
  0 < n_segment a /\ n_shift a <= n_memory a /\ n_to a <= n_memory a /\
  (n_segment a | n_memory a - n_shift a).

(** ** Bodies *)

Inductive field :=
| FDiff (n : Z)
| FExtra (n : Z)
| FAdjust (n : Z).

(** The fields of a record after [pos] to bytes, [x] being the next size and what
    follows it; [next] lists the fields after the record.  A body may break off
    anywhere, and nothing is known about what follows a negative size. *)
Definition adjust_fields (to : Z) (next : Z -> list Z -> list field) (pos : Z) (x : option (Z * list Z)) : list field :=
  match x with
  | None => []
  | Some (n, l) => FAdjust n :: if pos =? to then [] else next pos l
  end.

Definition extra_fields (to : Z) (next : Z -> list Z -> list field) (pos : Z) (x : option (Z * list Z)) : list field :=
  match x with
  | None => []
  | Some (n, l) => FExtra n :: if n <? 0 then [] else adjust_fields to next (pos + n) (dec_size (zdrop n l))
  end.

Definition diff_fields (to : Z) (next : Z -> list Z -> list field) (pos : Z) (x : option (Z * list Z)) : list field :=
  match x with
  | None => []
  | Some (n, l) => FDiff n :: if n <? 0 then [] else extra_fields to next (pos + n) (dec_size (zdrop n l))
  end.

(** The first fields in [l], after [pos] to bytes, in a segment that ends at [stop]:
    a segment begins with the size of its data format patch and goes on with records
    until it is full or all [to] bytes are there. *)
Fixpoint ip_fields (k : nat) (segment to pos stop : Z) (l : list Z) : list field :=
  match k with
  | O => []
  | S k' =>
      if pos =? stop then
        match dec_size l with
        | None => []
        | Some (_, l1) => ip_fields k' segment to pos (Z.min (pos + segment) to) l1
        end
      else diff_fields to (fun p l1 => ip_fields k' segment to p stop l1) pos (dec_size l)
  end.

(** All fields of the (uncompressed) body of a patch. *)
Definition body_fields (a : announced) (body : list Z) : list field :=
  ip_fields (length body) (n_segment a) (n_to a) 0 0 body.

Definition size_nonneg (f : field) : Prop :=
  match f with FDiff n | FExtra n => 0 <= n | FAdjust _ => True end.

(** How far the from position is moved by adjustments, forth and back. *)
Fixpoint moved (fs : list field) : Z :=
  match fs with
  | [] => 0
  | FAdjust n :: r => Z.abs n + moved r
  | _ :: r => moved r
  end.
