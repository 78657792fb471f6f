(** Specification for in-place patches: the patch format, what a patch means, and
    a flash memory that can lose power at any operation. *)

From Coq Require Import ZArith List Bool.
From Verif Require Import Prelude Heatshrink CReader CSeq CInPlace Spec.
Import ListNotations.
Open Scope Z_scope.

(** ** In-place patches

    The memory is divided into segments.  To make room, the from data is first
    moved up by [shift] bytes; what does not fit in the memory any more is lost.
    The to data is then written segment by segment from the beginning, each
    segment described by records of its own, whose from data starts where the
    shifted from data is, or just after the segment being written if that is
    further up. *)

(** What can be used of the from data. *)
Definition kept (memory shift : Z) (from : list Z) : list Z := ztake (memory - shift) from.

(** The from data visible to to segment [i]. *)
Definition visible (memory segment shift : Z) (from : list Z) (i : Z) : list Z :=
  zdrop (Z.max ((i + 1) * segment - shift) 0) (kept memory shift from).

(** The to data described by the segments, [i] being the number of the first. *)
Fixpoint apply_segments (memory segment shift : Z) (from : list Z) (i : Z)
         (segs : list (list prec)) : option (list Z) :=
  match segs with
  | [] => Some []
  | recs :: rest =>
      match apply_recs (visible memory segment shift from i) 0 recs,
            apply_segments memory segment shift from (i + 1) rest with
      | Some a, Some b => Some (a ++ b)
      | _, _ => None
      end
  end.

(** Every segment is full, except that the last one may be shorter; a segment ends
    with a record that produces something. *)
Fixpoint segments_ok (segment : Z) (segs : list (list prec)) (to_size : Z) : Prop :=
  match segs with
  | [] => to_size = 0
  | recs :: rest =>
      recs_size recs = Z.min segment to_size /\ last_nonempty recs /\
      segments_ok segment rest (to_size - recs_size recs)
  end.

Definition enc_segments (segs : list (list prec)) : list Z := flat_map enc_body segs.

Definition in_place_header (c : comp) (memory segment shift from_size to_size : Z) : list Z :=
  header_byte TYPE_IN_PLACE c :: enc_size memory ++ enc_size segment ++ enc_size shift ++
  enc_size from_size ++ enc_size to_size.

(** [in_place_patch ...]: [patch] is an in-place patch for the given sizes whose
    segments are [segs].  Without to data there is no body. *)
Definition in_place_patch (c : comp) (memory segment shift from_size to_size : Z)
           (segs : list (list prec)) (patch : list Z) : Prop :=
  segments_ok segment segs to_size /\
  exists stream,
    patch = in_place_header c memory segment shift from_size to_size ++ stream /\
    ((segs = [] /\ stream = []) \/ (segs <> [] /\ compressed c (enc_segments segs) stream)).

(** Sizes that make sense: whole segments, room for at least one segment when
    shifting, the result fits, and the C code can represent everything. *)
Definition sizes_ok (memory segment shift from_size to_size : Z) : Prop :=
  0 < segment /\ (segment | memory) /\ (segment | shift) /\
  segment <= shift <= memory /\ 0 <= to_size <= memory /\
  memory < size_limit /\ 0 <= from_size < size_limit.

(** Adjustments and from positions within the limits of the C code. *)
Fixpoint segments_in_limits (segment shift : Z) (i : Z) (segs : list (list prec)) : Prop :=
  match segs with
  | [] => True
  | recs :: rest =>
      Forall (fun r => - size_limit < r_adj r < size_limit) recs /\
      Forall (fun p => Z.max ((i + 1) * segment) shift + p <= INT_MAX) (positions 0 recs) /\
      segments_in_limits segment shift (i + 1) rest
  end.

(** [in_place_update ... from to patch]: [patch] turns [from] into [to]. *)
Definition in_place_update (c : comp) (memory segment shift : Z) (from to patch : list Z) : Prop :=
  exists segs,
    in_place_patch c memory segment shift (zlen from) (zlen to) segs patch /\
    apply_segments memory segment shift from 0 segs = Some to /\
    segments_in_limits segment shift 0 segs.

(** ** Flash memory with power loss *)

(** What the applier did, in order. *)
Inductive event :=
| ERead (addr n : Z)
| EErase (addr n : Z)
| EWrite (addr n : Z)
| EStep (step : Z).

(** A cell is erased ([None], which reads as 0xff) or holds a byte.  [d_power] is
    the number of operations until power is lost ([None]: never).  The operation
    that is interrupted leaves [d_torn] in the cells it was working on; an
    interrupted recording of the step takes place or not according to
    [d_torn_step].  Without power ([d_off]) all operations fail and do nothing.
    [d_bad] is set by an operation outside the memory or by writing a cell that is
    not erased. *)
Record dev := mkdev {
  d_mem : list (option Z);
  d_step : Z;
  d_power : option nat;
  d_torn : Z -> option Z;
  d_torn_step : bool;
  d_off : bool;
  d_bad : bool;
  d_log : list event
}.

Definition cell_value (c : option Z) : Z := match c with Some b => b | None => 255 end.

Definition is_erased (c : option Z) : bool := match c with Some _ => false | None => true end.

(** [mem] with [cells] from address [a] on. *)
Definition blit {A : Type} (mem : list A) (a : Z) (cells : list A) : list A :=
  ztake a mem ++ cells ++ zdrop (a + zlen cells) mem.

(** The addresses a, ..., a + n - 1. *)
Definition addresses (a n : Z) : list Z := map (fun i => a + Z.of_nat i) (seq 0 (Z.to_nat n)).

Definition in_memory (d : dev) (a n : Z) : bool := (0 <=? a) && (0 <=? n) && (a + n <=? zlen (d_mem d)).

(** The operation goes through: one less until power is lost. *)
Definition tick (d : dev) (mem : list (option Z)) (step : Z) (e : event) : dev :=
  mkdev mem step (match d_power d with Some (S k) => Some k | p => p end)
        (d_torn d) (d_torn_step d) (d_off d) (d_bad d) (d_log d ++ [e]).

(** Power is lost. *)
Definition lose_power (d : dev) (mem : list (option Z)) (step : Z) (log : list event) : dev :=
  mkdev mem step (d_power d) (d_torn d) (d_torn_step d) true (d_bad d) log.

Definition set_bad (d : dev) : dev :=
  mkdev (d_mem d) (d_step d) (d_power d) (d_torn d) (d_torn_step d) (d_off d) true (d_log d).

Definition power_lost_now (d : dev) : bool :=
  match d_power d with Some O => true | _ => false end.

Definition flash_read (d : dev) (a n : Z) : Z * list Z * dev :=
  if d_off d then (-1, [], d)
  else if negb (in_memory d a n) then (-1, [], set_bad d)
  else if power_lost_now d then (-1, [], lose_power d (d_mem d) (d_step d) (d_log d))
  else (0, map cell_value (ztake n (zdrop a (d_mem d))), tick d (d_mem d) (d_step d) (ERead a n)).

Definition flash_erase (d : dev) (a n : Z) : Z * dev :=
  if d_off d then (-1, d)
  else if negb (in_memory d a n) then (-1, set_bad d)
  else if power_lost_now d
  then (-1, lose_power d (blit (d_mem d) a (map (d_torn d) (addresses a n))) (d_step d) (d_log d))
  else (0, tick d (blit (d_mem d) a (zrepeat None n)) (d_step d) (EErase a n)).

Definition flash_write (d : dev) (a : Z) (data : list Z) : Z * dev :=
  let n := zlen data in
  if d_off d then (-1, d)
  else if negb (in_memory d a n && forallb is_erased (ztake n (zdrop a (d_mem d)))) then (-1, set_bad d)
  else if power_lost_now d
  then (-1, lose_power d (blit (d_mem d) a (map (d_torn d) (addresses a n))) (d_step d) (d_log d))
  else (0, tick d (blit (d_mem d) a (map Some data)) (d_step d) (EWrite a n)).

Definition record_step (d : dev) (step : Z) : Z * dev :=
  if d_off d then (-1, d)
  else if power_lost_now d
  then (-1, if d_torn_step d then lose_power d (d_mem d) step (d_log d ++ [EStep step])
            else lose_power d (d_mem d) (d_step d) (d_log d))
  else (0, tick d (d_mem d) step (EStep step)).

Definition recorded_step (d : dev) : Z * Z * dev :=
  if d_off d then (-1, 0, d) else (0, d_step d, d).

Definition flash_env : ip_env dev :=
  mkipenv dev flash_read flash_write flash_erase (Some record_step) (Some recorded_step).

(** The same flash memory, except that reading an erased cell fails. *)
Definition strict_read (d : dev) (a n : Z) : Z * list Z * dev :=
  if existsb is_erased (ztake n (zdrop a (d_mem d))) then (-1, [], d) else flash_read d a n.

Definition flash_env_of (strict : bool) : ip_env dev :=
  mkipenv dev (if strict then strict_read else flash_read) flash_write flash_erase (Some record_step) (Some recorded_step).

Definition strict_flash_env : ip_env dev := flash_env_of true.

(** The device powered up (again): memory and recorded step are what they were. *)
Definition power_up (d : dev) (power : option nat) (torn : Z -> option Z) (torn_step : bool) : dev :=
  mkdev (d_mem d) (d_step d) power torn torn_step false false [].

(** The memory holds [data] at its start. *)
Definition holds (mem : list (option Z)) (data : list Z) : Prop :=
  map cell_value (ztake (zlen data) mem) = data.

(** A new device with the given memory, on which nothing has been started. *)
Definition new_device (mem : list (option Z)) : dev :=
  mkdev mem 0 None (fun _ => None) false false false [].

(** For the compression none the whole header must be in the first piece (see C04);
    [pieces] is any division of the patch. *)
Definition division (c : comp) (memory segment shift from_size to_size : Z)
           (patch : list Z) (pieces : list (list Z)) : Prop :=
  concat pieces = patch /\
  (c = CompNone ->
   zlen (in_place_header c memory segment shift from_size to_size) <= zlen (hd [] pieces)).

(** [interrupted patch_size ok d d']: any number of attempts at applying the patch, each
    started from the beginning of the patch on the powered up device, each ended by
    an error before the final resetting of the step, lead from [d] to [d'].
    [ok pieces] are the allowed divisions of the patch. *)
Inductive interrupted `{WordBits} (patch_size : Z) (ok : list (list Z) -> Prop) : dev -> dev -> Prop :=
| interrupted_never : forall d, interrupted patch_size ok d d
| interrupted_once_more : forall d power torn torn_step fuel junk pieces r s d1 d2,
    ok pieces ->
    ip_apply flash_env fuel junk patch_size (power_up d power torn torn_step) pieces = Ret (r, s, d1) ->
    r < 0 ->
    ~ In (EStep 0) (d_log d1) ->
    interrupted patch_size ok d1 d2 ->
    interrupted patch_size ok d d2.

(** ** Steps

    Moving one segment up is a step (the last segment first), and so is writing one
    to segment.  The cells a step erases and writes: *)
Definition segments_of (n segment : Z) : Z := (n + segment - 1) / segment.

(** Number of segments to move up. *)
Definition shift_steps (memory segment shift from_size : Z) : Z :=
  segments_of (Z.min from_size (memory - shift)) segment.

Definition total_steps (memory segment shift from_size to_size : Z) : Z :=
  shift_steps memory segment shift from_size + segments_of to_size segment.

(** First address and size of the area of step [j] (counted from 1). *)
Definition step_area (memory segment shift from_size to_size j : Z) : Z * Z :=
  let n := shift_steps memory segment shift from_size in
  if j <=? n then (shift + (n - j) * segment, segment)
  else ((j - n - 1) * segment, Z.min segment (to_size - (j - n - 1) * segment)).

(** [within (a, n) b k]: addresses b, ..., b + k - 1 lie in the area. *)
Definition within (area : Z * Z) (b k : Z) : Prop :=
  fst area <= b /\ 0 <= k /\ b + k <= fst area + snd area.

(** A memory operation that belongs to step [j]: it erases or writes in the area of
    the step, or reads elsewhere in the memory. *)
Definition event_of_step (memory segment shift from_size to_size j : Z) (e : event) : Prop :=
  let area := step_area memory segment shift from_size to_size j in
  match e with
  | ERead b k => within (0, memory) b k /\ (b + k <= fst area \/ fst area + snd area <= b)
  | EErase b k => within area b k
  | EWrite b k => within area b k
  | EStep _ => False
  end.

(** [steps_log ... c j log]: the operations of steps c + 1, ..., j, in order, each
    step followed by the recording of its number. *)
Inductive steps_log (memory segment shift from_size to_size : Z) (c : Z) : Z -> list event -> Prop :=
| steps_log_none : steps_log memory segment shift from_size to_size c c []
| steps_log_step : forall j log ops,
    steps_log memory segment shift from_size to_size c j log ->
    Forall (event_of_step memory segment shift from_size to_size (j + 1)) ops ->
    steps_log memory segment shift from_size to_size c (j + 1) (log ++ ops ++ [EStep (j + 1)]).

(** An operation within the memory of the given size. *)
Definition event_in_memory (memory : Z) (e : event) : Prop :=
  match e with
  | ERead b k | EErase b k | EWrite b k => within (0, memory) b k
  | EStep _ => True
  end.
