(** Small specification of the patch format, written from the format description
    in /repo/docs/index.rst and independent of the code
    models.  Theorems about the code are stated against these definitions. *)

From Coq Require Import ZArith List Bool.
From Verif Require Import Prelude.
Import ListNotations.
Open Scope Z_scope.

(** ** Size fields

    A size is a sign and a magnitude.  The first byte holds the sign (0x40) and
    the 6 least significant bits, each following byte 7 more bits; 0x80 marks
    that another byte follows. *)

(** 7 bit groups, least significant first, of a magnitude [> 0]; nothing for 0.
    [k] bounds the number of groups (10 groups cover 64 bit values). *)
Fixpoint enc_groups (k : nat) (a : Z) : list Z :=
  match k with
  | O => []
  | S k' =>
      if a =? 0 then []
      else if a <? 128 then [a]
      else (a mod 128 + 128) :: enc_groups k' (a / 128)
  end.

Definition enc_size (v : Z) : list Z :=
  let a := Z.abs v in
  let s := if v <? 0 then 64 else 0 in
  if a <? 64 then [s + a]
  else (128 + s + a mod 64) :: enc_groups 10 (a / 64).

(** Unsigned sizes used inside CRLE streams: plain 7 bit groups, at least one. *)
Definition enc_usize (a : Z) : list Z :=
  if a =? 0 then [0] else enc_groups 10 a.

(** ** Patch records *)

Record prec := mkrec { r_diff : list Z; r_extra : list Z; r_adj : Z }.

(** Byte-wise sum modulo 256. *)
Fixpoint add_mod (a b : list Z) : list Z :=
  match a, b with
  | x :: a', y :: b' => (x + y) mod 256 :: add_mod a' b'
  | _, _ => []
  end.

(** [n] bytes of [from] starting at [pos], if they are all there. *)
Definition slice (from : list Z) (pos n : Z) : option (list Z) :=
  if n =? 0 then Some []
  else if (0 <=? pos) && (pos + n <=? zlen from)
  then Some (ztake n (zdrop pos from)) else None.

(** The data described by a list of records: each record adds its diff bytes to
    the from data at the current position, appends its extra bytes and moves the
    position.  The position may never become negative. *)
Fixpoint apply_recs (from : list Z) (pos : Z) (recs : list prec) : option (list Z) :=
  match recs with
  | [] => Some []
  | r :: rs =>
      match slice from pos (zlen (r_diff r)) with
      | None => None
      | Some f =>
          let pos' := pos + zlen (r_diff r) + r_adj r in
          if pos' <? 0 then None
          else match apply_recs from pos' rs with
               | None => None
               | Some rest => Some (add_mod (r_diff r) f ++ r_extra r ++ rest)
               end
      end
  end.

(** Positions reached after each record (for bounds on the C [int] offset). *)
Fixpoint positions (pos : Z) (recs : list prec) : list Z :=
  match recs with
  | [] => []
  | r :: rs =>
      let p1 := pos + zlen (r_diff r) in
      p1 :: (p1 + r_adj r) :: positions (p1 + r_adj r) rs
  end.

Definition rec_size (r : prec) : Z := zlen (r_diff r) + zlen (r_extra r).

Definition recs_size (recs : list prec) : Z :=
  fold_right (fun r n => rec_size r + n) 0 recs.

(** The last record must produce something: an applier stops as soon as all the
    announced bytes are there. *)
Definition last_nonempty (recs : list prec) : Prop :=
  exists rs r, recs = rs ++ [r] /\ 0 < rec_size r.

(** Serialised body: the size of the (absent) data-format patch, then the records. *)
Definition enc_rec (r : prec) : list Z :=
  enc_size (zlen (r_diff r)) ++ r_diff r ++
  enc_size (zlen (r_extra r)) ++ r_extra r ++ enc_size (r_adj r).

Definition enc_recs (recs : list prec) : list Z := flat_map enc_rec recs.

Definition enc_body (recs : list prec) : list Z := enc_size 0 ++ enc_recs recs.

(** Patch kinds and compressions, as numbered in the header byte. *)
Definition TYPE_SEQUENTIAL : Z := 0.
Definition TYPE_IN_PLACE : Z := 1.
Inductive comp := CompNone | CompCrle | CompHeatshrink.
Definition comp_number (c : comp) : Z :=
  match c with CompNone => 0 | CompCrle => 2 | CompHeatshrink => 4 end.

Definition header_byte (type : Z) (c : comp) : Z := type * 16 + comp_number c.

(** ** CRLE streams *)

Inductive seg :=
| Scattered (data : list Z)
| Repeated (count : Z) (value : Z).

Definition seg_expand (s : seg) : list Z :=
  match s with
  | Scattered d => d
  | Repeated n v => zrepeat v n
  end.

Definition seg_len (s : seg) : Z :=
  match s with Scattered d => zlen d | Repeated n _ => n end.

Definition enc_seg (s : seg) : list Z :=
  match s with
  | Scattered d => 0 :: enc_usize (zlen d) ++ d
  | Repeated n v => 1 :: enc_usize n ++ [v]
  end.

Definition segs_expand (l : list seg) : list Z := flat_map seg_expand l.
Definition enc_segs (l : list seg) : list Z := flat_map enc_seg l.

(** ** LZSS (heatshrink) streams *)

Inductive token :=
| Lit (b : Z)
| Ref (dist count : Z).

(** [n] bits of [v], most significant first. *)
Fixpoint to_bits (n : nat) (v : Z) : list bool :=
  match n with
  | O => []
  | S n' => Z.testbit v (Z.of_nat n') :: to_bits n' v
  end.

Definition enc_token (wb lb : Z) (t : token) : list bool :=
  match t with
  | Lit b => true :: to_bits 8 b
  | Ref d c => false :: to_bits (Z.to_nat wb) (d - 1) ++ to_bits (Z.to_nat lb) (c - 1)
  end.

Definition token_ok (wb lb : Z) (t : token) : Prop :=
  match t with
  | Lit b => byte_ok b
  | Ref d c => 1 <= d <= 2 ^ wb /\ 1 <= c <= 2 ^ lb
  end.

Definition enc_tokens (wb lb : Z) (ts : list token) : list bool :=
  flat_map (enc_token wb lb) ts.

(** [hist] is everything output so far, most recent byte first; what lies before
    the beginning counts as zeros. *)
Fixpoint copy_back (n : nat) (dist : Z) (hist : list Z) : list Z * list Z :=
  match n with
  | O => ([], hist)
  | S n' =>
      let c := nth (Z.to_nat (dist - 1)) hist 0 in
      let (out, hist') := copy_back n' dist (c :: hist) in
      (c :: out, hist')
  end.

Fixpoint tokens_expand (hist : list Z) (ts : list token) : list Z :=
  match ts with
  | [] => []
  | Lit b :: ts' => b :: tokens_expand (b :: hist) ts'
  | Ref d c :: ts' =>
      let (out, hist') := copy_back (Z.to_nat c) d hist in
      out ++ tokens_expand hist' ts'
  end.

Definition bytes_bits (l : list Z) : list bool := flat_map (to_bits 8) l.

(** ** Compressed bodies *)

(** [compressed c body stream]: [stream] is a valid encoding of [body].  For crle
    any segmentation into non-empty segments of less than 2^28 bytes is allowed,
    for heatshrink any tokenisation, padded to a byte boundary with arbitrary bits. *)
Inductive compressed : comp -> list Z -> list Z -> Prop :=
| compressed_none : forall body, compressed CompNone body body
| compressed_crle : forall segs,
    Forall (fun s => 1 <= seg_len s < 2 ^ 28) segs ->
    compressed CompCrle (segs_expand segs) (enc_segs segs)
| compressed_heatshrink : forall ts pad bytes,
    Forall (token_ok 8 7) ts ->
    bytes_ok bytes ->
    (length pad < 8)%nat ->
    bytes_bits bytes = enc_tokens 8 7 ts ++ pad ->
    compressed CompHeatshrink (tokens_expand [] ts) (68 :: bytes).

(** ** Sequential patches *)

(** [seq_patch c recs patch]: [patch] is a sequential patch with compression [c]
    whose records are [recs].  A patch that creates an empty file has no records
    and no body at all. *)
Definition seq_patch (c : comp) (recs : list prec) (patch : list Z) : Prop :=
  (recs = [] /\ patch = header_byte TYPE_SEQUENTIAL c :: enc_size 0) \/
  (last_nonempty recs /\
   exists stream,
     compressed c (enc_body recs) stream /\
     patch = header_byte TYPE_SEQUENTIAL c :: enc_size (recs_size recs) ++ stream).

(** Which compression the first byte of a patch announces. *)
Definition announced_comp (patch : list Z) : Z := Z.land (hd 0 patch) 15.

(** [header_complete piece]: a piece that starts at the beginning of a sequential
    patch holds its whole header, that is the type byte and the complete to-size
    field (up to and including the first byte without the 0x80 marker). *)
Definition header_complete (piece : list Z) : bool :=
  match piece with
  | [] => false
  | _ :: l => existsb (fun b => b <? 128) l
  end.

(** What follows the first complete size field. *)
Fixpoint after_size (l : list Z) : list Z :=
  match l with
  | [] => []
  | b :: l' => if b <? 128 then l' else after_size l'
  end.

(** The (compressed) body of a sequential patch. *)
Definition body_of (patch : list Z) : list Z := after_size (tl patch).

(** Value of the unsigned size at the beginning of [l], and what follows it. *)
Fixpoint dec_usize (l : list Z) : option (Z * list Z) :=
  match l with
  | [] => None
  | b :: l' =>
      if b <? 128 then Some (b, l')
      else match dec_usize l' with
           | None => None
           | Some (v, rest) => Some (b - 128 + 128 * v, rest)
           end
  end.

(** [crle_clean k l]: no segment of length zero among the first [k] segments of
    the crle stream [l], which may be truncated or corrupt. *)
Fixpoint crle_clean (k : nat) (l : list Z) : bool :=
  match k, l with
  | S k', kind :: l1 =>
      if (kind =? 0) || (kind =? 1) then
        match dec_usize l1 with
        | None => true
        | Some (n, rest) =>
            if n =? 0 then false
            else crle_clean k' (if kind =? 0 then zdrop n rest else tl rest)
        end
      else true
  | _, _ => true
  end.

(** No segment of length zero at all (a segment takes at least two bytes). *)
Definition no_empty_segment (l : list Z) : bool := crle_clean (length l) l.

(** [size_limit]: largest magnitude + 1 of a size field that the C code accepts. *)
Definition size_limit : Z := 2 ^ 27.

(** Records within the limits of the C code. *)
Definition recs_in_limits (recs : list prec) : Prop :=
  recs_size recs < size_limit /\
  Forall (fun r => - size_limit < r_adj r < size_limit) recs /\
  Forall (fun p => p <= INT_MAX) (positions 0 recs).
