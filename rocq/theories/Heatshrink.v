(** Model of c/heatshrink/heatshrink_decoder.c.

    The decoder is modelled for any window size [wb] and lookahead size [lb]
    (in bits); the static build uses 8 and 7 (heatshrink_config.h:16-17).
    The array [buffers] (input buffer followed by the expansion window,
    heatshrink_decoder.h:61) is represented by two lists; an index outside its
    own part is [Undef], although a small overrun of the input part would in C
    still land in the same array. *)

From Coq Require Import ZArith List Bool.
From Verif Require Import Prelude.
Import ListNotations.
Open Scope Z_scope.

(** heatshrink_decoder.c: HSD_state, heatshrink_decoder.c:6-15. *)
Inductive hstate :=
| TAG_BIT | YIELD_LITERAL | BACKREF_INDEX_MSB | BACKREF_INDEX_LSB
| BACKREF_COUNT_MSB | BACKREF_COUNT_LSB | YIELD_BACKREF.

Definition hstate_eqb (a b : hstate) : bool :=
  match a, b with
  | TAG_BIT, TAG_BIT | YIELD_LITERAL, YIELD_LITERAL
  | BACKREF_INDEX_MSB, BACKREF_INDEX_MSB | BACKREF_INDEX_LSB, BACKREF_INDEX_LSB
  | BACKREF_COUNT_MSB, BACKREF_COUNT_MSB | BACKREF_COUNT_LSB, BACKREF_COUNT_LSB
  | YIELD_BACKREF, YIELD_BACKREF => true
  | _, _ => false
  end.

(** struct heatshrink_decoder, heatshrink_decoder.h:44-67. *)
Record hsd := mkhsd {
  h_input_size : Z;
  h_input_index : Z;
  h_output_count : Z;
  h_output_index : Z;
  h_head_index : Z;
  h_state : hstate;
  h_current_byte : Z;
  h_bit_index : Z;
  h_in : list Z;      (* buffers[0 .. 256) *)
  h_win : list Z      (* buffers[256 .. 256 + 2^wb) *)
}.

Definition HS_INPUT_BUFFER_SIZE : Z := 256.

Definition set_state (d : hsd) (s : hstate) : hsd :=
  mkhsd (h_input_size d) (h_input_index d) (h_output_count d) (h_output_index d)
        (h_head_index d) s (h_current_byte d) (h_bit_index d) (h_in d) (h_win d).

Definition set_output_index (d : hsd) (x : Z) : hsd :=
  mkhsd (h_input_size d) (h_input_index d) (h_output_count d) x
        (h_head_index d) (h_state d) (h_current_byte d) (h_bit_index d) (h_in d) (h_win d).

Definition set_output_count (d : hsd) (x : Z) : hsd :=
  mkhsd (h_input_size d) (h_input_index d) x (h_output_index d)
        (h_head_index d) (h_state d) (h_current_byte d) (h_bit_index d) (h_in d) (h_win d).

Definition set_window (d : hsd) (head : Z) (win : list Z) : hsd :=
  mkhsd (h_input_size d) (h_input_index d) (h_output_count d) (h_output_index d)
        head (h_state d) (h_current_byte d) (h_bit_index d) (h_in d) win.

Definition set_input (d : hsd) (size index cur bit : Z) : hsd :=
  mkhsd size index (h_output_count d) (h_output_index d)
        (h_head_index d) (h_state d) cur bit (h_in d) (h_win d).

(** heatshrink_decoder_reset, heatshrink_decoder.c:80-92. *)
Definition hs_reset (wb : Z) : hsd :=
  mkhsd 0 0 0 0 0 TAG_BIT 0 0 (zrepeat 0 HS_INPUT_BUFFER_SIZE) (zrepeat 0 (2 ^ wb)).

(** heatshrink_decoder_sink with size = 1, heatshrink_decoder.c:95-113 (the only
    way detools calls it, detools.c:308-311).  Returns [None] for HSDR_SINK_FULL
    (then *input_size = 0). *)
Definition hs_sink1 (d : hsd) (b : Z) : outcome (option hsd) :=
  if HS_INPUT_BUFFER_SIZE - h_input_size d =? 0 then Ret None
  else match zupd (h_in d) (h_input_size d) b with
       | None => Undef
       | Some l =>
           Ret (Some (mkhsd (h_input_size d + 1) (h_input_index d) (h_output_count d)
                            (h_output_index d) (h_head_index d) (h_state d)
                            (h_current_byte d) (h_bit_index d) l (h_win d)))
       end.

(** The loading of the next input byte inside get_bits,
    heatshrink_decoder.c:303-316; [None]: no input left. *)
Definition hs_load (d : hsd) : outcome (option hsd) :=
  if h_bit_index d =? 0 then
    if h_input_size d =? 0 then Ret None
    else match znth (h_in d) (h_input_index d) with
         | None => Undef
         | Some b =>
             let ii := h_input_index d + 1 in
             if ii =? h_input_size d
             then Ret (Some (set_input d 0 0 b 128))
             else Ret (Some (set_input d (h_input_size d) ii b 128))
         end
  else Ret (Some d).

(** The loop of get_bits, heatshrink_decoder.c:302-331. *)
Fixpoint get_bits_loop (k : nat) (acc : Z) (d : hsd) : outcome (option Z * hsd) :=
  match k with
  | O => Ret (Some acc, d)
  | S k' =>
      letm o := hs_load d in
      match o with
      | None => Ret (None, d)
      | Some d1 =>
          let acc1 := (acc * 2) mod 65536 in
          let acc2 := if Z.land (h_current_byte d1) (h_bit_index d1) =? 0
                      then acc1 else Z.lor acc1 1 in
          get_bits_loop k' acc2
            (set_input d1 (h_input_size d1) (h_input_index d1) (h_current_byte d1)
                       (Z.shiftr (h_bit_index d1) 1))
      end
  end.

(** get_bits, heatshrink_decoder.c:288-335.  [None] stands for NO_BITS (0xffff),
    which no accumulated value of at most 15 bits can equal. *)
Definition get_bits (d : hsd) (count : Z) : outcome (option Z * hsd) :=
  if 15 <? count then Ret (None, d)
  else if (h_input_size d =? 0) && (h_bit_index d <? Z.shiftl 1 (count - 1))
  then Ret (None, d)
  else get_bits_loop (Z.to_nat count) 0 d.

(** st_tag_bit, heatshrink_decoder.c:186-198. *)
Definition st_tag_bit (wb : Z) (d : hsd) : outcome hsd :=
  letm (ob, d1) := get_bits d 1 in
  match ob with
  | None => Ret (set_state d1 TAG_BIT)
  | Some b =>
      if negb (b =? 0) then Ret (set_state d1 YIELD_LITERAL)
      else if 8 <? wb then Ret (set_state d1 BACKREF_INDEX_MSB)
      else Ret (set_state (set_output_index d1 0) BACKREF_INDEX_LSB)
  end.

(** st_yield_literal, heatshrink_decoder.c:200-218; [n] is the output buffer
    size, [out] what has been pushed to it. *)
Definition st_yield_literal (wb n : Z) (d : hsd) (out : list Z) : outcome (hsd * list Z) :=
  if zlen out <? n then
    letm (ob, d1) := get_bits d 8 in
    match ob with
    | None => Ret (set_state d1 YIELD_LITERAL, out)
    | Some b =>
        let mask := 2 ^ wb - 1 in
        let c := Z.land b 255 in
        match zupd (h_win d1) (Z.land (h_head_index d1) mask) c with
        | None => Undef
        | Some w =>
            Ret (set_state (set_window d1 ((h_head_index d1 + 1) mod 65536) w) TAG_BIT,
                 out ++ [c])
        end
    end
  else Ret (set_state d YIELD_LITERAL, out).

(** st_backref_index_msb, heatshrink_decoder.c:220-228. *)
Definition st_backref_index_msb (wb : Z) (d : hsd) : outcome hsd :=
  letm (ob, d1) := get_bits d (wb - 8) in
  match ob with
  | None => Ret (set_state d1 BACKREF_INDEX_MSB)
  | Some b => Ret (set_state (set_output_index d1 (Z.shiftl b 8 mod 65536)) BACKREF_INDEX_LSB)
  end.

(** st_backref_index_lsb, heatshrink_decoder.c:230-240. *)
Definition st_backref_index_lsb (wb lb : Z) (d : hsd) : outcome hsd :=
  letm (ob, d1) := get_bits d (if wb <? 8 then wb else 8) in
  match ob with
  | None => Ret (set_state d1 BACKREF_INDEX_LSB)
  | Some b =>
      let d2 := set_output_index d1 ((Z.lor (h_output_index d1) b + 1) mod 65536) in
      let d3 := set_output_count d2 0 in
      Ret (set_state d3 (if 8 <? lb then BACKREF_COUNT_MSB else BACKREF_COUNT_LSB))
  end.

(** st_backref_count_msb, heatshrink_decoder.c:242-250. *)
Definition st_backref_count_msb (lb : Z) (d : hsd) : outcome hsd :=
  letm (ob, d1) := get_bits d (lb - 8) in
  match ob with
  | None => Ret (set_state d1 BACKREF_COUNT_MSB)
  | Some b => Ret (set_state (set_output_count d1 (Z.shiftl b 8 mod 65536)) BACKREF_COUNT_LSB)
  end.

(** st_backref_count_lsb, heatshrink_decoder.c:252-260. *)
Definition st_backref_count_lsb (lb : Z) (d : hsd) : outcome hsd :=
  letm (ob, d1) := get_bits d (if lb <? 8 then lb else 8) in
  match ob with
  | None => Ret (set_state d1 BACKREF_COUNT_LSB)
  | Some b =>
      Ret (set_state (set_output_count d1 ((Z.lor (h_output_count d1) b + 1) mod 65536))
                     YIELD_BACKREF)
  end.

(** The copy loop of st_yield_backref, heatshrink_decoder.c:275-281. *)
Fixpoint backref_loop (k : nat) (wb neg : Z) (d : hsd) (out : list Z)
  : outcome (hsd * list Z) :=
  match k with
  | O => Ret (d, out)
  | S k' =>
      let mask := 2 ^ wb - 1 in
      match znth (h_win d) (Z.land (h_head_index d - neg) mask) with
      | None => Undef
      | Some c =>
          match zupd (h_win d) (Z.land (h_head_index d) mask) c with
          | None => Undef
          | Some w =>
              backref_loop k' wb neg
                (set_window d ((h_head_index d + 1) mod 65536) w) (out ++ [c])
          end
      end
  end.

(** st_yield_backref, heatshrink_decoder.c:262-286. *)
Definition st_yield_backref (wb n : Z) (d : hsd) (out : list Z) : outcome (hsd * list Z) :=
  let room := n - zlen out in
  if 0 <? room then
    let count := if h_output_count d <? room then h_output_count d else room in
    letm (d1, out1) := backref_loop (Z.to_nat count) wb (h_output_index d) d out in
    let d2 := set_output_count d1 (h_output_count d1 - count) in
    if h_output_count d2 =? 0 then Ret (set_state d2 TAG_BIT, out1)
    else Ret (set_state d2 YIELD_BACKREF, out1)
  else Ret (set_state d YIELD_BACKREF, out).

(** The switch of heatshrink_decoder_poll, heatshrink_decoder.c:147-175. *)
Definition hs_step (wb lb n : Z) (d : hsd) (out : list Z) : outcome (hsd * list Z) :=
  match h_state d with
  | TAG_BIT => letm d1 := st_tag_bit wb d in Ret (d1, out)
  | YIELD_LITERAL => st_yield_literal wb n d out
  | BACKREF_INDEX_MSB => letm d1 := st_backref_index_msb wb d in Ret (d1, out)
  | BACKREF_INDEX_LSB => letm d1 := st_backref_index_lsb wb lb d in Ret (d1, out)
  | BACKREF_COUNT_MSB => letm d1 := st_backref_count_msb lb d in Ret (d1, out)
  | BACKREF_COUNT_LSB => letm d1 := st_backref_count_lsb lb d in Ret (d1, out)
  | YIELD_BACKREF => st_yield_backref wb n d out
  end.

(** The loop of heatshrink_decoder_poll, heatshrink_decoder.c:147-183.  The
    result is the decoder and the bytes pushed; the return value
    (HSDR_POLL_MORE or HSDR_POLL_EMPTY, both non-negative) is not used by
    detools.c:292-300 beyond its sign. *)
Fixpoint hs_poll_loop (fuel : nat) (wb lb n : Z) (d : hsd) (out : list Z)
  : outcome (hsd * list Z) :=
  match fuel with
  | O => OutOfFuel
  | S f =>
      letm (d1, out1) := hs_step wb lb n d out in
      if hstate_eqb (h_state d1) (h_state d) then Ret (d1, out1)
      else hs_poll_loop f wb lb n d1 out1
  end.

(** Every state change consumes at least one input bit, except the one leaving
    YIELD_BACKREF, so the number of state changes is bounded by twice the number
    of buffered bits plus a constant (proved: hs_poll_fuel). *)
Definition hs_poll_fuel (d : hsd) : nat := Z.to_nat (2 * (8 * (h_input_size d + 1)) + 4).

(** heatshrink_decoder_poll, heatshrink_decoder.c:135-184. *)
Definition hs_poll (wb lb n : Z) (d : hsd) : outcome (hsd * list Z) :=
  hs_poll_loop (hs_poll_fuel d) wb lb n d [].

(** heatshrink_decoder_finish, heatshrink_decoder.c:337-361; [true] is
    HSDR_FINISH_DONE. *)
Definition hs_finish (d : hsd) : bool :=
  match h_state d with
  | YIELD_BACKREF => false
  | _ => h_input_size d =? 0
  end.
