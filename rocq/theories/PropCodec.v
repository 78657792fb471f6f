(** Properties of the size codecs, of CRLE and of heatshrink decoding. *)

From Coq Require Import ZArith List Bool.
From Verif Require Import Prelude Heatshrink CReader Spec PySize PyCrle ReaderSpec ReaderDrive SizeCodec CrleProofs CodecExamples SeqExamples.
Import ListNotations.
Open Scope Z_scope.

(** C13: pack_size() writes the format of the specification, and the Python
    reader reads it back, whatever follows. *)
Theorem C13_python : forall v rest, - 2 ^ 63 < v < 2 ^ 63 ->
  py_pack_size v = Ret (Some (enc_size v)) /\ py_unpack_size (enc_size v ++ rest) = Some (v, rest).
Proof. exact py_size_codec_enc. Qed.
Print Assumptions C13_python.

Example C13_python_example : enc_size (-12345) = [249; 64 + 128; 1] /\ py_unpack_size ([249; 192; 1] ++ [7; 7]) = Some (-12345, [7; 7]).
Proof. exact (conj eq_refl eq_refl). Qed.

(** C13: the C reader of size fields inside the body, the field arriving in any
    pieces. *)
Theorem C13_c_body : forall (wb : WordBits), 32 <= word_bits ->
  forall v pieces rest z ps po, - 2 ^ 63 < v < 2 ^ 63 -> concat pieces = enc_size v ++ rest -> bytes_ok rest ->
  z_cons z = false -> 0 <= po -> po + zlen (concat pieces) <= ps -> ps + 128 < 2 ^ word_bits ->
  if Z.abs v <? 2 ^ 27 then size_pieces z (RNone ps po) pieces = Ret (0, v, rest)
  else exists l, size_pieces z (RNone ps po) pieces = Ret (- E_CORRUPT_PATCH_OVERFLOW, 0, l).
Proof. exact @c_size_codec. Qed.
Print Assumptions C13_c_body.

Example C13_c_body_example :
  concat [[249]; []; [192]; [1; 5]] = enc_size (-12345) ++ [5] /\
  @size_pieces (64 : WordBits) (mksz false 9 9 true) (RNone 20 3) [[249]; []; [192]; [1; 5]] = Ret (0, -12345, [5]) /\
  Z.abs (2 ^ 40) <? 2 ^ 27 = false.
Proof. exact (conj eq_refl (conj eq_refl eq_refl)). Qed.

(** C13: the C reader of the sizes in the header (never negative). *)
Theorem C13_c_header : forall v pieces rest z, 0 <= v < 2 ^ 63 -> concat pieces = enc_size v ++ rest -> z_cons z = false ->
  if v <? 2 ^ 27 then header_pieces z pieces = Ret (0, v, rest)
  else exists l, header_pieces z pieces = Ret (- E_CORRUPT_PATCH_OVERFLOW, 0, l).
Proof. exact c_header_codec. Qed.
Print Assumptions C13_c_header.

Example C13_c_header_example :
  concat [[185]; []; [192]; [1; 5]] = enc_size 12345 ++ [5] /\
  header_pieces (mksz false 9 9 true) [[185]; []; [192]; [1; 5]] = Ret (0, 12345, [5]).
Proof. exact (conj eq_refl eq_refl). Qed.

(** C14, for every address but 2^63. *)
Theorem C14_addresses : forall v rest, 0 <= v < 2 ^ 64 -> v <> 2 ^ 63 ->
  exists l, py_pack_usize v = Ret (Some l) /\ py_unpack_usize (l ++ rest) = Some (v, rest).
Proof. exact py_usize_codec. Qed.
Print Assumptions C14_addresses.

Example C14_example : exists l, py_pack_usize (2 ^ 64 - 4096) = Ret (Some l) /\ py_unpack_usize (l ++ [1]) = Some (2 ^ 64 - 4096, [1]).
Proof. exact (ex_intro _ [192; 64] (conj eq_refl eq_refl)). Qed.

(** C14 fails at 2^63: packing it negates the most negative 64 bit integer. *)
Theorem C14_refuted : py_pack_usize (2 ^ 63) = Undef.
Proof. exact eq_refl. Qed.
Print Assumptions C14_refuted.

(** C15: what the compressor returns for [pieces] decompresses to their
    concatenation.  The first part: the compressed bytes arrive in any pieces with
    any requested sizes, and enough further requests follow.  The second part: at
    any time, also if bytes follow the stream, what came out is a prefix of the
    data and the end is not reported early. *)
Theorem C15_lossless : forall pieces, zlen (concat pieces) < 2 ^ 63 ->
  exists stream, crle_compress_all ccomp_init pieces [] = Ret (Ok stream) /\
    (forall calls ns, Forall (fun c => 0 <= snd c) calls -> concat (map fst calls) = stream ->
       Forall (fun n => 1 <= n) ns -> zlen (concat pieces) <= zlen ns ->
       crle_decompress_calls (cdec_init (zlen stream)) (calls ++ map (fun n => ([], n)) ns) [] = Ret (Ok (concat pieces, true))) /\
    (forall calls more, Forall (fun c => 0 <= snd c) calls ->
       (concat (map fst calls) = stream ++ more \/ concat (map fst calls) ++ more = stream) ->
       exists out rest eof, crle_decompress_calls (cdec_init (zlen stream)) calls [] = Ret (Ok (out, eof)) /\
         out ++ rest = concat pieces /\ (eof = true -> rest = [])).
Proof. exact crle_lossless. Qed.
Print Assumptions C15_lossless.

Example C15_example :
  crle_compress_all ccomp_init [[1; 2; 7; 7; 7]; [7; 7; 7; 7]; []; [3]] [] = Ret (Ok [0; 2; 1; 2; 1; 7; 7; 0; 1; 3]) /\
  crle_decompress_calls (cdec_init 10) [([0; 2; 1], 5); ([2; 1], 0); ([7], 1); ([7; 0; 1; 3; 55], 4); ([], 100)] []
    = Ret (Ok ([1; 2; 7; 7; 7; 7; 7; 7; 7; 3], true)).
Proof. exact (conj eq_refl eq_refl). Qed.

(** C16: the C reader decodes what the Python compressor produced. *)
Theorem C16_c_decodes_python : forall (wb : WordBits) pieces, bytes_ok (concat pieces) -> concat pieces <> [] -> zlen (concat pieces) < 2 ^ 28 ->
  exists stream, crle_compress_all ccomp_init pieces [] = Ret (Ok stream) /\
    forall r, reader_init (zlen stream) 2 = Some r ->
    (forall es ns, Forall event_ok es -> Forall (fun n => 1 <= n) ns -> arrived es = stream ->
       zlen (concat pieces) <= zlen ns -> drive r [] [] (es ++ map Ask ns) = Ret (0, concat pieces)) /\
    (forall es more, Forall event_ok es -> arrived es ++ more = stream ->
       exists out rest, drive r [] [] es = Ret (0, out) /\ concat pieces = out ++ rest).
Proof. exact @c_decodes_python. Qed.
Print Assumptions C16_c_decodes_python.

Example C16_example : exists r, reader_init 10 2 = Some r /\
  @drive (64 : WordBits) r [] [] [Arrive [0; 2; 1]; Ask 5; Arrive [2; 1]; Ask 3; Arrive [7; 7]; Ask 2; Ask 1; Arrive [0; 1; 3]; Ask 100; Ask 1]
    = Ret (0, [1; 2; 7; 7; 7; 7; 7; 7; 7; 3]).
Proof. exact ex_c16. Qed.

(** C17: every token sequence is decoded to its expansion, delivered in any
    pieces and requested in any sizes; and at any time what came out is a prefix of
    the expansion and no error is reported. *)
Theorem C17_lzss : forall (wb : WordBits) ts pad bytes r, Forall (token_ok 8 7) ts -> bytes_ok bytes -> (length pad < 8)%nat ->
  bytes_bits bytes = enc_tokens 8 7 ts ++ pad -> reader_init (1 + zlen bytes) 4 = Some r ->
  (forall es ns, Forall event_ok es -> Forall (fun n => 1 <= n) ns -> arrived es = 68 :: bytes ->
     zlen (tokens_expand [] ts) <= zlen ns -> drive r [] [] (es ++ map Ask ns) = Ret (0, tokens_expand [] ts)) /\
  (forall es more, Forall event_ok es -> arrived es ++ more = 68 :: bytes ->
     exists out rest, drive r [] [] es = Ret (0, out) /\ tokens_expand [] ts = out ++ rest).
Proof. exact @lzss_exact. Qed.
Print Assumptions C17_lzss.

Example C17_example : exists ts pad bytes r,
  Forall (token_ok 8 7) ts /\ bytes_ok bytes /\ (length pad < 8)%nat /\
  bytes_bits bytes = enc_tokens 8 7 ts ++ pad /\ reader_init (1 + zlen bytes) 4 = Some r /\
  tokens_expand [] ts = [65; 66; 65; 66; 65; 66; 0; 0; 67].
Proof. exact ex_c17. Qed.

(** C18: any schedule of sinking bytes and polling, any supported window and
    lookahead: no access outside the buffers, no endless loop, polls return at
    most the requested number of bytes. *)
Theorem C18_decoder_safe : forall wb lb, 1 <= wb <= 15 -> 1 <= lb <= 15 ->
  forall cs, Forall hs_call_ok cs -> exists outs,
  hs_calls wb lb (hs_reset wb) cs = Ret outs /\ Forall2 (fun n out => zlen out <= n /\ bytes_ok out) (polls cs) outs.
Proof. exact hs_safe. Qed.
Print Assumptions C18_decoder_safe.

Example C18_decoder_example :
  Forall hs_call_ok [HsSink 10; HsPoll 3; HsSink 255; HsSink 0; HsPoll 100; HsPoll 0] /\
  exists outs, hs_calls 11 4 (hs_reset 11) [HsSink 10; HsPoll 3; HsSink 255; HsSink 0; HsPoll 100; HsPoll 0] = Ret outs.
Proof. exact ex_c18. Qed.

(** C18, driven by the patch reader: on arbitrary bytes in an arbitrary schedule
    the only error is that of an unsupported header byte; in particular no sink or
    poll error. *)
Theorem C18_reader_safe : forall (wb : WordBits) es ps r, reader_init ps 4 = Some r -> Forall event_ok es ->
  exists out, drive r [] [] es = Ret (0, out) \/ drive r [] [] es = Ret (- E_HEATSHRINK_HEADER, out).
Proof. exact @hs_reader_safe_init. Qed.
Print Assumptions C18_reader_safe.

Example C18_reader_example : exists r, reader_init 9 4 = Some r /\
  Forall event_ok [Arrive [68; 200]; Ask 7; Arrive [9; 0; 255]; Ask 1; Ask 300].
Proof. exact ex_c18_reader. Qed.
