(** Theorems about creating patches and about the callback API.  Every proof is an
    application of a lemma of the other files. *)

From Coq Require Import ZArith List Bool.
From Verif Require Import Prelude Heatshrink CReader CSeq Spec Bsdiff BsdiffSpec PyCreate CallbackSpec.
From Verif Require Import BsdiffProofs BsdiffRefuted CallbackProofs CreateProofs CreateExamples.
Import ListNotations.
Open Scope Z_scope.

(** C01: a sequential patch is created whatever in-range array the match search is
    given, and applying it with the callback API, to the same from file, returns
    the size of the to file and writes exactly the to file.  [hs] is the output of
    the external heatshrink compressor.  For crle the body must be shorter than
    2^28 bytes, the limit of the C reader. *)
Theorem C01_round_trip : forall (wb : WordBits), 32 <= word_bits ->
  forall junk c hs sa from to, array_ok sa from -> bytes_ok to -> zlen from < 2 ^ 27 -> zlen to < 2 ^ 27 ->
  (c = CompCrle -> forall chunks, create_patch sa from to = Ret (Some chunks) -> 1 + zlen (concat chunks) < 2 ^ 28) ->
  (c = CompHeatshrink -> forall pieces, bytes_ok (concat pieces) -> compressed CompHeatshrink (concat pieces) (hs pieces)) ->
  exists patch, create_sequential c hs sa from to = Ret (Some patch) /\
    (zlen patch + 128 < 2 ^ word_bits ->
     exists n, forall fuel, (n <= fuel)%nat ->
       exists s w pos,
         apply_patch_callbacks (env_with file_env Z) fuel junk (patch_file patch) (zlen patch) (mkfiles from 0 [], 0)
           = Ret (zlen to, s, (w, pos)) /\ f_to w = to).
Proof. exact @create_apply. Qed.
Print Assumptions C01_round_trip.

Example C01_example :
  array_ok ex_sa ex_from /\ bytes_ok ex_to /\
  (forall chunks, create_patch ex_sa ex_from ex_to = Ret (Some chunks) -> 1 + zlen (concat chunks) < 2 ^ 28) /\
  (forall pieces, bytes_ok (concat pieces) -> compressed CompHeatshrink (concat pieces) (literals pieces)).
Proof. exact (conj ex_array (conj ex_to_bytes (conj ex_body literals_ok))). Qed.

Example C01_run : exists patch s w pos, create_sequential CompCrle literals ex_sa ex_from ex_to = Ret (Some patch) /\
  @apply_patch_callbacks (64 : WordBits) _ (env_with file_env Z) 100 junk_ap (patch_file patch) (zlen patch) (mkfiles ex_from 0 [], 0) = Ret (28, s, (w, pos)) /\
  f_to w = ex_to.
Proof. exact ex_run_crle. Qed.

(** C25: whatever in-range array is searched, the records produced rebuild the to
    data, add up to its size and stay inside the from data. *)
Theorem C25_correct : forall sa from to, array_ok sa from -> bytes_ok to -> zlen from < 2 ^ 30 -> zlen to < 2 ^ 30 -> to <> [] ->
  exists chunks recs, create_patch sa from to = Ret (Some chunks) /\ concat chunks = enc_recs recs /\
    apply_recs from 0 recs = Some to /\ recs_size recs = zlen to /\ last_nonempty recs /\
    Forall (fun p => 0 <= p <= zlen from) (positions 0 recs).
Proof. exact create_correct. Qed.
Print Assumptions C25_correct.

Example C25_example : array_ok ex_sa ex_from /\ bytes_ok ex_to /\
  exists chunks, create_patch ex_sa ex_from ex_to = Ret (Some chunks) /\ (5 < length chunks)%nat.
Proof. exact (conj ex_array (conj ex_to_bytes ex_created)). Qed.

(** C26 and the positive half of C27: in-range arrays, files below 2^30 bytes.  Every
    access of an array is in bounds, no int32 computation overflows and every loop
    ends: the result is neither [Undef] nor [OutOfFuel]. *)
Theorem C26_in_bounds : forall sa from to, array_ok sa from -> bytes_ok to -> zlen from < 2 ^ 30 -> zlen to < 2 ^ 30 ->
  exists chunks, create_patch sa from to = Ret (Some chunks).
Proof. exact create_safe. Qed.
Print Assumptions C26_in_bounds.

Example C26_example : array_ok ex_sa ex_from /\ bytes_ok ex_to /\ array_ok [3; 0; 0; 2] [7; 7; 7].
Proof. exact (conj ex_array (conj ex_to_bytes ex_bad_array)). Qed.

(** C27 is false for files of 2^30 bytes or more. *)
Theorem C27_refuted : forall n, 2 ^ 30 <= n < 2 ^ 31 ->
  exists sa, is_suffix_array sa (zrepeat 0 n) /\ create_patch sa (zrepeat 0 n) (zrepeat 0 n) = Undef.
Proof. exact c27_refuted. Qed.
Print Assumptions C27_refuted.

Example C27_example : 2 ^ 30 <= 2 ^ 31 - 1 < 2 ^ 31.
Proof. exact ex_c27. Qed.

(** C28, first half: what the search returns is a true match. *)
Theorem C28_true_match : forall sa from to t, array_ok sa from -> zlen from < 2 ^ 30 -> zlen to < 2 ^ 30 -> 0 <= t <= zlen to ->
  exists len pos, search (length sa) sa from (zlen from) to t (zlen to - t) 0 (zlen from) = Ret (len, pos) /\
    0 <= pos <= zlen from /\ In pos sa /\ len = lcp (zdrop pos from) (zdrop t to).
Proof. exact search_true. Qed.
Print Assumptions C28_true_match.

Example C28_example : array_ok ex_sa ex_from /\
  search (length ex_sa) ex_sa ex_from (zlen ex_from) ex_to 13 (zlen ex_to - 13) 0 (zlen ex_from) = Ret (9, 0).
Proof. exact (conj ex_array ex_search). Qed.

(** C28, second half: the match need not be the longest one. *)
Theorem C28_refuted : exists sa from to len pos other,
  is_suffix_array sa from /\
  search (length sa) sa from (zlen from) to 0 (zlen to) 0 (zlen from) = Ret (len, pos) /\
  0 <= other <= zlen from /\ len < lcp (zdrop other from) to.
Proof. exact c28_refuted. Qed.
Print Assumptions C28_refuted.

(** C40: whatever the callbacks do, the patch is requested in pieces of 1 to 512
    bytes that add up to at most patch_size, and to exactly patch_size unless the
    call fails, and the final state is that of a call of finalize(). *)
Theorem C40_requests : forall (wb : WordBits) W (E : seq_env W) patch_read fuel junk ps w v s1 w1 log, 0 <= ps ->
  apply_patch_callbacks (env_with E (list Z)) fuel junk (recorded patch_read) ps (w, []) = Ret (v, s1, (w1, log)) ->
  Forall (fun n => 1 <= n <= 512) log /\ sum log <= ps /\ (0 <= v -> sum log = ps) /\
  exists f r s0 w0, finalize E f 128 s0 w0 = Ret (r, s1, w1).
Proof. exact @callbacks_requests. Qed.
Print Assumptions C40_requests.

Example C40_example : exists s w, @apply_patch_callbacks (32 : WordBits) _ (env_with (mkenv unit (fun w n => (0, zrepeat 0 n, w)) (fun w _ => (0, w)) (fun w _ => (0, w))) (list Z)) 9 junk_ap
    (recorded (fun w n => (0, 2 :: 0 :: zrepeat 0 (n - 2), w))) 600 (tt, []) = Ret (0, s, (w, [512; 88])).
Proof. exact ex_log. Qed.

(** C40: the pieces are passed on in order, nothing else is: with a patch file, the
    result is that of feeding the pieces of the patch one after the other. *)
Theorem C40_in_order : forall (wb : WordBits) W (E : seq_env W) junk patch w,
  exists pieces, concat pieces = patch /\ Forall (fun p => zlen p <= 512) pieces /\
  forall n v s1 w1, feed E n 128 (ap_init junk (zlen patch)) w pieces = Ret (v, s1, w1) ->
  exists m pos, forall fuel, (m <= fuel)%nat ->
    apply_patch_callbacks (env_with E Z) fuel junk (patch_file patch) (zlen patch) (w, 0) = Ret (v, s1, (w1, pos)).
Proof. exact @callbacks_in_order. Qed.
Print Assumptions C40_in_order.

Example C40_in_order_example : exists s w, @c_apply (32 : WordBits) 50 junk_ap 4 [] [[0; 0]; [9]; [7]] = Ret (- E_CORRUPT_PATCH, s, w).
Proof. exact ex_feed. Qed.
