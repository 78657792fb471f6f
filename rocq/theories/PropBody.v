(** Theorems about sequential patches of any content.  What a patch describes is in
    BodySpec.v.  Every proof is an application of a lemma of the other files. *)

From Coq Require Import ZArith List Bool.
From Verif Require Import Prelude CReader CSeq Spec SeqSpec PyApply PySpec RefuseSpec BodySpec BodyProofs BodyC BodyPy SeqExamples Refuted BodyThms.
Import ListNotations.
Open Scope Z_scope.

(** C73: if the C functions, fed any patch in any pieces, return a size, then it is the
    size in the header and exactly that many bytes, namely those the body describes,
    have been written.  In an uncompressed patch nothing follows the last record. *)
Theorem C73_meaning : forall (wb : WordBits), 32 <= word_bits ->
  forall fuel junk from patch body c chunks v s w,
  bytes_ok patch -> zlen patch < 2 ^ word_bits -> announced_comp patch = comp_number c -> compressed c body (body_of patch) ->
  bytes_ok body -> zlen body < 2 ^ 31 -> concat chunks = patch ->
  c_apply fuel junk (zlen patch) from chunks = Ret (v, s, w) -> 0 <= v ->
  announced_size patch = Some v /\ exists rest, described from v body = Some (f_to w, rest) /\ (c = CompNone -> rest = []).
Proof. exact @accepted. Qed.
Print Assumptions C73_meaning.

(** C73, the length: what is described has the size announced. *)
Theorem C73_length : forall from n body to rest, 0 <= n -> described from n body = Some (to, rest) -> zlen to = n.
Proof. exact described_size. Qed.
Print Assumptions C73_length.

(** C73, Python: a patch that describes something is applied, if nothing follows the
    last record, and refused otherwise (an empty to file is written without a look at
    the body). *)
Theorem C73_python : forall X F hdiff clamps from patch body c n to rest,
  bytes_ok patch -> bytes_ok body -> patch_type (hd 0 patch) = 0 -> announced_comp patch = comp_number c -> compressed c body (body_of patch) ->
  (c = CompHeatshrink -> hs_reader_ok (x_heatshrink X)) ->
  announced_size patch = Some n -> Z.testbit (nth 1 patch 0) 6 = false -> 0 <= n -> described from n body = Some (to, rest) ->
  exists m, forall fuel, (m <= fuel)%nat ->
    apply_patch X F hdiff fuel clamps from patch =
    if (n =? 0) || (zlen rest =? 0) then ret (n, to) else raise DetoolsError.
Proof. exact py_described. Qed.
Print Assumptions C73_python.

(** C73, both: what C accepts Python applies with the same result, unless bytes follow
    the last record or the to size in the header has its sign bit set. *)
Theorem C73_agree : forall (wb : WordBits), 32 <= word_bits ->
  forall X F hdiff clamps fuel junk from patch body c chunks v s w,
  bytes_ok patch -> zlen patch < 2 ^ word_bits -> announced_comp patch = comp_number c -> compressed c body (body_of patch) ->
  bytes_ok body -> zlen body < 2 ^ 31 -> concat chunks = patch -> (2 <= fuel)%nat -> Z.testbit (nth 1 patch 0) 6 = false ->
  (c = CompHeatshrink -> hs_reader_ok (x_heatshrink X)) ->
  c_apply fuel junk (zlen patch) from chunks = Ret (v, s, w) -> 0 <= v ->
  exists rest, described from v body = Some (f_to w, rest) /\
    exists n, forall fuel2, (n <= fuel2)%nat ->
      apply_patch X F hdiff fuel2 clamps from patch = if (v =? 0) || (zlen rest =? 0) then ret (v, f_to w) else raise DetoolsError.
Proof. exact @c_py_agree. Qed.
Print Assumptions C73_agree.

(** C73, uncompressed patches: the same without a word about the body. *)
Theorem C73_plain : forall (wb : WordBits), 32 <= word_bits ->
  forall X F hdiff clamps fuel junk from patch chunks v s w,
  bytes_ok patch -> zlen patch < 2 ^ word_bits -> zlen patch < 2 ^ 31 -> announced_comp patch = 0 ->
  concat chunks = patch -> (2 <= fuel)%nat -> Z.testbit (nth 1 patch 0) 6 = false ->
  c_apply fuel junk (zlen patch) from chunks = Ret (v, s, w) -> 0 <= v ->
  exists n, forall fuel2, (n <= fuel2)%nat -> apply_patch X F hdiff fuel2 clamps from patch = ret (v, f_to w).
Proof. exact @plain_agree. Qed.
Print Assumptions C73_plain.

(** A patch with overlong sizes, a negative zero and an empty record. *)
Example C73_example : bytes_ok odd_patch /\ announced_comp odd_patch = comp_number CompNone /\ compressed CompNone (tl (tl (tl odd_patch))) (body_of odd_patch) /\
  announced_size odd_patch = Some 3 /\ Z.testbit (nth 1 odd_patch 0) 6 = false /\
  described [10; 20; 30; 40] 3 (body_of odd_patch) = Some ([31; 39; 9], []).
Proof. exact ex_odd_header. Qed.

Example C73_run : (exists s w, @c_apply w64 100 ex_junk (zlen odd_patch) [10; 20; 30; 40] [[128; 131; 0; 64]; [0; 0; 2; 130]; [0; 1; 255; 64; 65; 0; 129]; [0; 9; 67]] = Ret (3, s, w) /\ f_to w = [31; 39; 9]) /\
  forall X F hdiff, apply_patch X F hdiff 100 false [10; 20; 30; 40] odd_patch = ret (3, [31; 39; 9]).
Proof. exact ex_odd_run. Qed.

(** The condition on the sign bit is needed: C ignores it, Python reads a negative size,
    and even returns it. *)
Theorem C73_sign_refuted :
  (exists s w, @c_apply w64 100 ex_junk 7 [] [[0; 65; 0; 0; 1; 42; 0]] = Ret (1, s, w) /\ f_to w = [42]) /\
  (forall X F hdiff clamps, apply_patch X F hdiff 100 clamps [] [0; 65; 0; 0; 1; 42; 0] = raise DetoolsError) /\
  (exists code s w, @c_apply w64 100 ex_junk 3 [] [[0; 65; 0]] = Ret (code, s, w) /\ code < 0) /\
  (forall X F hdiff clamps, apply_patch X F hdiff 100 clamps [] [0; 65; 0] = ret (-1, [])).
Proof. exact sign_differs. Qed.
Print Assumptions C73_sign_refuted.

(** Python does not reject everything that C rejects: negative sizes, *)
Theorem C73_negative_refuted :
  (exists code s w, @c_apply w64 100 ex_junk 7 [] [[0; 1; 0; 65; 1; 42; 0]] = Ret (code, s, w) /\ code < 0) /\
  (forall X F hdiff clamps, apply_patch X F hdiff 100 clamps [] [0; 1; 0; 65; 1; 42; 0] = ret (1, [42])).
Proof. exact negative_differs. Qed.
Print Assumptions C73_negative_refuted.

(** and positions before the beginning of the from data, depending on the file object. *)
Theorem C73_seek_refuted :
  (exists code s w, @c_apply w64 100 ex_junk 11 [7] [[0; 2; 0; 0; 1; 42; 65; 1; 3; 0; 0]] = Ret (code, s, w) /\ code < 0) /\
  (forall X F hdiff, apply_patch X F hdiff 100 true [7] [0; 2; 0; 0; 1; 42; 65; 1; 3; 0; 0] = ret (2, [42; 10]) /\
                     apply_patch X F hdiff 100 false [7] [0; 2; 0; 0; 1; 42; 65; 1; 3; 0; 0] = raise OtherError).
Proof. exact seek_differs. Qed.
Print Assumptions C73_seek_refuted.

(** C does not notice bytes after the last record of a compressed body. *)
Theorem C73_trailing_refuted :
  (exists s w, @c_apply w64 100 ex_junk 10 [] [[2; 1; 0; 6; 0; 0; 1; 42; 0; 99]] = Ret (1, s, w) /\ f_to w = [42]) /\
  (forall X F hdiff clamps, apply_patch X F hdiff 100 clamps [] [2; 1; 0; 6; 0; 0; 1; 42; 0; 99] = raise DetoolsError).
Proof. exact trailing_differs. Qed.
Print Assumptions C73_trailing_refuted.
