(** Theorems about which sequential patches are accepted.  What a patch describes is in
    BodySpec.v, the limits are in FitSpec.v.  Every proof is an application of a lemma of
    the other files. *)

From Coq Require Import ZArith List Bool.
From Verif Require Import Prelude CReader CSeq Spec SeqSpec PyApply PySpec RefuseSpec BodySpec BodyThms FitSpec FitThms FitExamples SeqExamples Refuted.
Import ListNotations.
Open Scope Z_scope.

(** C74: a patch that describes something, with sizes of at most four bytes and
    positions that are ints, is accepted by the C functions in any pieces (if it is not
    compressed the first piece must hold the header), and what it describes is written. *)
Theorem C74_accepts : forall (wb : WordBits), 32 <= word_bits ->
  forall junk from patch body c chunks n to,
  bytes_ok patch -> zlen patch + 128 < 2 ^ word_bits -> patch_type (hd 0 patch) = 0 ->
  announced_comp patch = comp_number c -> compressed c body (body_of patch) -> bytes_ok body -> zlen from < 2 ^ 31 ->
  concat chunks = patch -> (c = CompNone -> header_complete (hd [] chunks) = true) ->
  announced_size patch = Some n -> described from n body = Some (to, []) -> fits n patch body = true ->
  exists m, forall fuel, (m <= fuel)%nat ->
    exists s w, c_apply fuel junk (zlen patch) from chunks = Ret (n, s, w) /\ f_to w = to.
Proof. exact accepts. Qed.
Print Assumptions C74_accepts.

(** C74, the limits: a patch outside of them is never accepted. *)
Theorem C74_limits : forall (wb : WordBits), 32 <= word_bits ->
  forall fuel junk from patch body c chunks n to rest v s w,
  bytes_ok patch -> zlen patch + 128 < 2 ^ word_bits -> patch_type (hd 0 patch) = 0 ->
  announced_comp patch = comp_number c -> compressed c body (body_of patch) -> bytes_ok body -> zlen from < 2 ^ 31 ->
  concat chunks = patch -> (c = CompNone -> header_complete (hd [] chunks) = true) ->
  announced_size patch = Some n -> described from n body = Some (to, rest) -> fits n patch body = false ->
  c_apply fuel junk (zlen patch) from chunks = Ret (v, s, w) -> v < 0.
Proof. exact too_large. Qed.
Print Assumptions C74_limits.

(** C74, uncompressed patches: exactly these are accepted. *)
Theorem C74_exactly : forall (wb : WordBits), 32 <= word_bits ->
  forall junk from patch chunks v to,
  bytes_ok patch -> zlen patch + 128 < 2 ^ word_bits -> zlen patch < 2 ^ 31 -> zlen from < 2 ^ 31 -> announced_comp patch = 0 ->
  concat chunks = patch -> header_complete (hd [] chunks) = true ->
  ((exists fuel s w, c_apply fuel junk (zlen patch) from chunks = Ret (v, s, w) /\ 0 <= v /\ f_to w = to) <->
   patch_type (hd 0 patch) = 0 /\ announced_size patch = Some v /\
   described from v (body_of patch) = Some (to, []) /\ fits v patch (body_of patch) = true).
Proof. exact accepts_iff. Qed.
Print Assumptions C74_exactly.

(** A patch with overlong sizes and an empty record within the limits. *)
Example C74_example : patch_type (hd 0 odd_patch) = 0 /\ announced_comp odd_patch = 0 /\ header_complete [128; 131; 0; 64] = true /\
  announced_size odd_patch = Some 3 /\ described [10; 20; 30; 40] 3 (body_of odd_patch) = Some ([31; 39; 9], []) /\
  fits 3 odd_patch (body_of odd_patch) = true.
Proof. exact ex_odd_fits. Qed.

(** A size of five bytes: C refuses what Python applies. *)
Example C74_long : patch_type (hd 0 long_patch) = 0 /\ announced_comp long_patch = 0 /\ header_complete long_patch = true /\
  announced_size long_patch = Some 1 /\ described [] 1 (body_of long_patch) = Some ([42], []) /\ fits 1 long_patch (body_of long_patch) = false /\
  (exists s w, @c_apply w64 100 ex_junk (zlen long_patch) [] [long_patch] = Ret (- E_CORRUPT_PATCH_OVERFLOW, s, w)) /\
  (forall X F hdiff, apply_patch X F hdiff 100 false [] long_patch = ret (1, [42])).
Proof. exact ex_five. Qed.
