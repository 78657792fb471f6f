(** Theorems about exactly which sequential patches Python accepts.  What a patch means
    to Python is in LooseSpec.v.  Every proof is an application of a lemma of
    LooseThms.v. *)

From Coq Require Import ZArith List Bool.
From Verif Require Import Prelude Spec SeqSpec PyApply PySpec RefuseSpec BodySpec LooseSpec LooseThms.
Import ListNotations.
Open Scope Z_scope.

(** C78: for every sequential patch without a data format, apply_patch() returns if and
    only if the body means something and nothing follows its last record; then it
    returns the size in the header and writes that data.  Otherwise it raises. *)
Theorem C78_exactly : forall X F hdiff clamps from patch body stream c n,
  bytes_ok patch -> patch_type (hd 0 patch) = 0 -> announced_comp patch = comp_number c ->
  dec_size (tl patch) = Some (n, stream) -> compressed c body stream -> bytes_ok body -> body <> [] ->
  (c = CompHeatshrink -> hs_reader_ok (x_heatshrink X)) -> (forall d l, dec_size body = Some (d, l) -> d <= 0) ->
  exists m, forall fuel, (m <= fuel)%nat ->
  match loose clamps from n body with
  | Some (to, []) => apply_patch X F hdiff fuel clamps from patch = ret (n, to)
  | _ => exists e, apply_patch X F hdiff fuel clamps from patch = raise e
  end.
Proof. exact py_exact. Qed.
Print Assumptions C78_exactly.

(** C78, uncompressed patches: the same for every patch file, complete header or not. *)
Theorem C78_plain : forall X F hdiff clamps from patch,
  bytes_ok patch -> patch_type (hd 0 patch) = 0 -> announced_comp patch = 0 ->
  (forall n body d l, dec_size (tl patch) = Some (n, body) -> dec_size body = Some (d, l) -> d <= 0) ->
  exists m, forall fuel, (m <= fuel)%nat ->
  match loose_patch clamps from patch with
  | Some (n, to) => apply_patch X F hdiff fuel clamps from patch = ret (n, to)
  | None => exists e, apply_patch X F hdiff fuel clamps from patch = raise e
  end.
Proof. exact py_exact_plain. Qed.
Print Assumptions C78_plain.

(** C78, the length: exactly the size announced is written, nothing if it is negative. *)
Theorem C78_length : forall clamps from patch n to, loose_patch clamps from patch = Some (n, to) -> zlen to = Z.max 0 n.
Proof. exact loose_patch_size. Qed.
Print Assumptions C78_length.

(** C78, the relation to C73: what a body describes in the strict sense is what it means
    to Python. *)
Theorem C78_strict : forall clamps from n body to rest, 0 < n -> described from n body = Some (to, rest) -> loose clamps from n body = Some (to, rest).
Proof. exact strict_loose. Qed.
Print Assumptions C78_strict.

(** A patch with negative sizes that moves the from file before its beginning: accepted
    with a BytesIO, not with a real file, and not by C. *)
Example C78_example : bytes_ok loose_example /\ patch_type (hd 0 loose_example) = 0 /\ announced_comp loose_example = 0 /\
  loose_patch true [7] loose_example = Some (2, [42; 10]) /\ loose_patch false [7] loose_example = None /\
  described [7] 2 (tl (tl loose_example)) = None /\
  (forall n body d l, dec_size (tl loose_example) = Some (n, body) -> dec_size body = Some (d, l) -> d <= 0).
Proof. exact ex_loose. Qed.
