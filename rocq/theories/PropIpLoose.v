(** Theorems about in-place patches of any content in Python.  What such a patch means is
    in IpLooseSpec.v.  Every proof is an application of a lemma of IpLooseThms.v. *)

From Coq Require Import ZArith List Bool.
From Verif Require Import Prelude Spec SeqSpec PyApply PyApplyInPlace PySpec RefuseSpec PyAnySpec IpLooseSpec IpLooseThms.
Import ListNotations.
Open Scope Z_scope.

(** C79: apply_patch_in_place() on any in-place patch whose sizes fit together and into
    the memory.  If the body means some data, and nothing follows, the to size is
    returned and the memory starts with that data; everything behind it is as it was
    once the from data had been moved.  If the body means nothing, or something follows,
    an exception is raised.  Nothing is said of bodies that use memory already written. *)
Theorem C79_exactly : forall X bytesio mem patch z stream body c,
  bytes_ok patch -> patch_type (hd 0 patch) = 1 -> announced_comp patch = comp_number c -> in_place_header patch = Some (z, stream) -> fitting z (zlen mem) ->
  compressed c body stream -> bytes_ok body -> body <> [] -> (c = CompHeatshrink -> hs_reader_ok (x_heatshrink X)) ->
  exists m, forall fuel, (m <= fuel)%nat ->
  match body_means z mem body with
  | Means to [] => apply_patch_in_place X fuel bytesio mem patch = ret (is_to z, to ++ zdrop (zlen to) (moved z mem))
  | Means _ _ | Bad => exists e, apply_patch_in_place X fuel bytesio mem patch = raise e
  | Stale => True
  end.
Proof. exact in_place_exact. Qed.
Print Assumptions C79_exactly.

(** C79, the length: what a body means has the to size of the header. *)
Theorem C79_length : forall z mem body to rest, fitting z (zlen mem) -> body_means z mem body = Means to rest -> zlen to = is_to z.
Proof. exact body_size. Qed.
Print Assumptions C79_length.

Example C79_example : bytes_ok loose_ip_patch /\ patch_type (hd 0 loose_ip_patch) = 1 /\ announced_comp loose_ip_patch = comp_number CompNone /\
  in_place_header loose_ip_patch = Some (mksizes 8 4 2 4 5, loose_ip_body) /\ fitting (mksizes 8 4 2 4 5) (zlen loose_ip_mem) /\
  compressed CompNone loose_ip_body loose_ip_body /\
  moved (mksizes 8 4 2 4 5) loose_ip_mem = [1; 2; 1; 2; 3; 4; 0; 0; 99] /\
  body_means (mksizes 8 4 2 4 5) loose_ip_mem loose_ip_body = Means [7; 8; 4; 5; 5] [] /\
  forall X bytesio, apply_patch_in_place X 100 bytesio loose_ip_mem loose_ip_patch = ret (5, [7; 8; 4; 5; 5; 4; 0; 0; 99]).
Proof. exact ex_loose_ip. Qed.

Example C79_others : body_means (mksizes 8 4 2 4 5) loose_ip_mem (loose_ip_body ++ [0]) = Means [7; 8; 4; 5; 5] [0] /\
  body_means (mksizes 8 4 2 4 5) loose_ip_mem (ztake 18 loose_ip_body) = Bad /\
  body_means (mksizes 8 4 2 4 5) loose_ip_mem [0; 0; 4; 1; 2; 3; 4; 0; 0; 0; 0; 71; 1; 0; 0; 0] = Stale.
Proof. exact ex_loose_ip_others. Qed.
