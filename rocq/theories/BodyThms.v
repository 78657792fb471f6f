(** C and Python on the same patch, whatever it contains (C73). *)

From Coq Require Import ZArith List Bool Lia ZifyBool ZifyNat ZifyN.
From Verif Require Import Prelude Lib CReader CSeq Spec SeqSpec PyApply PySpec SeqInv RefuseSpec RefuseThms BodySpec BodyC BodyPy SeqExamples Refuted PyExamples.
Import ListNotations.
Open Scope Z_scope.

Lemma accepted_type : forall (wb : WordBits) fuel junk ps from chunks v s w, (2 <= fuel)%nat ->
  c_apply fuel junk ps from chunks = Ret (v, s, w) -> 0 <= v -> concat chunks <> [] -> patch_type (hd 0 (concat chunks)) = 0.
Proof.
  intros wb fuel junk ps from chunks v s w Hf H Hv Hne. destruct (Z.eq_dec (patch_type (hd 0 (concat chunks))) 0) as [|N]; [auto|exfalso].
  destruct (concat chunks) as [|b l] eqn:E; [congruence|]. cbn [hd] in N. unfold c_apply in H.
  destruct (sequential_refused wb _ file_env _ _ (other_type 0 1 unknown b l N) fuel junk ps (mkfiles from 0 []) chunks E Hf) as (s1 & X).
  rewrite X in H. inv H. unfold E_BAD_PATCH_TYPE in Hv. lia.
Qed.

Lemma c_py_agree : forall (wb : WordBits), 32 <= word_bits ->
  forall X F hdiff clamps fuel junk from patch body c chunks v s w,
  bytes_ok patch -> zlen patch < 2 ^ word_bits -> announced_comp patch = comp_number c -> compressed c body (body_of patch) ->
  bytes_ok body -> zlen body < 2 ^ 31 -> concat chunks = patch -> (2 <= fuel)%nat -> Z.testbit (nth 1 patch 0) 6 = false ->
  (c = CompHeatshrink -> hs_reader_ok (x_heatshrink X)) ->
  c_apply fuel junk (zlen patch) from chunks = Ret (v, s, w) -> 0 <= v ->
  exists rest, described from v body = Some (f_to w, rest) /\
    exists n, forall fuel2, (n <= fuel2)%nat ->
      apply_patch X F hdiff fuel2 clamps from patch = if (v =? 0) || (zlen rest =? 0) then ret (v, f_to w) else raise DetoolsError.
Proof.
  intros wb Hw X F hdiff clamps fuel junk from patch body c chunks v s w Hp Hl Hc Hb Hbb Hs Hch Hf Hsg Hh E Hv.
  destruct (accepted wb Hw fuel junk from patch body c chunks v s w Hp Hl Hc Hb Hbb Hs Hch E Hv) as (A1 & rest & A2 & A3).
  exists rest. split; [exact A2|].
  assert (Ht : patch_type (hd 0 patch) = 0).
  { subst patch. eapply accepted_type; eauto. intros N. rewrite N in A1. discriminate. }
  eapply py_described; eauto.
Qed.

Lemma plain_agree : forall (wb : WordBits), 32 <= word_bits ->
  forall X F hdiff clamps fuel junk from patch chunks v s w,
  bytes_ok patch -> zlen patch < 2 ^ word_bits -> zlen patch < 2 ^ 31 -> announced_comp patch = 0 ->
  concat chunks = patch -> (2 <= fuel)%nat -> Z.testbit (nth 1 patch 0) 6 = false ->
  c_apply fuel junk (zlen patch) from chunks = Ret (v, s, w) -> 0 <= v ->
  exists n, forall fuel2, (n <= fuel2)%nat -> apply_patch X F hdiff fuel2 clamps from patch = ret (v, f_to w).
Proof.
  intros wb Hw X F hdiff clamps fuel junk from patch chunks v s w Hp Hl Hl2 Hc Hch Hf Hsg E Hv.
  assert (Hbb : bytes_ok (body_of patch) /\ zlen (body_of patch) <= zlen patch).
  { unfold body_of. assert (G : forall l, bytes_ok l -> bytes_ok (after_size l) /\ zlen (after_size l) <= zlen l).
    { clear. induction l as [|b l IH]; intros H; cbn [after_size]; [split; [auto|lia]|]. inv H. rewrite zlen_cons. destruct (b <? 128); [split; [auto|lia]|].
      destruct (IH H3). split; [auto|lia]. }
    destruct patch as [|b l]; cbn [tl]; [apply (G []); auto|]. inv Hp. destruct (G l H2). rewrite zlen_cons. split; [auto|lia]. }
  destruct Hbb as [Hbb Hbl].
  destruct (accepted wb Hw fuel junk from patch (body_of patch) CompNone chunks v s w Hp Hl Hc (compressed_none _) Hbb ltac:(lia) Hch E Hv) as (A1 & rest & A2 & A3).
  destruct (c_py_agree wb Hw X F hdiff clamps fuel junk from patch (body_of patch) CompNone chunks v s w) as (rest2 & B1 & n & B2); auto; [constructor|lia|discriminate|].
  assert (rest2 = rest) by congruence. subst rest2. rewrite (A3 eq_refl) in B2. change (zlen (@nil Z) =? 0) with true in B2. rewrite orb_true_r in B2. eauto.
Qed.

(** ** Examples *)

(** Sizes not written in the shortest way, a negative zero, an empty record. *)
Definition odd_patch : list Z := [128; 131; 0] ++ [64; 0; 0; 2; 130; 0; 1; 255; 64; 65; 0; 129; 0; 9; 67].

Lemma ex_odd_header : bytes_ok odd_patch /\ announced_comp odd_patch = comp_number CompNone /\ compressed CompNone (tl (tl (tl odd_patch))) (body_of odd_patch) /\
  announced_size odd_patch = Some 3 /\ Z.testbit (nth 1 odd_patch 0) 6 = false /\
  described [10; 20; 30; 40] 3 (body_of odd_patch) = Some ([31; 39; 9], []).
Proof. split; [repeat constructor; cbv; intuition discriminate|]. split; [reflexivity|]. split; [constructor|]. vm_compute. auto. Qed.

Lemma ex_odd_run : (exists s w, @c_apply w64 100 ex_junk (zlen odd_patch) [10; 20; 30; 40] [[128; 131; 0; 64]; [0; 0; 2; 130]; [0; 1; 255; 64; 65; 0; 129]; [0; 9; 67]] = Ret (3, s, w) /\ f_to w = [31; 39; 9]) /\
  forall X F hdiff, apply_patch X F hdiff 100 false [10; 20; 30; 40] odd_patch = ret (3, [31; 39; 9]).
Proof. split; [do 2 eexists; split; [vm_compute; reflexivity|]; vm_compute; reflexivity|]. intros. vm_compute. reflexivity. Qed.

(** The to size has its sign bit set: C ignores that. *)
Lemma sign_differs :
  (exists s w, @c_apply w64 100 ex_junk 7 [] [[0; 65; 0; 0; 1; 42; 0]] = Ret (1, s, w) /\ f_to w = [42]) /\
  (forall X F hdiff clamps, apply_patch X F hdiff 100 clamps [] [0; 65; 0; 0; 1; 42; 0] = raise DetoolsError) /\
  (exists code s w, @c_apply w64 100 ex_junk 3 [] [[0; 65; 0]] = Ret (code, s, w) /\ code < 0) /\
  (forall X F hdiff clamps, apply_patch X F hdiff 100 clamps [] [0; 65; 0] = ret (-1, [])).
Proof.
  split; [do 2 eexists; split; [vm_compute; reflexivity|]; vm_compute; reflexivity|]. split; [intros; vm_compute; reflexivity|].
  split; [do 3 eexists; split; [vm_compute; reflexivity|]; vm_compute; reflexivity|]. intros. vm_compute. reflexivity.
Qed.

(** A negative diff size is no data for Python. *)
Lemma negative_differs :
  (exists code s w, @c_apply w64 100 ex_junk 7 [] [[0; 1; 0; 65; 1; 42; 0]] = Ret (code, s, w) /\ code < 0) /\
  (forall X F hdiff clamps, apply_patch X F hdiff 100 clamps [] [0; 1; 0; 65; 1; 42; 0] = ret (1, [42])).
Proof. split; [do 3 eexists; split; [vm_compute; reflexivity|]; vm_compute; reflexivity|]. intros. vm_compute. reflexivity. Qed.

(** Seeking before the beginning of the from data stops at 0 with io.BytesIO. *)
Lemma seek_differs :
  (exists code s w, @c_apply w64 100 ex_junk 11 [7] [[0; 2; 0; 0; 1; 42; 65; 1; 3; 0; 0]] = Ret (code, s, w) /\ code < 0) /\
  (forall X F hdiff, apply_patch X F hdiff 100 true [7] [0; 2; 0; 0; 1; 42; 65; 1; 3; 0; 0] = ret (2, [42; 10]) /\
                     apply_patch X F hdiff 100 false [7] [0; 2; 0; 0; 1; 42; 65; 1; 3; 0; 0] = raise OtherError).
Proof. split; [do 3 eexists; split; [vm_compute; reflexivity|]; vm_compute; reflexivity|]. intros. vm_compute. auto. Qed.

(** Bytes after the last record, in a compressed body. *)
Lemma trailing_differs :
  (exists s w, @c_apply w64 100 ex_junk 10 [] [[2; 1; 0; 6; 0; 0; 1; 42; 0; 99]] = Ret (1, s, w) /\ f_to w = [42]) /\
  (forall X F hdiff clamps, apply_patch X F hdiff 100 clamps [] [2; 1; 0; 6; 0; 0; 1; 42; 0; 99] = raise DetoolsError).
Proof. split; [do 2 eexists; split; [vm_compute; reflexivity|]; vm_compute; reflexivity|]. intros. vm_compute. reflexivity. Qed.
