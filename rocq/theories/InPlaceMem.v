(** The flash memory while an in-place patch is applied: the memory after each
    step, and what the memory operations do to it. *)

From Coq Require Import ZArith List Bool Lia ZifyBool ZifyNat ZifyN.
From Verif Require Import Prelude Lib CReader CInPlace Spec InPlaceSpec.
Import ListNotations.
Open Scope Z_scope.

Ltac inv H := inversion H; subst; clear H.

(** ** blit *)

Lemma zlen_map : forall A B (f : A -> B) l, zlen (map f l) = zlen l.
Proof. intros. unfold zlen. rewrite map_length. auto. Qed.

Lemma zlen_blit : forall A (mem : list A) a l, 0 <= a -> a + zlen l <= zlen mem -> zlen (blit mem a l) = zlen mem.
Proof.
  intros A mem a l H1 H2. pose proof (zlen_nonneg l). unfold blit. rewrite !zlen_app, zlen_ztake, zlen_zdrop by lia. lia.
Qed.

Lemma znth_blit_in : forall A (mem : list A) a l x, 0 <= a -> a + zlen l <= zlen mem -> a <= x < a + zlen l ->
  znth (blit mem a l) x = znth l (x - a).
Proof.
  intros A mem a l x H1 H2 H3. unfold blit.
  rewrite znth_app_r by (rewrite zlen_ztake; lia). rewrite zlen_ztake by lia.
  replace (x - Z.min a (zlen mem)) with (x - a) by lia. rewrite znth_app_l by lia. reflexivity.
Qed.

Lemma znth_blit_out : forall A (mem : list A) a l x, 0 <= a -> a + zlen l <= zlen mem -> x < a \/ a + zlen l <= x ->
  znth (blit mem a l) x = znth mem x.
Proof.
  intros A mem a l x H1 H2 H3. pose proof (zlen_nonneg l). unfold blit.
  destruct (Z.ltb_spec x 0); [unfold znth; destruct (Z.ltb_spec x 0); [auto|lia]|].
  destruct H3.
  - rewrite znth_app_l by (rewrite zlen_ztake; lia). rewrite znth_ztake by lia.
    reflexivity.
  - rewrite znth_app_r by (rewrite zlen_ztake; lia). rewrite zlen_ztake by lia.
    rewrite znth_app_r by lia. rewrite znth_zdrop by lia. f_equal. lia.
Qed.

Lemma znth_ext : forall A (l1 l2 : list A), zlen l1 = zlen l2 -> (forall i, 0 <= i < zlen l1 -> znth l1 i = znth l2 i) -> l1 = l2.
Proof.
  induction l1 as [|a l1 IH]; intros [|b l2] H1 H2; rewrite ?zlen_cons in *;
    try (change (zlen (@nil A)) with 0 in *); try pose proof (zlen_nonneg l1) as G1; try pose proof (zlen_nonneg l2) as G2; try lia; [auto|].
  pose proof (H2 0 ltac:(lia)) as X. rewrite !znth_cons_0 in X. inv X. f_equal.
  apply IH; [lia|]. intros i Hi. specialize (H2 (1 + i) ltac:(lia)).
  assert (K : forall l : list A, znth (b :: l) (1 + i) = znth l i).
  { intros l. change (b :: l) with ([b] ++ l). rewrite znth_app_r by (change (zlen [b]) with 1; lia).
    f_equal. change (zlen [b]) with 1. lia. }
  rewrite !K in H2. auto.
Qed.

Lemma znth_map : forall A B (f : A -> B) l i, znth (map f l) i = option_map f (znth l i).
Proof. intros. unfold znth. destruct (i <? 0); [auto|]. apply nth_error_map. Qed.

Lemma znth_slice : forall A (l : list A) a n k, 0 <= a -> 0 <= k < n -> znth (ztake n (zdrop a l)) k = znth l (a + k).
Proof. intros. rewrite znth_ztake by lia. apply znth_zdrop; lia. Qed.

Lemma zlen_slice : forall A (l : list A) a n, 0 <= a -> 0 <= n -> a + n <= zlen l -> zlen (ztake n (zdrop a l)) = n.
Proof. intros. rewrite zlen_ztake, zlen_zdrop by lia. lia. Qed.

Lemma zlen_addresses : forall a n, 0 <= n -> zlen (addresses a n) = n.
Proof. intros. unfold addresses. rewrite zlen_map. unfold zlen. rewrite seq_length. lia. Qed.

Lemma znth_zrepeat : forall A (x : A) n k, 0 <= k < n -> znth (zrepeat x n) k = Some x.
Proof.
  intros A x n k H. unfold znth, zrepeat. destruct (Z.ltb_spec k 0); [lia|].
  apply nth_error_repeat. lia.
Qed.

(** [m1] and [m2] are the same outside an area. *)
Definition agree (m1 m2 : list (option Z)) (a n : Z) : Prop :=
  zlen m1 = zlen m2 /\ forall x, x < a \/ a + n <= x -> znth m1 x = znth m2 x.

Lemma agree_refl : forall m a n, agree m m a n.
Proof. intros. split; auto. Qed.

Lemma agree_blit : forall m1 m2 a n b l, agree m1 m2 a n -> 0 <= a -> a + n <= zlen m1 -> a <= b -> b + zlen l <= a + n ->
  agree (blit m1 b l) m2 a n.
Proof.
  intros m1 m2 a n b l [H1 H2] H3 H4 H5 H6. split; [rewrite zlen_blit; lia|].
  intros x Hx. rewrite znth_blit_out by lia. auto.
Qed.

(** ** The memory after each step *)

Section Canon.
Variables memory segment shift : Z.
Variables from to : list Z.
Variable mem0 : list (option Z).

Hypothesis Hsizes : sizes_ok memory segment shift (zlen from) (zlen to).
Hypothesis Hlen : memory <= zlen mem0.
Hypothesis Hto : 0 < zlen to.

Notation F := (Z.min (zlen from) (memory - shift)).
Definition NS : Z := shift_steps memory segment shift (zlen from).
Definition MS : Z := segments_of (zlen to) segment.
Definition area (j : Z) : Z * Z := step_area memory segment shift (zlen from) (zlen to) j.
Definition base (j : Z) : Z := fst (area j).
Definition size (j : Z) : Z := snd (area j).

Lemma sizes : exists m h, memory = m * segment /\ shift = h * segment /\ 1 <= h <= m /\ 0 < segment /\ 1 <= m /\
  memory < 2 ^ 27 /\ 0 <= zlen from < 2 ^ 27 /\ zlen to <= memory.
Proof.
  destruct Hsizes as (A & (m & B) & (h & C) & D & E & G & K). unfold size_limit in *. exists m, h.
  repeat split; try lia; nia.
Qed.

Lemma segments_bound : forall n, 0 <= n -> 0 < segment -> n <= segments_of n segment * segment < n + segment.
Proof.
  intros n Hn Hs. unfold segments_of. pose proof (Z.div_mod (n + segment - 1) segment ltac:(lia)).
  pose proof (Z.mod_pos_bound (n + segment - 1) segment Hs). nia.
Qed.

Lemma steps_bounds : 0 <= NS /\ 1 <= MS /\ F <= NS * segment /\ shift + NS * segment <= memory /\
  (MS - 1) * segment < zlen to <= MS * segment /\ MS * segment <= memory /\ 0 < segment <= shift /\
  NS * segment < F + segment.
Proof.
  destruct sizes as (m & h & A & B & C & D & E & G & K & L).
  pose proof (zlen_nonneg from).
  pose proof (segments_bound F ltac:(nia) D) as S1. pose proof (segments_bound (zlen to) ltac:(lia) D) as S2.
  change (segments_of F segment) with NS in S1. change (segments_of (zlen to) segment) with MS in S2.
  assert (N1 : 0 <= NS) by nia. assert (M1 : 1 <= MS) by nia.
  split; [auto|]. split; [auto|]. split; [lia|].
  assert (NS * segment < (m - h + 1) * segment) by nia. assert (NS < m - h + 1) by nia.
  assert (MS * segment < (m + 1) * segment) by nia. assert (MS < m + 1) by nia.
  split; [nia|]. split; [nia|]. split; [nia|]. split; [nia|lia].
Qed.

Lemma area_shift : forall j, j <= NS -> base j = shift + (NS - j) * segment /\ size j = segment.
Proof.
  intros j H. unfold base, size, area, step_area. fold NS. destruct (Z.leb_spec j NS); [auto|lia].
Qed.

Lemma area_patch : forall i, 0 <= i -> base (NS + i + 1) = i * segment /\ size (NS + i + 1) = Z.min segment (zlen to - i * segment).
Proof.
  intros i H. unfold base, size, area, step_area. fold NS. destruct (Z.leb_spec (NS + i + 1) NS); [lia|].
  replace (NS + i + 1 - NS - 1) with i by lia. auto.
Qed.

Lemma area_bounds : forall j, 1 <= j <= NS + MS -> 0 <= base j /\ 0 < size j <= segment /\ base j + size j <= memory.
Proof using Hsizes Hto.
  clear Hlen.
  intros j H. destruct steps_bounds as (A & B & C & D & E & G & K & L).
  destruct (Z.leb_spec j NS).
  - destruct (area_shift j ltac:(lia)) as [-> ->]. nia.
  - replace j with (NS + (j - NS - 1) + 1) by lia. destruct (area_patch (j - NS - 1) ltac:(lia)) as [-> ->].
    assert ((j - NS - 1) * segment <= (MS - 1) * segment) by nia. nia.
Qed.

(** What step [j] writes to its area, given the memory before it. *)
Definition content (j : Z) (mem : list (option Z)) : list Z :=
  if j <=? NS then map cell_value (ztake segment (zdrop ((NS - j) * segment) mem))
  else ztake segment (zdrop ((j - NS - 1) * segment) to).

Lemma zlen_content : forall j mem, 1 <= j <= NS + MS -> memory <= zlen mem -> zlen (content j mem) = size j.
Proof using Hsizes Hto.
  clear Hlen.
  intros j mem H Hm. destruct steps_bounds as (A & B & C & D & E & G & K & L). unfold content.
  destruct (Z.leb_spec j NS).
  - destruct (area_shift j ltac:(lia)) as [_ ->]. rewrite zlen_map, zlen_slice; nia.
  - replace j with (NS + (j - NS - 1) + 1) at 2 by lia. destruct (area_patch (j - NS - 1) ltac:(lia)) as [_ ->].
    assert ((j - NS - 1) * segment <= (MS - 1) * segment) by nia.
    rewrite zlen_ztake, zlen_zdrop by nia. lia.
Qed.

(** The memory after the first [n] steps. *)
Fixpoint canon_nat (n : nat) : list (option Z) :=
  match n with
  | O => mem0
  | S k => blit (canon_nat k) (base (Z.of_nat n)) (map Some (content (Z.of_nat n) (canon_nat k)))
  end.

Definition canon (j : Z) : list (option Z) := canon_nat (Z.to_nat j).

Lemma canon_0 : canon 0 = mem0.
Proof. reflexivity. Qed.

Lemma canon_step : forall j, 0 <= j -> canon (j + 1) = blit (canon j) (base (j + 1)) (map Some (content (j + 1) (canon j))).
Proof.
  intros j H. unfold canon. replace (Z.to_nat (j + 1)) with (S (Z.to_nat j)) by lia. cbn [canon_nat].
  replace (Z.of_nat (S (Z.to_nat j))) with (j + 1) by lia. auto.
Qed.

Lemma nonneg_ind_to : forall (P : Z -> Prop) (n : Z), P 0 -> (forall j, 0 <= j < n -> P j -> P (j + 1)) -> forall j, 0 <= j <= n -> P j.
Proof.
  intros P n H0 HS j Hj. destruct Hj as [Hj Hn]. revert Hn. pattern j. apply natlike_ind; auto.
  intros x Hx IH Hn. apply HS; [lia|]. apply IH. lia.
Qed.

Lemma zlen_canon : forall j, 0 <= j <= NS + MS -> zlen (canon j) = zlen mem0.
Proof.
  apply nonneg_ind_to; [reflexivity|]. intros j Hj IH. rewrite canon_step by lia.
  pose proof (area_bounds (j + 1) ltac:(lia)).
  rewrite zlen_blit; [auto|lia|]. rewrite zlen_map, zlen_content by lia. lia.
Qed.

Lemma canon_agree : forall j, 0 <= j < NS + MS -> forall x, x < base (j + 1) \/ base (j + 1) + size (j + 1) <= x ->
  znth (canon (j + 1)) x = znth (canon j) x.
Proof.
  intros j Hj x Hx. rewrite canon_step by lia. pose proof (area_bounds (j + 1) ltac:(lia)).
  pose proof (zlen_canon j ltac:(lia)).
  apply znth_blit_out; rewrite ?zlen_map, ?zlen_content by lia; lia.
Qed.

Lemma canon_written : forall j, 0 <= j < NS + MS -> forall k, 0 <= k < size (j + 1) ->
  znth (canon (j + 1)) (base (j + 1) + k) = option_map Some (znth (content (j + 1) (canon j)) k).
Proof.
  intros j Hj k Hk. rewrite canon_step by lia. pose proof (area_bounds (j + 1) ltac:(lia)).
  pose proof (zlen_canon j ltac:(lia)).
  rewrite znth_blit_in; rewrite ?zlen_map, ?zlen_content by lia; try lia. rewrite znth_map. f_equal. f_equal. lia.
Qed.

(** Without erased cells in the beginning there are none after a step. *)
Lemma canon_full : (forall x, znth mem0 x <> Some None) -> forall j, 0 <= j <= NS + MS -> forall x, znth (canon j) x <> Some None.
Proof.
  intros H0. apply (nonneg_ind_to (fun j => forall x, znth (canon j) x <> Some None)); [exact H0|]. intros j Hj IH x.
  destruct (Z.ltb_spec x (base (j + 1))); [rewrite canon_agree by lia; auto|].
  destruct (Z.leb_spec (base (j + 1) + size (j + 1)) x); [rewrite canon_agree by lia; auto|].
  replace x with (base (j + 1) + (x - base (j + 1))) by lia. rewrite canon_written by lia. destruct (znth _ _); discriminate.
Qed.

(** An area written completely is what it should be. *)
Lemma canon_complete : forall j mem, 0 <= j < NS + MS -> agree mem (canon j) (base (j + 1)) (size (j + 1)) ->
  (forall k, 0 <= k < size (j + 1) -> znth mem (base (j + 1) + k) = option_map Some (znth (content (j + 1) (canon j)) k)) ->
  mem = canon (j + 1).
Proof.
  intros j mem Hj [H1 H2] H3. pose proof (zlen_canon j ltac:(lia)). pose proof (zlen_canon (j + 1) ltac:(lia)).
  apply znth_ext; [congruence|]. intros x Hx.
  destruct (Z.ltb_spec x (base (j + 1))); [rewrite canon_agree by lia; auto|].
  destruct (Z.leb_spec (base (j + 1) + size (j + 1)) x); [rewrite canon_agree by lia; auto|].
  replace x with (base (j + 1) + (x - base (j + 1))) by lia. rewrite canon_written by lia. apply H3. lia.
Qed.

Definition rd (mem : list (option Z)) (a : Z) : option Z := option_map cell_value (znth mem a).

(** While shifting. *)
Lemma canon_unshifted : forall j, 0 <= j <= NS -> forall a, a < (NS - j) * segment + shift -> znth (canon j) a = znth mem0 a.
Proof.
  destruct steps_bounds as (A & B & C & D & E & G & K & L).
  apply (nonneg_ind_to (fun j => forall a, a < (NS - j) * segment + shift -> znth (canon j) a = znth mem0 a)); [reflexivity|].
  intros j Hj IH a Ha. destruct (area_shift (j + 1) ltac:(lia)) as [E1 E2].
  rewrite canon_agree; [apply IH; nia|lia|]. rewrite E1. lia.
Qed.

Lemma canon_shifted : forall j, 0 <= j <= NS -> forall a, (NS - j) * segment <= a < NS * segment ->
  rd (canon j) (shift + a) = rd mem0 a.
Proof.
  destruct steps_bounds as (A & B & C & D & E & G & K & L).
  apply (nonneg_ind_to (fun j => forall a, (NS - j) * segment <= a < NS * segment -> rd (canon j) (shift + a) = rd mem0 a)).
  - intros a Ha. lia.
  - intros j Hj IH a Ha. destruct (area_shift (j + 1) ltac:(lia)) as [E1 E2].
    assert (X : (NS - j) * segment = (NS - (j + 1)) * segment + segment) by lia.
    destruct (Z.leb_spec ((NS - j) * segment) a).
    + unfold rd. rewrite canon_agree by lia. apply IH. lia.
    + unfold rd.
      replace (shift + a) with (base (j + 1) + (a - (NS - (j + 1)) * segment)) by lia.
      rewrite canon_written by lia. unfold content. destruct (Z.leb_spec (j + 1) NS); [|lia].
      rewrite znth_map, znth_slice by nia.
      replace ((NS - (j + 1)) * segment + (a - (NS - (j + 1)) * segment)) with a by lia.
      rewrite canon_unshifted by lia.
      destruct (znth mem0 a); reflexivity.
Qed.

(** While patching. *)
Lemma canon_source : forall i, 0 <= i <= MS -> forall a, 0 <= a < NS * segment -> i * segment <= shift + a ->
  rd (canon (NS + i)) (shift + a) = rd mem0 a.
Proof.
  destruct steps_bounds as (A & B & C & D & E & G & K & L).
  apply (nonneg_ind_to (fun i => forall a, 0 <= a < NS * segment -> i * segment <= shift + a -> rd (canon (NS + i)) (shift + a) = rd mem0 a)).
  - intros a Ha _. rewrite Z.add_0_r. apply canon_shifted; lia.
  - intros i Hi IH a Ha Hb. destruct (area_patch i ltac:(lia)) as [E1 E2].
    rewrite Z.add_assoc. unfold rd. rewrite canon_agree; [apply IH; lia|lia|lia].
Qed.

Lemma canon_to : forall i, 0 <= i <= MS -> forall a, 0 <= a < Z.min (i * segment) (zlen to) ->
  znth (canon (NS + i)) a = option_map Some (znth to a).
Proof.
  destruct steps_bounds as (A & B & C & D & E & G & K & L).
  apply (nonneg_ind_to (fun i => forall a, 0 <= a < Z.min (i * segment) (zlen to) -> znth (canon (NS + i)) a = option_map Some (znth to a))).
  - intros a Ha. lia.
  - intros i Hi IH a Ha. destruct (area_patch i ltac:(lia)) as [E1 E2].
    rewrite Z.add_assoc. destruct (Z.ltb_spec a (i * segment)).
    + rewrite canon_agree; [apply IH; lia|lia|lia].
    + replace a with (base (NS + i + 1) + (a - i * segment)) at 1 by lia.
      rewrite canon_written by lia. unfold content. destruct (Z.leb_spec (NS + i + 1) NS); [lia|].
      replace (NS + i + 1 - NS - 1) with i by lia. rewrite znth_slice by nia. do 2 f_equal. lia.
Qed.

Lemma canon_outside : forall j, 0 <= j <= NS + MS -> forall k, memory <= k -> znth (canon j) k = znth mem0 k.
Proof.
  apply (nonneg_ind_to (fun j => forall k, memory <= k -> znth (canon j) k = znth mem0 k)); [reflexivity|].
  intros j Hj IH k Hk. pose proof (area_bounds (j + 1) ltac:(lia)). rewrite canon_agree by lia. auto.
Qed.

Lemma canon_holds : holds (canon (NS + MS)) to.
Proof.
  destruct steps_bounds as (A & B & C & D & E & G & K & L).
  pose proof (zlen_canon (NS + MS) ltac:(lia)) as Z1.
  unfold holds. apply znth_ext.
  - rewrite zlen_map, zlen_ztake; lia.
  - intros x Hx. rewrite zlen_map, zlen_ztake in Hx by lia. rewrite znth_map, znth_ztake by lia.
    rewrite canon_to by lia. destruct (znth to x); reflexivity.
Qed.

End Canon.
