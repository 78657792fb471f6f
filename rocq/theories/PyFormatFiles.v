(** Writing fields into files, in any order, with overlaps. *)

From Coq Require Import ZArith List Bool Lia ZifyBool ZifyNat ZifyN.
From Verif Require Import Prelude Lib InPlaceMem PyApply PyFormat.
Import ListNotations.
Open Scope Z_scope.

(** Is position [i] in one of the fields (address, size)? *)
Definition cov (ivs : list (Z * Z)) (i : Z) : bool := existsb (fun x => (fst x <=? i) && (i <? fst x + snd x)) ivs.

(** [c1] is [c] with the bytes of [T] in the fields. *)
Definition filled (ivs : list (Z * Z)) (T c c1 : list Z) : Prop :=
  zlen c1 = zlen c /\ forall i, 0 <= i < zlen c -> znth c1 i = if cov ivs i then znth T i else znth c i.

Lemma cov_app : forall a b i, cov (a ++ b) i = cov a i || cov b i.
Proof. intros. apply existsb_app. Qed.

Lemma cov_same : forall a b i, (forall x, In x a <-> In x b) -> cov a i = cov b i.
Proof.
  intros a b i H. apply eq_true_iff_eq. unfold cov. rewrite !existsb_exists. split; intros (x & Hx & E); exists x; (split; [apply H|]; auto).
Qed.

Lemma filled_nil : forall T c, filled [] T c c.
Proof. intros. split; auto. Qed.

Lemma filled_app : forall a b T c c1 c2, filled a T c c1 -> filled b T c1 c2 -> filled (a ++ b) T c c2.
Proof.
  intros a b T c c1 c2 (A1 & A2) (B1 & B2). split; [lia|]. intros i Hi. rewrite cov_app, B2, A2 by lia. destruct (cov a i), (cov b i); reflexivity.
Qed.

Lemma filled_same : forall a b T c c1 c2, filled a T c c1 -> filled b T c c2 -> (forall x, In x a <-> In x b) -> c1 = c2.
Proof.
  intros a b T c c1 c2 (A1 & A2) (B1 & B2) H. apply znth_ext; [lia|]. intros i Hi. rewrite A2, B2, (cov_same a b) by (auto; lia). reflexivity.
Qed.

Lemma znth_write_at : forall c pos data i, 0 <= pos -> pos + zlen data <= zlen c -> 0 <= i < zlen c ->
  znth (write_at c pos data) i = if (pos <=? i) && (i <? pos + zlen data) then znth data (i - pos) else znth c i.
Proof.
  intros c pos data i Hp Hd Hi. pose proof (zlen_nonneg data). unfold write_at. rewrite zrepeat_0 by lia. cbn [app].
  assert (L : zlen (ztake pos c) = pos) by (rewrite zlen_ztake by lia; lia).
  destruct (Z.leb_spec pos i); cbn [andb].
  - rewrite znth_app_r by lia. rewrite L. destruct (Z.ltb_spec i (pos + zlen data)).
    + apply znth_app_l. lia.
    + rewrite znth_app_r by lia. rewrite znth_zdrop by lia. f_equal. lia.
  - rewrite znth_app_l by lia. apply znth_ztake. lia.
Qed.

Lemma zlen_write_at : forall c pos data, 0 <= pos -> pos + zlen data <= zlen c -> zlen (write_at c pos data) = zlen c.
Proof.
  intros c pos data Hp Hd. pose proof (zlen_nonneg data). unfold write_at. rewrite zrepeat_0 by lia. cbn [app]. rewrite !zlen_app, zlen_ztake, zlen_zdrop by lia. lia.
Qed.

Lemma write_filled : forall c pos data size T, 0 <= pos -> 0 <= size -> pos + size <= zlen c -> pos + size <= zlen T -> data = file_read_at T pos size ->
  exists c1, seek_write c pos data = ret c1 /\ filled [(pos, size)] T c c1.
Proof.
  intros c pos data size T Hp Hs Hc HT ->. unfold file_read_at. assert (L : zlen (ztake size (zdrop pos T)) = size) by (rewrite zlen_ztake, zlen_zdrop by lia; lia).
  unfold seek_write. destruct (Z.ltb_spec pos 0); [lia|]. eexists. split; [reflexivity|]. split; [apply zlen_write_at; lia|]. intros i Hi.
  rewrite znth_write_at by lia. rewrite L. unfold cov. cbn [existsb fst snd]. rewrite orb_false_r. destruct (Z.leb_spec pos i); cbn [andb]; [|reflexivity].
  destruct (Z.ltb_spec i (pos + size)); [|reflexivity]. rewrite znth_slice by lia. f_equal. lia.
Qed.

Lemma zeros_part : forall n pos size, 0 <= pos -> 0 <= size -> pos + size <= n -> zrepeat 0 size = file_read_at (zrepeat 0 n) pos size.
Proof.
  intros n pos size Hp Hs H. unfold file_read_at. apply znth_ext.
  - rewrite zlen_ztake, zlen_zdrop, !zlen_zrepeat by lia. lia.
  - intros i Hi. rewrite zlen_zrepeat in Hi by lia. rewrite znth_slice, !znth_zrepeat by lia. reflexivity.
Qed.

(** Zeroing fields. *)
Definition zeros (c : list Z) : list Z := zrepeat 0 (zlen c).

Lemma zlen_zeros : forall c, zlen (zeros c) = zlen c.
Proof. intros. apply zlen_zrepeat. apply zlen_nonneg. Qed.

Lemma zero_filled : forall c pos size, 0 <= pos -> 0 <= size -> pos + size <= zlen c ->
  exists c1, seek_write c pos (zrepeat 0 size) = ret c1 /\ filled [(pos, size)] (zeros c) c c1.
Proof.
  intros c pos size Hp Hs H. apply write_filled; auto; [rewrite zlen_zeros; lia|]. apply zeros_part; lia.
Qed.

Lemma filled_zeros_eq : forall ivs c c0 c1, zlen c = zlen c0 -> filled ivs (zeros c) c c1 -> filled ivs (zeros c0) c c1.
Proof. intros ivs c c0 c1 E H. unfold zeros in *. rewrite <- E. exact H. Qed.

Lemma zero_fields_spec : forall size addresses c, 0 <= size -> Forall (fun a => 0 <= a /\ a + size <= zlen c) addresses ->
  exists c1, zero_fields size addresses c = ret c1 /\ filled (map (fun a => (a, size)) addresses) (zeros c) c c1.
Proof.
  intros size addresses. induction addresses as [|a l IH]; intros c Hs H; cbn [zero_fields map]; [exists c; split; [reflexivity|apply filled_nil]|].
  inversion H as [|? ? (A1 & A2) A3]; subst. destruct (zero_filled c a size) as (c1 & B1 & B2); auto. rewrite B1. cbn [pbind ret]. pose proof B2 as (L & _).
  destruct (IH c1) as (c2 & C1 & C2); auto; [rewrite L; auto|]. exists c2. split; [exact C1|].
  apply (filled_app [(a, size)] _ _ _ c1); [exact B2|]. apply (filled_zeros_eq _ c1); auto.
Qed.

Lemma filled_bytes : forall ivs c c1, bytes_ok c -> filled ivs (zeros c) c c1 -> bytes_ok c1.
Proof.
  intros ivs c c1 H (A & B). unfold bytes_ok. rewrite Forall_forall. intros x Hx. apply In_nth_error in Hx. destruct Hx as (n & Hn).
  assert (R : (n < length c1)%nat) by (apply nth_error_Some; congruence). specialize (B (Z.of_nat n)). unfold zlen in A, B. specialize (B ltac:(lia)).
  assert (E : znth c1 (Z.of_nat n) = Some x) by (unfold znth; destruct (Z.ltb_spec (Z.of_nat n) 0); [lia|]; rewrite Nat2Z.id; exact Hn).
  rewrite E in B. destruct (cov ivs (Z.of_nat n)).
  - unfold zeros in B. rewrite znth_zrepeat in B by (unfold zlen; lia). injection B as ->. unfold byte_ok. lia.
  - symmetry in B. eapply Forall_znth; eauto.
Qed.

(** Zeroing the fields of [to] and filling them in zeros: the sum is [to]. *)
Lemma sum_filled : forall a b to to1 diff, bytes_ok to -> filled a (zeros to) to to1 -> filled b to (zeros to) diff ->
  (forall x, In x a <-> In x b) -> sum_bytes to1 diff = to.
Proof.
  intros a b to to1 diff Hb (A1 & A2) (B1 & B2) H. rewrite zlen_zeros in *.
  assert (G : forall x y, zlen x = zlen y -> zlen (sum_bytes x y) = zlen x /\
    forall i u v, znth x i = Some u -> znth y i = Some v -> znth (sum_bytes x y) i = Some (Z.land (u + v) 255)).
  { clear. induction x as [|u0 x IH]; intros [|v0 y] E; rewrite ?zlen_cons in E; try (exfalso; unfold zlen in E; cbn [length] in E; lia).
    - split; [reflexivity|]. intros i u v Hu. apply znth_some_range in Hu. change (zlen (@nil Z)) with 0 in Hu. lia.
    - destruct (IH y ltac:(lia)) as (I1 & I2). cbn [sum_bytes]. rewrite !zlen_cons. split; [lia|]. intros i u v Hu Hv. pose proof (znth_some_range _ _ _ Hu) as R.
      assert (S : forall (z : Z) l, 0 < i -> znth (z :: l) i = znth l (i - 1)) by (intros z l P; change (z :: l) with ([z] ++ l); rewrite znth_app_r by (change (zlen [z]) with 1; lia); reflexivity).
      destruct (Z.eq_dec i 0) as [->|N]; [rewrite znth_cons_0 in *; congruence|]. rewrite S in * by lia. auto. }
  destruct (G to1 diff ltac:(lia)) as (L & G1). apply znth_ext; [lia|]. intros i Hi. rewrite L, A1 in Hi. specialize (A2 i Hi). specialize (B2 i Hi).
  rewrite <- (cov_same a b) in B2 by exact H. unfold zeros in A2, B2. rewrite znth_zrepeat in A2, B2 by lia.
  destruct (znth_range_some to i Hi) as (t & Et). rewrite Et in *. assert (byte_ok t) by (eapply Forall_znth; eauto). unfold byte_ok in *.
  destruct (cov a i); rewrite (G1 _ _ _ A2 B2); f_equal; rewrite Z.add_0_l || rewrite Z.add_0_r; change 255 with (Z.ones 8); rewrite Z.land_ones by lia; apply Z.mod_small; change (2 ^ 8) with 256; lia.
Qed.
