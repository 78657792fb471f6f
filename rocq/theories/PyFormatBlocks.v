(** Blocks of the data formats: what create_patch_block() makes is what the readers
    need. *)

From Coq Require Import ZArith List Bool Lia ZifyBool ZifyNat ZifyN.
From Verif Require Import Prelude Lib InPlaceMem PySize SizeCodec Spec SeqMeaning PyApply PyFormat PyFormatSpec PyFormatFiles.
Import ListNotations.
Open Scope Z_scope.

Local Notation P63 := 9223372036854775808.
Local Notation part := PyFormat.part.

Definition block : Type := (Z * Z * list Z)%type.
Definition b_part (fd : dict) (b : block) : dict := match b with (i, _, vs) => part fd i (zlen vs) end.
Definition b_base (fd : dict) (b : block) : Z := match b_part fd b with x :: _ => fst x | [] => 0 end.
Definition b_to (fd : dict) (b : block) (x : Z * Z) : Z := match b with (_, t, _) => t + fst x - b_base fd b end.

(** The fields of a block in the from file and in the to file. *)
Definition from_fields (size : Z) (fd : dict) (b : block) : list (Z * Z) := map (fun x => (fst x, size)) (b_part fd b).
Definition to_fields (size : Z) (fd : dict) (b : block) : list (Z * Z) := map (fun x => (b_to fd b x, size)) (b_part fd b).

Definition in_file (size : Z) (c : list Z) (a : Z) : Prop := 0 <= a /\ a + size <= zlen c.

(** A block whose values turn the fields of the from file into those of the to file. *)
Definition good (pack : Z -> pyo (list Z)) (size : Z) (fd : dict) (F T : list Z) (b : block) : Prop :=
  match b with
  | (i, t, vs) =>
      0 <= i < P63 /\ 0 <= t < P63 /\ 0 < zlen vs < P63 /\ Forall (fun v => - P63 < v < P63) vs /\
      Forall2 (fun x v => in_file size F (fst x) /\ in_file size T (b_to fd b x) /\
                          pack (snd x - v) = ret (file_read_at T (b_to fd b x) size)) (b_part fd b) vs
  end.

(** ** Reading: DiffReader and FromReader *)

Lemma py_index_drop : forall {A} (l : list A) p x rest, 0 <= p -> zdrop p l = x :: rest -> py_index l p = ret x.
Proof.
  intros A l p x rest Hp E. unfold py_index. destruct (Z.ltb_spec p 0); [lia|].
  assert (N : znth l p = Some x). { replace p with (p + 0) by lia. rewrite <- znth_zdrop by lia. rewrite E. reflexivity. }
  rewrite N. reflexivity.
Qed.

Lemma part_cons : forall {A} (l : list A) p n x rest, 0 < n -> 0 <= p -> part l p n = x :: rest -> exists l1, zdrop p l = x :: l1 /\ rest = part l (p + 1) (n - 1).
Proof.
  intros A l p n x rest Hn Hp E. unfold part in *. destruct (zdrop p l) as [|y l1] eqn:D; [unfold ztake in E; rewrite firstn_nil in E; discriminate|].
  rewrite ztake_cons in E by lia. injection E as -> <-. exists l1. split; [reflexivity|]. f_equal.
  rewrite Z.add_comm, <- zdrop_zdrop, D by lia. reflexivity.
Qed.

Lemma Forall2_impl : forall {A B} (P Q : A -> B -> Prop) a b, (forall x y, P x y -> Q x y) -> Forall2 P a b -> Forall2 Q a b.
Proof. intros A B P Q a b H F. induction F; constructor; auto. Qed.

Lemma write_values_spec : forall pack size fd T t base, 0 <= size -> forall vs f k fdiff, 0 <= f + k -> zlen fdiff = zlen T ->
  Forall2 (fun x v => in_file size T (t + fst x - base) /\ pack (snd x - v) = ret (file_read_at T (t + fst x - base) size)) (part fd (f + k) (zlen vs)) vs ->
  exists d1, write_values pack fd f t base k vs fdiff = ret d1 /\ filled (map (fun x => (t + fst x - base, size)) (part fd (f + k) (zlen vs))) T fdiff d1.
Proof.
  intros pack size fd T t base Hs. induction vs as [|v vs IH]; intros f k fdiff Hf L H.
  - exists fdiff. split; [reflexivity|]. apply filled_nil.
  - inversion H as [|x y xs ys (A1 & A2) A3 E]; subst. rewrite zlen_cons in *. pose proof (zlen_nonneg vs).
    symmetry in E. destruct (part_cons fd (f + k) (1 + zlen vs) x xs ltac:(lia) Hf E) as (l1 & D1 & D2). replace (1 + zlen vs - 1) with (zlen vs) in D2 by lia.
    cbn [write_values map]. rewrite (py_index_drop _ _ _ _ Hf D1). cbn [pbind ret]. destruct x as (a, fv). cbn [fst snd] in *. rewrite A2. cbn [pbind ret].
    destruct A1 as (A0 & A1). destruct (write_filled fdiff (t + a - base) (file_read_at T (t + a - base) size) size T) as (d1 & B1 & B2); auto; try lia. rewrite B1. cbn [pbind ret].
    destruct (IH f (k + 1) d1) as (d2 & C1 & C2); [lia|destruct B2; lia|rewrite Z.add_assoc, <- D2; auto|].
    rewrite C1. exists d2. split; [reflexivity|]. apply (filled_app [(t + a - base, size)] _ _ _ d1); auto. rewrite D2, <- Z.add_assoc. exact C2.
Qed.

Lemma write_blocks_spec : forall pack size fd F T, 0 <= size -> forall bs fdiff, Forall (good pack size fd F T) bs -> zlen fdiff = zlen T ->
  exists d1, write_blocks pack fd bs fdiff = ret d1 /\ filled (flat_map (to_fields size fd) bs) T fdiff d1.
Proof.
  intros pack size fd F T Hs. induction bs as [|((i, t), vs) bs IH]; intros fdiff H L.
  - exists fdiff. split; [reflexivity|apply filled_nil].
  - inversion H as [|? ? G Hbs]; subst. destruct G as (G1 & G2 & G3 & G4 & G5). cbn [write_blocks flat_map].
    destruct (b_part fd (i, t, vs)) as [|x0 xs] eqn:E; [inversion G5; subst; cbn in G3; lia|]. cbn [b_part] in E.
    destruct (part_cons fd i (zlen vs) x0 xs ltac:(lia) ltac:(lia) E) as (l1 & D1 & _). rewrite (py_index_drop fd i x0 l1 ltac:(lia) D1). destruct x0 as (a0, v0). cbn [pbind ret].
    assert (B : b_base fd (i, t, vs) = a0) by (unfold b_base; cbn [b_part]; rewrite E; reflexivity).
    destruct (write_values_spec pack size fd T t a0 Hs vs i 0 fdiff) as (d1 & C1 & C2); [lia|auto|rewrite Z.add_0_r, E|].
    + eapply Forall2_impl; [|exact G5]. cbn beta. intros x v (X1 & X2 & X3). unfold b_to in *. rewrite B in *. auto.
    + rewrite C1. cbn [pbind ret]. destruct (IH d1) as (d2 & E1 & E2); [auto|destruct C2; lia|]. rewrite E1. exists d2. split; [reflexivity|].
      apply (filled_app _ _ _ _ d1); [|exact E2]. unfold to_fields, b_to. rewrite B. cbn [b_part]. rewrite Z.add_0_r in C2. exact C2.
Qed.

Lemma write_zeros_spec : forall size fd F, 0 <= size -> forall n f k c, 0 <= f + k -> zlen c = zlen F -> zlen (part fd (f + k) (Z.of_nat n)) = Z.of_nat n ->
  Forall (fun x => in_file size F (fst x)) (part fd (f + k) (Z.of_nat n)) ->
  exists c1, write_zeros size fd f k n c = ret c1 /\ filled (map (fun x => (fst x, size)) (part fd (f + k) (Z.of_nat n))) (zeros F) c c1.
Proof.
  intros size fd F Hs. induction n; intros f k c Hf L E H.
  - exists c. split; [reflexivity|apply filled_nil].
  - rewrite Nat2Z.inj_succ in *. unfold Z.succ in *. destruct (part fd (f + k) (Z.of_nat n + 1)) as [|x xs] eqn:P; [change (zlen (@nil (Z * Z))) with 0 in E; lia|].
    destruct (part_cons fd (f + k) (Z.of_nat n + 1) x xs ltac:(lia) Hf P) as (l1 & D1 & D2). replace (Z.of_nat n + 1 - 1) with (Z.of_nat n) in D2 by lia. inversion H as [|? ? (A0 & A1) A2]; subst.
    cbn [write_zeros map]. rewrite (py_index_drop _ _ _ _ Hf D1). destruct x as (a, v). cbn [pbind ret fst] in *. destruct (zero_filled c a size) as (c1 & B1 & B2); auto; [lia|]. rewrite B1. cbn [pbind ret].
    rewrite zlen_cons in E. replace (f + k + 1) with (f + (k + 1)) in * by lia. destruct (IHn f (k + 1) c1) as (c2 & C1 & C2); [lia|destruct B2; lia|lia|auto|].
    rewrite C1. exists c2. split; [reflexivity|]. apply (filled_app [(a, size)] _ _ _ c1); auto. apply (filled_zeros_eq _ c); auto.
Qed.

Lemma Forall2_l : forall {A B} (R : A -> B -> Prop) (P : A -> Prop) a b, Forall2 R a b -> (forall x y, R x y -> P x) -> Forall P a.
Proof. intros A B R P a b H HP. induction H; constructor; eauto. Qed.

Lemma Forall2_zlen : forall {A B} (R : A -> B -> Prop) a b, Forall2 R a b -> zlen a = zlen b.
Proof. intros A B R a b H. induction H; [reflexivity|]. rewrite !zlen_cons. lia. Qed.

Lemma zero_blocks_spec : forall pack size fd F T, 0 <= size -> forall bs c, Forall (good pack size fd F T) bs -> zlen c = zlen F ->
  exists c1, zero_blocks size fd bs c = ret c1 /\ filled (flat_map (from_fields size fd) bs) (zeros F) c c1.
Proof.
  intros pack size fd F T Hs. induction bs as [|((i, t), vs) bs IH]; intros c H L.
  - exists c. split; [reflexivity|apply filled_nil].
  - inversion H as [|? ? G Hbs]; subst. destruct G as (G1 & G2 & G3 & G4 & G5). cbn [zero_blocks flat_map].
    pose proof (Forall2_zlen _ _ _ G5) as G6. cbn [b_part] in G6.
    destruct (write_zeros_spec size fd F Hs (length vs) i 0 c) as (c1 & C1 & C2); fold (zlen vs); rewrite ?Z.add_0_r; auto; try lia.
    + eapply Forall2_l; [exact G5|]. cbn beta. intros x y X. apply X.
    + rewrite C1. cbn [pbind ret]. destruct (IH c1) as (c2 & E1 & E2); [auto|destruct C2; lia|]. rewrite E1. exists c2. split; [reflexivity|].
      apply (filled_app _ _ _ _ c1); [|exact E2]. fold (zlen vs) in C2. rewrite Z.add_0_r in C2. exact C2.
Qed.

(** ** Creating *)

Lemma offsets_drop : forall i l, 0 <= i -> offsets (zdrop i l) = zdrop i (offsets l).
Proof.
  assert (G : forall n l, offsets (skipn n l) = skipn n (offsets l)).
  { induction n; intros [|a l]; try reflexivity. cbn [skipn]. rewrite IHn. destruct l as [|b l]; [cbn; rewrite !skipn_nil; reflexivity|reflexivity]. }
  intros i l Hi. apply G.
Qed.

(** Equal differences: equal distances from the first address. *)
Lemma same_distances : forall n A B, ztake (Z.of_nat n) (offsets A) = ztake (Z.of_nat n) (offsets B) ->
  Z.of_nat n <= zlen (offsets A) -> Z.of_nat n <= zlen (offsets B) -> A <> [] -> B <> [] ->
  Forall2 (fun a b => a - hd 0 A = b - hd 0 B) (ztake (Z.of_nat n + 1) A) (ztake (Z.of_nat n + 1) B).
Proof.
  induction n; intros A B E HA HB NA NB; destruct A as [|a A]; try congruence; destruct B as [|b B]; try congruence; cbn [hd].
  - change (Z.of_nat 0 + 1) with 1. rewrite !ztake_cons by lia. change (1 - 1) with 0. rewrite !ztake_0. repeat constructor. lia.
  - rewrite Nat2Z.inj_succ in *. unfold Z.succ in *. destruct A as [|a1 A]; [cbn in HA; lia|]. destruct B as [|b1 B]; [cbn in HB; lia|].
    change (offsets (a :: a1 :: A)) with ((a1 - a) :: offsets (a1 :: A)) in *. change (offsets (b :: b1 :: B)) with ((b1 - b) :: offsets (b1 :: B)) in *.
    rewrite !zlen_cons in HA, HB. rewrite !ztake_cons in E by lia. replace (Z.of_nat n + 1 - 1) with (Z.of_nat n) in E by lia. injection E as E1 E2.
    rewrite !(ztake_cons (Z.of_nat n + 1 + 1)) by lia. replace (Z.of_nat n + 1 + 1 - 1) with (Z.of_nat n + 1) by lia. constructor; [lia|].
    specialize (IHn (a1 :: A) (b1 :: B) E2 ltac:(lia) ltac:(lia) ltac:(discriminate) ltac:(discriminate)). cbn [hd] in IHn.
    eapply Forall2_impl; [|exact IHn]. cbn beta. intros; lia.
Qed.

Lemma zlen_offsets : forall l, l <> [] -> zlen (offsets l) = zlen l - 1.
Proof.
  induction l as [|a l IH]; [congruence|]. intros _. destruct l as [|b l]; [reflexivity|]. change (offsets (a :: b :: l)) with ((b - a) :: offsets (b :: l)).
  rewrite !(zlen_cons _ (offsets _)), IH by discriminate. rewrite !zlen_cons. lia.
Qed.

Lemma part_map : forall {A B} (f : A -> B) l i n, part (map f l) i n = map f (part l i n).
Proof. intros. unfold part, ztake, zdrop. rewrite skipn_map, firstn_map. reflexivity. Qed.

Lemma Forall2_map_inv : forall {A B C D} (f : A -> C) (g : B -> D) (R : C -> D -> Prop) a b, Forall2 R (map f a) (map g b) -> Forall2 (fun x y => R (f x) (g y)) a b.
Proof.
  intros A B C D f g R. induction a as [|x a IH]; intros [|y b] H; cbn [map] in H; inversion H; subst; constructor; auto.
Qed.

(** What the disassembler finds in a file. *)
Definition dict_ok (pack : Z -> pyo (list Z)) (size : Z) (c : list Z) (d : dict) : Prop :=
  Forall (fun x => in_file size c (fst x) /\ pack (snd x) = ret (file_read_at c (fst x) size)) d.


Lemma Forall_part : forall {A} (P : A -> Prop) l i n, Forall P l -> Forall P (part l i n).
Proof. intros. apply Forall_ztake, Forall_zdrop. auto. Qed.

Lemma patch_loop_spec : forall pack size fd td F T, 0 <= size -> zlen F < P63 -> zlen T < P63 -> zlen fd < P63 ->
  Forall (fun x => in_file size F (fst x)) fd -> dict_ok pack size T td ->
  Forall (fun x => Forall (fun y => - P63 < snd x - snd y < P63) td) fd ->
  forall ms ffrom fto, Forall (matching (offsets (map fst fd)) (offsets (map fst td))) ms -> fd <> [] -> td <> [] -> zlen ffrom = zlen F -> zlen fto = zlen T ->
  exists bs f1 t1, patch_loop size fd td ms ffrom fto = ret (bs, f1, t1) /\ Forall (good pack size fd F T) bs /\ zlen bs <= zlen ms /\
    filled (flat_map (from_fields size fd) bs) (zeros F) ffrom f1 /\ filled (flat_map (to_fields size fd) bs) (zeros T) fto t1.
Proof.
  intros pack size fd td F T Hs LF LT Lfd Hfd Htd Hdiff. induction ms as [|((i, j), n) ms IH]; intros ffrom fto H Nf Nt Ef Et.
  - exists [], ffrom, fto. split; [reflexivity|]. split; [constructor|]. split; [apply Z.le_refl|]. split; apply filled_nil.
  - inversion H as [|? ? Mt Hms]; subst. cbn [patch_loop]. rewrite zlen_cons. destruct ((n <? 8) || _) eqn:Skip.
    + destruct (IH ffrom fto Hms Nf Nt Ef Et) as (bs & f1 & t1 & A1 & A2 & A3 & A4 & A5). exists bs, f1, t1. split; [exact A1|]. split; [exact A2|]. split; [lia|]. auto.
    + assert (N8 : 8 <= n) by lia. clear Skip. destruct Mt as (M1 & M2 & M3 & M4 & M5 & M6).
      assert (Nfa : map fst fd <> []) by (destruct fd; [congruence|discriminate]). assert (Nta : map fst td <> []) by (destruct td; [congruence|discriminate]).
      rewrite zlen_offsets, zlen_map in M4, M5 by auto.
      rewrite <- !offsets_drop in M6 by lia.
      assert (Lo : zlen (offsets (zdrop i (map fst fd))) = zlen fd - i - 1) by (rewrite offsets_drop, zlen_zdrop, zlen_offsets, zlen_map by (auto; lia); lia).
      assert (Lt : zlen (offsets (zdrop j (map fst td))) = zlen td - j - 1) by (rewrite offsets_drop, zlen_zdrop, zlen_offsets, zlen_map by (auto; lia); lia).
      pose proof (same_distances (Z.to_nat n) (zdrop i (map fst fd)) (zdrop j (map fst td))) as SD. rewrite Z2Nat.id in SD by lia.
      specialize (SD M6 ltac:(lia) ltac:(lia)).
      assert (Dz : zdrop i (map fst fd) <> [] /\ zdrop j (map fst td) <> []).
      { split; intros X; apply (f_equal zlen) in X; rewrite zlen_zdrop, zlen_map in X by lia; change (zlen (@nil Z)) with 0 in X; lia. }
      destruct Dz as (Df & Dt). specialize (SD Df Dt). fold (part (map fst fd) i (n + 1)) in SD. fold (part (map fst td) j (n + 1)) in SD.
      rewrite !part_map in *. apply Forall2_map_inv in SD.
      set (xs := part fd i (n + 1)) in *. set (ys := part td j (n + 1)) in *.
      assert (Lxs : zlen xs = n + 1) by (unfold xs, part; rewrite zlen_ztake, zlen_zdrop by lia; lia).
      set (a0 := hd 0 (zdrop i (map fst fd))) in *. set (b0 := hd 0 (zdrop j (map fst td))) in *.
      assert (Ha0 : exists x0 xs1, xs = x0 :: xs1 /\ fst x0 = a0).
      { unfold a0, xs, part. destruct (zdrop i fd) as [|x0 l] eqn:D; [apply (f_equal zlen) in D; rewrite zlen_zdrop in D by lia; change (zlen (@nil (Z * Z))) with 0 in D; lia|].
        exists x0, (ztake n l). rewrite ztake_cons by lia. split; [f_equal; f_equal; lia|]. unfold zdrop in *. rewrite skipn_map, D. reflexivity. }
      assert (Hb0 : py_index (map fst td) j = ret b0 /\ exists y0, In y0 td /\ fst y0 = b0).
      { unfold b0. destruct (zdrop j td) as [|y0 l] eqn:D; [apply (f_equal zlen) in D; rewrite zlen_zdrop in D by lia; change (zlen (@nil (Z * Z))) with 0 in D; lia|].
        assert (D2 : zdrop j (map fst td) = fst y0 :: map fst l) by (unfold zdrop in *; rewrite skipn_map, D; reflexivity).
        rewrite D2. cbn [hd]. split; [apply (py_index_drop _ _ _ _ M2 D2)|]. exists y0. split; [|reflexivity]. rewrite <- (ztake_zdrop j td), D. apply in_or_app. right. left. reflexivity. }
      destruct Hb0 as (Hb0 & y0 & Iy0 & Ey0). rewrite Hb0. cbn [pbind ret].
      assert (Fx : Forall (fun x => in_file size F (fst x)) xs) by (apply Forall_part; auto).
      assert (Fy : dict_ok pack size T ys) by (apply Forall_part; auto).
      destruct (zero_fields_spec size (map fst xs) ffrom Hs) as (f1 & Z1 & Z2).
      { apply Forall_map. eapply Forall_impl; [|exact Fx]. cbn beta. unfold in_file. rewrite Ef. auto. }
      rewrite Z1. cbn [pbind ret].
      destruct (zero_fields_spec size (map fst ys) fto Hs) as (t1 & Z3 & Z4).
      { apply Forall_map. eapply Forall_impl; [|exact Fy]. cbn beta. unfold in_file. rewrite Et. intros y Hy. apply Hy. }
      rewrite Z3. cbn [pbind ret]. rewrite map_map in Z2, Z4.
      destruct (IH f1 t1 Hms Nf Nt) as (bs & f2 & t2 & A1 & A2 & A3 & A4 & A5); [destruct Z2; lia|destruct Z4; lia|].
      rewrite A1. cbn [pbind ret]. eexists (_ :: bs), f2, t2. split; [reflexivity|].
      set (b := (i, b0, differences (map snd xs) (map snd ys))).
      assert (Ld : zlen (differences (map snd xs) (map snd ys)) = n + 1).
      { rewrite <- Lxs. clear - SD. induction SD; [reflexivity|]. cbn [map differences]. rewrite !zlen_cons. lia. }
      assert (Bp : b_part fd b = xs) by (unfold b; cbn [b_part]; rewrite Ld; reflexivity).
      assert (Bb : b_base fd b = a0) by (unfold b_base; rewrite Bp; destruct Ha0 as (x0 & xs1 & -> & E); exact E).
      assert (Bt : forall x, b_to fd b x = b0 + fst x - a0) by (intros x; unfold b_to, b; fold b; rewrite Bb; reflexivity).
      assert (Hd : Forall (fun x => Forall (fun y => - P63 < snd x - snd y < P63) ys) xs).
      { apply Forall_part. eapply Forall_impl; [|exact Hdiff]. cbn beta. intros x Hx. apply Forall_part. auto. }
      split; [constructor; [|auto]|split; [rewrite zlen_cons; lia|]].
      * unfold b; cbn beta iota; fold b. split; [lia|]. rewrite Ld. split.
        { rewrite <- Ey0. unfold dict_ok in Htd. rewrite Forall_forall in Htd. destruct (Htd y0 Iy0) as ((Y1 & Y2) & _). lia. }
        split; [lia|]. split.
        { clear - SD Hd. induction SD as [|x y xs ys E SD IH]; [constructor|]. inversion Hd as [|? ? D1 D2]; subst. inversion D1; subst. cbn [map differences]. constructor; [auto|].
          apply IH. eapply Forall_impl; [|exact D2]. cbn beta. intros z Hz. inversion Hz; auto. }
        rewrite Bp. clear - SD Fx Fy Bt. clearbody b. induction SD as [|x y xs ys E SD IH]; [constructor|]. inversion Fx as [|? ? X1 X2]; subst. inversion Fy as [|? ? (Y1 & Y2) Y3]; subst. cbn [map differences].
        constructor; [|apply IH; [exact X2|exact Y3]]. rewrite Bt. replace (b0 + fst x - a0) with (fst y) by lia. replace (snd x - (snd x - snd y)) with (snd y) by lia. auto.
      * cbn [flat_map]. split.
        { apply (filled_app _ _ _ _ f1); [|exact A4]. unfold from_fields. fold b. rewrite Bp. apply (filled_zeros_eq _ ffrom); auto. }
        apply (filled_app _ _ _ _ t1); [|exact A5]. unfold to_fields. fold b. rewrite Bp. apply (filled_zeros_eq _ fto); auto.
        replace (map (fun x => (b_to fd b x, size)) xs) with (map (fun x => (fst x, size)) ys); [auto|].
        clear - SD Bt. clearbody b. induction SD as [|x y xs ys E SD IH]; [reflexivity|]. cbn [map]. rewrite IH, Bt. do 2 f_equal. lia.
Qed.
