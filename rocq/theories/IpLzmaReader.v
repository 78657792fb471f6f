(** Size fields and data of any bytes through the LZMA reader, next to the reader of
    uncompressed patches. *)

From Coq Require Import ZArith List Bool Lia ZifyBool ZifyNat ZifyN.
From Verif Require Import Prelude Lib Heatshrink CReader ReaderProofs SizeProofs CLzma LzmaSpec LzmaProofs LzmaSim.
Import ListNotations.
Open Scope Z_scope.

Ltac Zify.zify_post_hook ::= Z.to_euclidean_division_equations.

(** ** The three outcomes of a size field *)

Lemma upk_cases : forall l z, zok z ->
  (exists v z1 k, upk z l = Ret (0, v, z1, k) /\ z_cons z1 = false) \/
  (exists z1 k, upk z l = Ret (- E_CORRUPT_PATCH_OVERFLOW, 0, z1, k)) \/
  (exists z1, upk z l = Ret (1, 0, z1, [])).
Proof.
  induction l as [|b l IH]; intros z Hz; cbn [upk]; [right; right; eauto|].
  destruct (size_byte_spec z b Hz) as [(_ & _ & A)|(z2 & A & C1 & Z1 & N1 & _)]; rewrite A; cbn [obind]; [right; left; eauto|].
  destruct (Z.land b 128 =? 0); [left; do 3 eexists; split; reflexivity|auto].
Qed.

(** Both sides read the same next. *)
Definition agree (z : size_st) (l : list Z) (z' : size_st) (l' : list Z) : Prop :=
  (exists v z1 z2 k, upk z l = Ret (0, v, z1, k) /\ upk z' l' = Ret (0, v, z2, k) /\ z_cons z1 = false /\ z_cons z2 = false) \/
  (exists z1 z2 k k', upk z l = Ret (- E_CORRUPT_PATCH_OVERFLOW, 0, z1, k) /\ upk z' l' = Ret (- E_CORRUPT_PATCH_OVERFLOW, 0, z2, k')) \/
  (exists z1 z2, upk z l = Ret (1, 0, z1, []) /\ upk z' l' = Ret (1, 0, z2, [])).

Lemma agree_same : forall l z z', z_cons z = false -> z_cons z' = false -> agree z l z' l.
Proof.
  intros l z z' Hz Hz'. assert (H : l = [] \/ upk z l = upk z' l).
  { destruct l as [|b l]; [auto|right]. cbn [upk]. unfold size_byte. rewrite Hz, Hz'. reflexivity. }
  destruct H as [->|H]; [right; right; exists z, z'; auto|]. unfold agree. rewrite H.
  destruct (upk_cases l z') as [(v & z1 & k & A & B)|[(z1 & k & A)|(z1 & A)]]; [intros X; congruence| | |]; rewrite A.
  - left. exists v, z1, z1, k. auto.
  - right. left. exists z1, z1, k, k. auto.
  - right. right. exists z1, z1. auto.
Qed.

Section Reader.
Context {WBits : WordBits}.
Hypothesis Hword : 32 <= word_bits.

Lemma none_bad_loop : forall l K z ps po byte, zok z -> (zneed z <= K)%nat -> 0 <= po -> po + zlen l = ps -> ps + 128 < 2 ^ word_bits ->
  (forall z1 k, upk z l = Ret (- E_CORRUPT_PATCH_OVERFLOW, 0, z1, k) ->
     exists po1, unpack_size_loop K z (RNone ps po) l byte 1 = Ret (- E_CORRUPT_PATCH_OVERFLOW, 0, z1, RNone ps po1, k)) /\
  (forall z1, upk z l = Ret (1, 0, z1, []) ->
     unpack_size_loop K z (RNone ps po) l byte 1 = Ret (- E_CORRUPT_PATCH, 0, z1, RNone ps ps, [])).
Proof.
  induction l as [|b l IH]; intros K z ps po byte Hz HK Hpo Hps Hw; cbn [upk].
  - change (zlen (@nil Z)) with 0 in Hps. split; [discriminate|]. intros z1 X. inv X. destruct K as [|K]; [unfold zneed in HK; destruct (z_cons z1); lia|].
    cbn [unpack_size_loop decompress]. unfold none_decompress. rewrite Z.add_0_r. rewrite wrap_small by lia. destruct (Z.ltb_spec po (po + 1)); [|lia]. reflexivity.
  - rewrite zlen_cons in *. pose proof (zlen_nonneg l). destruct K as [|K]; [unfold zneed in HK; destruct (z_cons z); lia|].
    cbn [unpack_size_loop decompress]. unfold none_decompress. rewrite wrap_small by lia. destruct (Z.ltb_spec ps (po + 1)); [lia|].
    rewrite zlen_cons. replace (Z.min 1 (1 + zlen l)) with 1 by lia. rewrite wrap_small by lia.
    change (ztake 1 (b :: l)) with [b]. change (zdrop 1 (b :: l)) with l. cbn [obind].
    change (negb (0 =? 0)) with false. cbv iota zeta. change (zlen [b]) with 1.
    destruct (size_byte_spec z b Hz) as [(_ & _ & A)|(z2 & A & C1 & Z1 & N1 & _)]; rewrite A; cbn [obind].
    + split; intros; [|discriminate]. match goal with H : _ = _ |- _ => inv H end. eexists. reflexivity.
    + destruct (Z.land b 128 =? 0); [split; intros; discriminate|]. apply IH; auto; lia.
Qed.

Lemma none_overflow : forall l z ps po z1 k, zok z -> 0 <= po -> po + zlen l = ps -> ps + 128 < 2 ^ word_bits ->
  upk z l = Ret (- E_CORRUPT_PATCH_OVERFLOW, 0, z1, k) ->
  exists po1, unpack_size z (RNone ps po) l = Ret (- E_CORRUPT_PATCH_OVERFLOW, 0, z1, RNone ps po1, k).
Proof. intros l z ps po z1 k Hz A B C D. unfold unpack_size. eapply none_bad_loop; eauto. pose proof (zneed_le z Hz). lia. Qed.

Lemma none_short : forall l z ps po z1, zok z -> 0 <= po -> po + zlen l = ps -> ps + 128 < 2 ^ word_bits ->
  upk z l = Ret (1, 0, z1, []) -> unpack_size z (RNone ps po) l = Ret (- E_CORRUPT_PATCH, 0, z1, RNone ps ps, []).
Proof. intros l z ps po z1 Hz A B C D. unfold unpack_size. eapply none_bad_loop; eauto. pose proof (zneed_le z Hz). lia. Qed.

Lemma none_read_short : forall l n ps po, zlen l < n <= 128 -> 0 <= po -> po + zlen l = ps -> ps + 128 < 2 ^ word_bits ->
  decompress (RNone ps po) l n = Ret (- E_CORRUPT_PATCH, [], RNone ps po, l).
Proof.
  intros l n ps po Hn Hpo Hps Hw. cbn [decompress]. unfold none_decompress. pose proof (zlen_nonneg l). rewrite wrap_small by lia.
  destruct (Z.ltb_spec ps (po + n)); [reflexivity|lia].
Qed.

Context {D : Type} (L : lzma_lib D).
Hypothesis Hmem : enough_memory L.

(** [yields] without its last clause. *)
Definition weak (f : list Z) (r : lzma_reader D) (left rest : list Z) : Prop :=
  owned r /\ zlen (held (l_in r)) + zlen left + zlen f < 2 ^ word_bits /\
  exists R o, decoder_invariant L R /\ R (l_dec r) (held (l_in r) ++ left ++ f) o /\ rest = held (l_out r) ++ o.

Lemma attempt_weak : forall f r left rest n, weak f r left rest -> 0 < n -> zlen (held (l_out r)) < n ->
  exists r1,
    (match held (l_in r) with
     | [] => Ret (0, r)
     | _ =>
         letm (res, r1) := prepare_output_buffer L r n in
         if negb (res =? 0) then Ret (res, r1) else run_decoder L r1 n
     end) = Ret (0, r1) /\ yields L f r1 left rest /\ (zlen (held (l_out r1)) < n -> held (l_in r1) = []).
Proof.
  intros f r left rest n (Ho & Hw & R & o & HR & H1 & H2) Hn Hs. destruct (held (l_in r)) as [|x inp] eqn:Ei.
  - exists r. split; [reflexivity|]. split; [|auto]. split; [auto|]. rewrite Ei. split; [auto|]. exists R, o. auto.
  - destruct (output_spec L r n Ho Hs) as [(h1 & A & B & C)|(b & h2 & A & B)]; [rewrite Hmem in C; discriminate|]. rewrite A. cbn [obind].
    change (negb (0 =? 0)) with false. cbv iota. unfold run_decoder. cbn [l_dec l_in l_out l_heap held]. rewrite Ei.
    destruct HR as [HR0 HR]. assert (Hroom : 0 < n - zlen (held (l_out r))) by lia.
    destruct (HR _ _ _ H1 (x :: inp) (left ++ f) (n - zlen (held (l_out r))) eq_refl ltac:(discriminate) Hroom)
      as (ret & k & out & d' & o' & C1 & C2 & C3 & C4 & C5 & C6 & C7 & C8).
    rewrite C1. destruct (Z.ltb_spec k 0); [lia|]. destruct (Z.ltb_spec (zlen (x :: inp)) k); [lia|].
    destruct (Z.ltb_spec (n - zlen (held (l_out r))) (zlen out)); [lia|]. cbn [orb].
    destruct (l_in r) as [[bi li]|] eqn:Eli; [|discriminate]. cbn [held] in Ei. subst li. cbn [option_map fst snd].
    destruct ret; [| |congruence]; (eexists; split; [reflexivity|]); (split; [split; [exact B|]; cbn [l_in l_out l_dec held]; split; [rewrite zlen_zdrop by lia; lia|]|cbn [l_in l_out held]; rewrite zlen_app; intros X; rewrite C7 by lia; apply zdrop_all; lia]);
      (exists R, o'; split; [split; auto|]; split; [rewrite zdrop_app_l in C6 by lia; exact C6|]; split; [rewrite H2, C5, app_assoc; reflexivity|];
       intros X; rewrite (C8 X); apply zdrop_all; lia).
Qed.

Lemma loop_starved : forall K f r left rest n, weak f r left rest -> 0 < n -> zlen rest < n -> (1 <= K)%nat -> (2 <= K \/ left = [])%nat ->
  exists r1, lzma_loop L K r left n = Ret (1, [], r1, []) /\ yields L f r1 [] rest.
Proof.
  induction K; intros f r left rest n Hy Hn Hl HK1 HK; [lia|]. cbn [lzma_loop].
  assert (Hs : zlen (held (l_out r)) < n). { destruct Hy as (_ & _ & R & o & _ & _ & H2). subst rest. rewrite zlen_app in Hl. pose proof (zlen_nonneg o). lia. }
  destruct (attempt_weak f r left rest n Hy Hn Hs) as (r1 & A & B & C). rewrite A. cbn [obind]. change (negb (0 =? 0)) with false. cbv iota.
  assert (Hs1 : zlen (held (l_out r1)) < n). { destruct B as (_ & _ & R & o & _ & _ & H2 & _). subst rest. rewrite zlen_app in Hl. pose proof (zlen_nonneg o). lia. }
  assert (B' := B). destruct B as (Ho & Hw & R & o & HR & H1 & H2 & H3).
  destruct (get_decompressed_data r1 n) as [[out r2]|] eqn:G.
  - apply get_some in G; [|auto]. destruct G as (G1 & _). lia.
  - specialize (C Hs1).
    assert (Hfit : zlen (held (l_in r1)) + zlen left < 2 ^ word_bits) by (pose proof (zlen_nonneg f); lia). destruct (input_spec L r1 left Ho Hfit) as [(I1 & I2)|[(I1 & h1 & I2 & I3 & I4)|(I1 & b & h2 & I2 & I3)]]; rewrite I2; cbn [obind].
    + change (negb (1 =? 0)) with true. cbv iota. exists r1. split; [reflexivity|]. subst left. exact B'.
    + rewrite Hmem in I4. discriminate.
    + change (negb (0 =? 0)) with false. cbv iota. destruct HK as [HK|HK]; [|congruence].
      apply (IHK f (mklz (l_dec r1) (Some (b, held (l_in r1) ++ left)) (l_out r1) h2) [] rest n); auto; [|lia].
      split; [exact I3|]. cbn [l_in l_out l_dec held]. rewrite zlen_app. change (zlen (@nil Z)) with 0. split; [lia|].
      exists R, o. splits; auto. rewrite <- !app_assoc. cbn [app]. exact H1.
Qed.

(** A read of more than there is still to come waits after the chunk has been used
    up. *)
Lemma lzma_starved : forall f r left rest n, yields L f r left rest -> 0 < n -> zlen rest < n ->
  exists r1, lzma_decompress L r left n = Ret (1, [], r1, []) /\ yields L f r1 [] rest.
Proof.
  intros f r left rest n Hy Hn Hl. unfold lzma_decompress.
  assert (Hs : zlen (held (l_out r)) < n). { destruct Hy as (_ & _ & R & o & _ & _ & H2 & _). subst rest. rewrite zlen_app in Hl. pose proof (zlen_nonneg o). lia. }
  destruct (get_decompressed_data r n) as [[out r2]|] eqn:G.
  - apply get_some in G; [|auto]. destruct G as (G1 & _). lia.
  - apply loop_starved; auto; try lia. destruct Hy as (Ho & Hw & R & o & HR & H1 & H2 & H3). split; [auto|]. split; [auto|]. exists R, o. auto.
Qed.

Lemma lzma_upk_loop : forall K f z r left rest byte, zok z -> (zneed z <= K)%nat -> yields L f r left rest ->
  exists r1,
    (exists v z1 l1 left1, upk z rest = Ret (0, v, z1, l1) /\ z_cons z1 = false /\
       xunpack_size_loop L K z (XLzma r) left byte 1 = Ret (0, v, z1, XLzma r1, left1) /\ yields L f r1 left1 l1) \/
    (exists z1 l1 left1, upk z rest = Ret (- E_CORRUPT_PATCH_OVERFLOW, 0, z1, l1) /\
       xunpack_size_loop L K z (XLzma r) left byte 1 = Ret (- E_CORRUPT_PATCH_OVERFLOW, 0, z1, XLzma r1, left1) /\ owned r1) \/
    (exists z' rest', xunpack_size_loop L K z (XLzma r) left byte 1 = Ret (1, 0, z', XLzma r1, []) /\ yields L f r1 [] rest' /\ zok z' /\
       upk z' rest' = upk z rest /\ (f <> [] \/ exists z1, upk z rest = Ret (1, 0, z1, []))).
Proof.
  induction K; intros f z r left rest byte Hz HK Hy; [unfold zneed in HK; destruct (z_cons z); lia|].
  destruct rest as [|b rest].
  { cbn [xunpack_size_loop xdecompress]. destruct (lzma_starved f r left [] 1 Hy) as (r1 & A & B); [lia|cbn; lia|]. rewrite A. cbn [obind].
    change (negb (1 =? 0)) with true. cbv iota. exists r1. right. right. exists z, []. splits; auto. right. exists z. reflexivity. }
  cbn [upk xunpack_size_loop xdecompress].
  destruct (lzma_yields L Hmem f r left (b :: rest) 1 Hy) as (r1 & [(left1 & A & B & _)|(A & B & C)]).
  { rewrite zlen_cons. pose proof (zlen_nonneg rest). lia. }
  - change (ztake 1 (b :: rest)) with [b] in A. change (zdrop 1 (b :: rest)) with rest in B. rewrite A. cbn [obind].
    change (negb (0 =? 0)) with false. cbv iota zeta.
    destruct (size_byte_spec z b Hz) as [(_ & _ & S1)|(z2 & S1 & C1 & Z1 & N1 & _)]; rewrite S1 in *; cbn [obind] in *.
    { exists r1. right. left. do 3 eexists. splits; try reflexivity. apply B. }
    destruct (Z.land b 128 =? 0).
    + exists r1. left. do 4 eexists. splits; try reflexivity. exact B.
    + change (zlen [b]) with 1. apply IHK; auto. lia.
  - rewrite A. cbn [obind]. change (negb (1 =? 0)) with true. cbv iota. exists r1. right. right. exists z, (b :: rest). splits; auto.
Qed.

Lemma lzma_upk : forall f z r left rest, zok z -> yields L f r left rest ->
  exists r1,
    (exists v z1 l1 left1, upk z rest = Ret (0, v, z1, l1) /\ z_cons z1 = false /\
       xunpack_size L z (XLzma r) left = Ret (0, v, z1, XLzma r1, left1) /\ yields L f r1 left1 l1) \/
    (exists z1 l1 left1, upk z rest = Ret (- E_CORRUPT_PATCH_OVERFLOW, 0, z1, l1) /\
       xunpack_size L z (XLzma r) left = Ret (- E_CORRUPT_PATCH_OVERFLOW, 0, z1, XLzma r1, left1) /\ owned r1) \/
    (exists z' rest', xunpack_size L z (XLzma r) left = Ret (1, 0, z', XLzma r1, []) /\ yields L f r1 [] rest' /\ zok z' /\
       upk z' rest' = upk z rest /\ (f <> [] \/ exists z1, upk z rest = Ret (1, 0, z1, []))).
Proof. intros f z r left rest Hz Hy. unfold xunpack_size. eapply lzma_upk_loop; eauto. pose proof (zneed_le z Hz). lia. Qed.

(** A size field on both sides: read, refused, still to come, or missing. *)
Lemma sizes_step : forall f rz r left rest tz ps po tl, agree rz rest tz tl -> yields L f r left rest -> zok rz ->
  0 <= po -> po + zlen tl = ps -> ps + 128 < 2 ^ word_bits -> zok tz ->
  exists r1,
    (exists v z1 z2 k left1, unpack_size tz (RNone ps po) tl = Ret (0, v, z2, RNone ps (po + (zlen tl - zlen k)), k) /\ zlen k < zlen tl /\
       z_cons z2 = false /\ xunpack_size L rz (XLzma r) left = Ret (0, v, z1, XLzma r1, left1) /\ z_cons z1 = false /\ yields L f r1 left1 k) \/
    (exists z1 z2 k left1 po1, unpack_size tz (RNone ps po) tl = Ret (- E_CORRUPT_PATCH_OVERFLOW, 0, z2, RNone ps po1, k) /\
       xunpack_size L rz (XLzma r) left = Ret (- E_CORRUPT_PATCH_OVERFLOW, 0, z1, XLzma r1, left1) /\ owned r1) \/
    (exists z' rest', xunpack_size L rz (XLzma r) left = Ret (1, 0, z', XLzma r1, []) /\ yields L f r1 [] rest' /\ zok z' /\
       ((agree z' rest' tz tl /\ f <> []) \/
        ((exists z1, upk z' rest' = Ret (1, 0, z1, [])) /\
         exists z2, unpack_size tz (RNone ps po) tl = Ret (- E_CORRUPT_PATCH, 0, z2, RNone ps ps, [])))).
Proof.
  intros f rz r left rest tz ps po tl Ha Hy Hz Hpo Hps Hw Hzt.
  destruct (lzma_upk f rz r left rest Hz Hy) as (r1 & [(v & z1 & l1 & left1 & A & A0 & B & C)|[(z1 & l1 & left1 & A & B & C)|(z' & rest' & B & C & C0 & A & F)]]); exists r1.
  - left. destruct Ha as [(v' & z1' & z2 & k & P & Q & P1 & Q1)|[(z1' & z2 & k & k' & P & Q)|(z1' & z2 & P & Q)]]; rewrite A in P; try discriminate.
    injection P as <- <- <-. exists v, z1, z2, l1, left1. splits; auto.
    + apply none_upk; auto. lia.
    + eapply upk_len; eauto.
  - right. left. destruct Ha as [(v' & z1' & z2 & k & P & Q & P1 & Q1)|[(z1' & z2 & k & k' & P & Q)|(z1' & z2 & P & Q)]]; rewrite A in P; try discriminate.
    destruct (none_overflow tl tz ps po z2 k' Hzt Hpo Hps Hw Q) as (po1 & X). exists z1, z2, k', left1, po1. auto.
  - right. right. exists z', rest'. splits; auto.
    destruct Ha as [(v' & z1' & z2 & k & P & Q & P1 & Q1)|[(z1' & z2 & k & k' & P & Q)|(z1' & z2 & P & Q)]].
    + left. split; [left; exists v', z1', z2, k; rewrite A; auto|]. destruct F as [F|(z1 & F)]; [auto|rewrite P in F; discriminate].
    + left. split; [right; left; exists z1', z2, k, k'; rewrite A; auto|]. destruct F as [F|(z1 & F)]; [auto|rewrite P in F; discriminate].
    + right. split; [exists z1'; congruence|]. exists z2. apply none_short; auto.
Qed.

End Reader.
