(** The size codecs: what pack_size writes is read back by the Python and the C
    readers (C13, C14). *)

From Coq Require Import ZArith List Bool Lia ZifyBool ZifyNat ZifyN.
From Verif Require Import Prelude Lib Heatshrink CReader Spec PySize ReaderSpec ReaderProofs SizeProofs SeqSim SeqRun SeqMeaning.
Import ListNotations.
Open Scope Z_scope.

Ltac Zify.zify_post_hook ::= Z.to_euclidean_division_equations.

(** ** pack_size writes the format of the specification *)

Lemma land_127 : forall x, Z.land x 127 = x mod 128.
Proof. intros. change 127 with (Z.ones 7). rewrite Z.land_ones by lia. reflexivity. Qed.
Lemma land_63 : forall x, Z.land x 63 = x mod 64.
Proof. intros. change 63 with (Z.ones 6). rewrite Z.land_ones by lia. reflexivity. Qed.

Lemma lor_128 : forall x, 0 <= x < 128 -> Z.lor 128 x = 128 + x.
Proof. intros x Hx. rewrite Z.lor_comm. change 128 with (Z.shiftl 1 7) at 1. rewrite lor_add by lia. lia. Qed.

Lemma lor_64 : forall x, 0 <= x < 64 -> Z.lor 64 (128 + x) = 192 + x.
Proof.
  intros x Hx. rewrite <- lor_128 by lia. rewrite Z.lor_assoc. change (Z.lor 64 128) with (Z.shiftl 3 6).
  rewrite Z.lor_comm, lor_add by lia. lia.
Qed.

Lemma enc_groups_k : forall k K a, 0 <= a < 2 ^ (7 * Z.of_nat k) -> (k <= K)%nat -> enc_groups K a = enc_groups k a.
Proof.
  induction k; intros K a Ha HK.
  - change (2 ^ (7 * Z.of_nat 0)) with 1 in Ha. assert (a = 0) by lia. subst a. destruct K; reflexivity.
  - destruct K as [|K]; [lia|]. cbn [enc_groups]. destruct (a =? 0); [auto|]. destruct (Z.ltb_spec a 128); [auto|].
    f_equal. apply IHk; [|lia]. rewrite Nat2Z.inj_succ in Ha. unfold Z.succ in Ha. rewrite Z.mul_add_distr_l, Z.pow_add_r in Ha by lia.
    change (2 ^ (7 * 1)) with 128 in Ha. split; [lia|]. apply Z.div_lt_upper_bound; lia.
Qed.

Lemma pack_loop_enc : forall k a, 0 <= a < 2 ^ (7 * Z.of_nat k) ->
  exists l, pack_loop k a = Ret l /\ (a = 0 -> l = []) /\
    (0 < a -> forall x, clear_last (x :: l) = x :: enc_groups k a).
Proof.
  induction k; intros a Ha.
  - change (2 ^ (7 * Z.of_nat 0)) with 1 in Ha. assert (a = 0) by lia. subst a. exists []. split; [reflexivity|]. split; [auto|lia].
  - cbn [pack_loop]. destruct (Z.ltb_spec 0 a); [|exists []; split; [auto|split; [auto|lia]]].
    rewrite Z.shiftr_div_pow2 by lia. change (2 ^ 7) with 128.
    rewrite Nat2Z.inj_succ in Ha. unfold Z.succ in Ha. rewrite Z.mul_add_distr_l, Z.pow_add_r in Ha by lia.
    change (2 ^ (7 * 1)) with 128 in Ha.
    destruct (IHk (a / 128)) as (l & A & B & C). { split; [lia|]. apply Z.div_lt_upper_bound; lia. }
    rewrite A. cbn [obind]. eexists. split; [reflexivity|]. split; [lia|]. intros _ x.
    rewrite land_127, lor_128 by lia. cbn [enc_groups]. destruct (Z.eqb_spec a 0); [lia|]. destruct (Z.ltb_spec a 128).
    + rewrite B by (apply Z.div_small; lia). cbn [clear_last]. rewrite land_127. f_equal. f_equal. lia.
    + change (x :: clear_last (128 + a mod 128 :: l) = x :: (a mod 128 + 128) :: enc_groups k (a / 128)).
      rewrite C by lia. f_equal. f_equal. lia.
Qed.

Lemma pack_size_enc : forall v, - 2 ^ 63 < v < 2 ^ 63 -> c_pack_size v = Ret (enc_size v).
Proof.
  intros v Hv. change (2 ^ 63) with 9223372036854775808 in Hv. unfold c_pack_size. destruct (Z.eqb_spec v 0) as [->|Hz]; [reflexivity|].
  cbv zeta. replace (if 0 <? v then Ret v else if v =? - 2 ^ 63 then Undef else Ret (- v)) with (Ret (Z.abs v)).
  2: { change (- 2 ^ 63) with (-9223372036854775808). destruct (Z.ltb_spec 0 v); [f_equal; lia|]. destruct (Z.eqb_spec v (-9223372036854775808)); [lia|]. f_equal. lia. }
  cbn [obind]. set (a := Z.abs v) in *. assert (Ha : 0 < a < 9223372036854775808) by lia.
  destruct (pack_loop_enc 9 (Z.shiftr a 6)) as (l & A & B & C).
  { rewrite Z.shiftr_div_pow2 by lia. change (2 ^ 6) with 64. change (2 ^ (7 * Z.of_nat 9)) with 9223372036854775808. lia. }
  rewrite A. cbn [obind]. f_equal. unfold enc_size. fold a. cbv zeta.
  rewrite Z.shiftr_div_pow2 in * by lia. change (2 ^ 6) with 64 in *. rewrite land_63, lor_128 by lia.
  assert (E : Z.lor (if 0 <? v then 0 else 64) (128 + a mod 64) = 128 + (if v <? 0 then 64 else 0) + a mod 64).
  { destruct (Z.ltb_spec 0 v); destruct (Z.ltb_spec v 0); [lia|rewrite Z.lor_0_l; lia|rewrite lor_64 by lia; lia|lia]. }
  rewrite E. destruct (Z.ltb_spec a 64).
  - rewrite B by (apply Z.div_small; lia). cbn [clear_last]. rewrite land_127. f_equal. destruct (v <? 0); lia.
  - rewrite C by lia. f_equal. symmetry. apply enc_groups_k; [|lia]. change (2 ^ (7 * Z.of_nat 9)) with 9223372036854775808. lia.
Qed.

(** ** The Python reader *)

Lemma py_loop_enc : forall k a value off rest, 0 < a < 2 ^ (7 * Z.of_nat k) -> 0 <= off -> 0 <= value < 2 ^ off ->
  py_unpack_loop (enc_groups k a ++ rest) value off = Some (value + a * 2 ^ off, rest).
Proof.
  induction k; intros a value off rest Ha Ho Hv.
  - change (2 ^ (7 * Z.of_nat 0)) with 1 in Ha. lia.
  - cbn [enc_groups]. destruct (Z.eqb_spec a 0); [lia|]. destruct (Z.ltb_spec a 128); cbn [app py_unpack_loop]; cbv zeta.
    + rewrite land_127, Z.mod_small by lia. rewrite lor_add by lia. rewrite land_128_byte by (unfold byte_ok; lia).
      destruct (Z.ltb_spec a 128); [auto|lia].
    + rewrite land_127, lor_add by lia. rewrite land_128_byte by (unfold byte_ok; lia).
      destruct (Z.ltb_spec (a mod 128 + 128) 128); [lia|].
      rewrite Nat2Z.inj_succ in Ha. unfold Z.succ in Ha. rewrite Z.mul_add_distr_l, Z.pow_add_r in Ha by lia.
      change (2 ^ (7 * 1)) with 128 in Ha.
      replace ((a mod 128 + 128) mod 128) with (a mod 128) by lia.
      rewrite IHk.
      * f_equal. f_equal. rewrite Z.pow_add_r by lia. change (2 ^ 7) with 128. pose proof (Z.div_mod a 128). nia.
      * split; [lia|]. apply Z.div_lt_upper_bound; lia.
      * lia.
      * rewrite Z.pow_add_r by lia. change (2 ^ 7) with 128. nia.
Qed.

Lemma land_64_ge : forall b, byte_ok b -> (Z.land b 64 =? 0) = (b mod 128 <? 64).
Proof. intros b Hb. unfold byte_ok in Hb. assert (b = Z.of_nat (Z.to_nat b)) by lia. 
  assert (forallb (fun n => Bool.eqb (Z.land (Z.of_nat n) 64 =? 0) (Z.of_nat n mod 128 <? 64)) (seq 0 256) = true) by (vm_compute; reflexivity).
  rewrite forallb_forall in H0. rewrite H. apply eqb_prop. apply H0. apply in_seq. lia. Qed.

Lemma py_unpack_enc : forall v rest, - 2 ^ 63 < v < 2 ^ 63 -> py_unpack_size (enc_size v ++ rest) = Some (v, rest).
Proof.
  intros v rest Hv. change (2 ^ 63) with 9223372036854775808 in Hv. unfold enc_size. cbv zeta. set (a := Z.abs v).
  assert (Ha : 0 <= a < 9223372036854775808) by lia. destruct (Z.ltb_spec a 64); cbn [app]; unfold py_unpack_size.
  - rewrite land_128_byte by (unfold byte_ok; destruct (v <? 0); lia). rewrite land_63, land_64_ge by (unfold byte_ok; destruct (v <? 0); lia).
    destruct (Z.ltb_spec ((if v <? 0 then 64 else 0) + a) 128); [|destruct (v <? 0); lia].
    destruct (Z.ltb_spec (((if v <? 0 then 64 else 0) + a) mod 128) 64); destruct (Z.ltb_spec v 0); f_equal; f_equal; lia.
  - rewrite land_128_byte by (unfold byte_ok; destruct (v <? 0); lia). rewrite land_63, land_64_ge by (unfold byte_ok; destruct (v <? 0); lia).
    destruct (Z.ltb_spec (128 + (if v <? 0 then 64 else 0) + a mod 64) 128); [destruct (v <? 0); lia|].
    replace ((128 + (if v <? 0 then 64 else 0) + a mod 64) mod 64) with (a mod 64) by (destruct (v <? 0); lia).
    rewrite py_loop_enc; [| |lia|change (2 ^ 6) with 64; lia].
    + change (2 ^ 6) with 64. destruct (Z.ltb_spec ((128 + (if v <? 0 then 64 else 0) + a mod 64) mod 128) 64); destruct (Z.ltb_spec v 0); f_equal; f_equal; lia.
    + change (2 ^ (7 * Z.of_nat 10)) with 1180591620717411303424. lia.
Qed.

Lemma py_size_codec : forall v rest, - 2 ^ 63 < v < 2 ^ 63 ->
  exists l, py_pack_size v = Ret (Some l) /\ py_unpack_size (l ++ rest) = Some (v, rest).
Proof.
  intros v rest Hv. exists (enc_size v). split; [|apply py_unpack_enc; auto].
  unfold py_pack_size. destruct (Z.leb_spec (- 2 ^ 63) v); [|lia]. destruct (Z.ltb_spec v (2 ^ 63)); [|lia].
  cbn [andb]. rewrite pack_size_enc by auto. reflexivity.
Qed.

Lemma py_usize_codec : forall v rest, 0 <= v < 2 ^ 64 -> v <> 2 ^ 63 ->
  exists l, py_pack_usize v = Ret (Some l) /\ py_unpack_usize (l ++ rest) = Some (v, rest).
Proof.
  intros v rest Hv Hne. assert (Hs : - 2 ^ 63 < to_signed v < 2 ^ 63).
  { unfold to_signed. change (2 ^ 64) with 18446744073709551616 in *. change (2 ^ 63) with 9223372036854775808 in *.
    destruct (Z.ltb_spec v 9223372036854775808); lia. }
  destruct (py_size_codec (to_signed v) rest Hs) as (l & A & B). exists l. split.
  - unfold py_pack_usize. destruct (Z.leb_spec 0 v); [|lia]. destruct (Z.ltb_spec v (2 ^ 64)); [|lia]. exact A.
  - unfold py_unpack_usize. rewrite B. destruct (Z.leb_spec (- 2 ^ 63) (to_signed v)); [|lia].
    destruct (Z.ltb_spec (to_signed v) (2 ^ 63)); [|lia]. cbn [andb]. f_equal. f_equal.
    unfold to_unsigned, to_signed in *. change (2 ^ 64) with 18446744073709551616 in *. change (2 ^ 63) with 9223372036854775808 in *.
    destruct (Z.ltb_spec v 9223372036854775808).
    + destruct (Z.ltb_spec v 0); lia.
    + destruct (Z.ltb_spec (v - 18446744073709551616) 0); lia.
Qed.

(** ** The C readers *)

Lemma header_pieces_eq : forall pieces z res v z1 l1, zok z -> unpack_header_size (concat pieces) z = Ret (res, v, z1, l1) ->
  res <> 1 -> header_pieces z pieces = Ret (res, v, l1).
Proof.
  induction pieces as [|p ps IH]; intros z res v z1 l1 Hz X Hr; cbn [concat header_pieces] in *.
  - cbn in X. inv X. congruence.
  - destruct (uhs_app p z (concat ps) Hz)
        as [(z2 & P & Q & R)|[(v2 & z2 & l2 & used & P & Q & R & S)|(z2 & l2 & P & R)]]; rewrite P; cbn [obind].
    + change (1 =? 1) with true. cbv iota. eapply IH; eauto. rewrite <- R. exact X.
    + change (0 =? 1) with false. cbv iota. rewrite S in X. inv X. reflexivity.
    + change (- E_CORRUPT_PATCH_OVERFLOW =? 1) with false. cbv iota. rewrite R in X. inv X. reflexivity.
Qed.

Section Word.
Context {WBits : WordBits}.
Hypothesis Hword : 32 <= word_bits.


Lemma none_pull : forall ps po b l, 0 <= po -> po + 1 <= ps -> ps + 128 < 2 ^ word_bits ->
  pull (RNone ps po) (b :: l) = Ret (0, [b], RNone ps (po + 1), l).
Proof.
  intros ps po b l H1 H2 H3. unfold pull. cbn [decompress]. unfold none_decompress. rewrite wrap_small by lia.
  destruct (Z.ltb_spec ps (po + 1)); [lia|]. rewrite zlen_cons. pose proof (zlen_nonneg l).
  replace (Z.min 1 (1 + zlen l)) with 1 by lia. rewrite wrap_small by lia.
  unfold ztake, zdrop. reflexivity.
Qed.

Lemma none_us : forall p K z ps po f, zok z -> (zneed z <= K)%nat -> 0 <= po -> po + zlen (p ++ f) <= ps -> ps + 128 < 2 ^ word_bits -> bytes_ok f ->
  (exists z1, us K z (RNone ps po) p = Ret (1, 0, z1, RNone ps (po + zlen p), []) /\ zok z1 /\
     forall K', (5 <= K')%nat -> us K z (RNone ps po) (p ++ f) = us K' z1 (RNone ps (po + zlen p)) f) \/
  (exists v z1 po1 l1, us K z (RNone ps po) p = Ret (0, v, z1, RNone ps po1, l1) /\
     us K z (RNone ps po) (p ++ f) = Ret (0, v, z1, RNone ps po1, l1 ++ f)) \/
  (exists z1 po1 l1, us K z (RNone ps po) p = Ret (- E_CORRUPT_PATCH_OVERFLOW, 0, z1, RNone ps po1, l1) /\
     us K z (RNone ps po) (p ++ f) = Ret (- E_CORRUPT_PATCH_OVERFLOW, 0, z1, RNone ps po1, l1 ++ f)) \/
  (exists v z1 r1 l1, us K z (RNone ps po) p = Ret (- E_CORRUPT_PATCH, v, z1, r1, l1) /\ f = []).
Proof.
  induction p as [|b p IH]; intros K z ps po f Hz HK Hpo Hps Hw Hf.
  - destruct K as [|K]; [unfold zneed in HK; destruct (z_cons z); lia|]. cbn [app] in *.
    destruct (Z.eq_dec po ps) as [->|Hne].
    + right; right; right. cbn [us]. unfold pull. cbn [decompress]. unfold none_decompress. rewrite wrap_small by lia.
      destruct (Z.ltb_spec ps (ps + 1)); [|lia]. cbn [obind]. change (negb (- E_CORRUPT_PATCH =? 0)) with true. cbv iota.
      do 4 eexists. split; [reflexivity|]. apply zlen_0_nil. pose proof (zlen_nonneg f). lia.
    + left. exists z. change (zlen (@nil Z)) with 0. rewrite Z.add_0_r. pose proof (zlen_nonneg f). split; [|split; [auto|]].
      * cbn [us]. unfold pull. cbn [decompress]. unfold none_decompress. rewrite wrap_small by lia.
        destruct (Z.ltb_spec ps (po + 1)); [lia|]. reflexivity.
      * intros K' HK'. apply us_fuel; auto; [cbn; lia|]. pose proof (zneed_le z Hz). lia.
  - destruct K as [|K]; [unfold zneed in HK; destruct (z_cons z); lia|]. cbn [app] in *. rewrite zlen_cons in *.
    pose proof (zlen_nonneg (p ++ f)). cbn [us]. rewrite !none_pull by lia. cbn [obind]. change (negb (0 =? 0)) with false. cbv iota.
    destruct (size_byte_spec z b Hz) as [(_ & _ & S)|(z1 & S & Ec & Hz1 & Hnd & Hv & _)]; rewrite S; cbn [obind].
    + right; right; left. exists z, (po + 1), p. auto.
    + destruct (Z.land b 128 =? 0).
      * right; left. do 4 eexists. split; reflexivity.
      * destruct (IH K z1 ps (po + 1) f) as [(z2 & U1 & U2 & U3)|[U|[U|U]]]; auto; try lia.
        left. exists z2. replace (po + (1 + zlen p)) with (po + 1 + zlen p) by lia. auto.
Qed.

Lemma size_pieces_eq : forall pieces z ps po res v z1 r1 i1, zok z -> bytes_ok (concat pieces) -> 0 <= po ->
  po + zlen (concat pieces) <= ps -> ps + 128 < 2 ^ word_bits ->
  us 6 z (RNone ps po) (concat pieces) = Ret (res, v, z1, r1, i1) -> res <> 1 -> res <> - E_CORRUPT_PATCH ->
  size_pieces z (RNone ps po) pieces = Ret (res, v, i1).
Proof.
  induction pieces as [|p ps' IH]; intros z ps po res v z1 r1 i1 Hz Hb Hpo Hps Hw X R1 R9; cbn [concat size_pieces] in *.
  - exfalso. destruct five as (n5 & E5). change (us 6 z (RNone ps po) []) with (us (S 5) z (RNone ps po) []) in X. rewrite <- E5 in X. cbn [us] in X. unfold pull in X.
    cbn [decompress] in X. unfold none_decompress in X. destruct (_ <? _); cbn [obind] in X;
      [change (negb (- E_CORRUPT_PATCH =? 0)) with true in X|change (negb (1 =? 0)) with true in X]; cbv iota in X; inv X; ((apply R9; reflexivity) || (apply R1; reflexivity)).
  - apply Forall_app in Hb. destruct Hb as [Hb1 Hb2].
    assert (Hr : rok (RNone ps po)) by (cbn; pose proof (zlen_nonneg (p ++ concat ps')); lia).
    unfold unpack_size. rewrite us_unpack; auto; [|apply nozero_none].
    pose proof (zneed_le z Hz). rewrite zlen_app in Hps.
    destruct (none_us p 6 z ps po (concat ps') Hz ltac:(lia) Hpo ltac:(rewrite zlen_app; lia) Hw Hb2)
      as [(z2 & U1 & U2 & U3)|[(v2 & z2 & po2 & l2 & U1 & U2)|[(z2 & po2 & l2 & U1 & U2)|(v2 & z2 & r2 & l2 & U1 & U2)]]]; rewrite U1; cbn [obind].
    + change (1 =? 1) with true. cbv iota. eapply IH; eauto; [pose proof (zlen_nonneg p); lia|lia|]. rewrite <- (U3 6%nat) by lia. exact X.
    + change (0 =? 1) with false. cbv iota. rewrite U2 in X. inv X. reflexivity.
    + change (- E_CORRUPT_PATCH_OVERFLOW =? 1) with false. cbv iota. rewrite U2 in X. inv X. reflexivity.
    + exfalso. rewrite U2, app_nil_r in X. rewrite U1 in X. inv X. apply R9; reflexivity.
Qed.

(** Four bytes with the continuation bit are followed by a fifth one only in
    values of 2^27 and more. *)
Lemma enc_big : forall v, 2 ^ 27 <= Z.abs v -> exists b0 b1 b2 b3 b4 l, enc_size v = b0 :: b1 :: b2 :: b3 :: b4 :: l /\
  128 <= b0 < 256 /\ 128 <= b1 < 256 /\ 128 <= b2 < 256 /\ 128 <= b3 < 256.
Proof.
  intros v Hv. change (2 ^ 27) with 134217728 in Hv. unfold enc_size. cbv zeta. set (a := Z.abs v) in *.
  destruct (Z.ltb_spec a 64); [lia|].
  assert (G : forall k x, 128 <= x -> exists y, enc_groups (S k) x = y :: enc_groups k (x / 128) /\ 128 <= y < 256).
  { intros k x Hx. cbn [enc_groups]. destruct (Z.eqb_spec x 0); [lia|]. destruct (Z.ltb_spec x 128); [lia|].
    eexists. split; [reflexivity|lia]. }
  destruct (G 9%nat (a / 64) ltac:(lia)) as (b1 & E1 & B1). rewrite E1.
  destruct (G 8%nat (a / 64 / 128) ltac:(lia)) as (b2 & E2 & B2). rewrite E2.
  destruct (G 7%nat (a / 64 / 128 / 128) ltac:(lia)) as (b3 & E3 & B3). rewrite E3.
  assert (G4 : forall k x, 1 <= x -> exists y l, enc_groups (S k) x = y :: l).
  { intros k x Hx. cbn [enc_groups]. destruct (Z.eqb_spec x 0); [lia|]. destruct (Z.ltb_spec x 128); eauto. }
  destruct (G4 6%nat (a / 64 / 128 / 128 / 128) ltac:(lia)) as (b4 & l & E4). rewrite E4.
  do 6 eexists. split; [reflexivity|]. destruct (v <? 0); lia.
Qed.

Lemma none_us_step : forall K z ps po b l, zok z -> z_cons z = true -> z_offset z < 27 -> 128 <= b < 256 ->
  0 <= po -> po + 1 <= ps -> ps + 128 < 2 ^ word_bits ->
  exists z1, us (S K) z (RNone ps po) (b :: l) = us K z1 (RNone ps (po + 1)) l /\ zok z1 /\ z_cons z1 = true /\
    z_offset z1 = z_offset z + 7.
Proof.
  intros K z ps po b l Hz Hc Ho Hb H1 H2 H3. cbn [us]. rewrite none_pull by lia. cbn [obind]. change (negb (0 =? 0)) with false. cbv iota.
  destruct (size_byte_spec z b Hz) as [(_ & X & _)|(z1 & S & Ec & Hz1 & Hnd & Hv & A & _)]; [lia|]. rewrite S. cbn [obind].
  rewrite land_128_byte by (unfold byte_ok; lia). destruct (Z.ltb_spec b 128); [lia|]. exists z1. destruct (A Hc) as (_ & A2 & _). auto.
Qed.

Lemma us_big : forall v z ps po rest, 2 ^ 27 <= Z.abs v -> z_cons z = false -> 0 <= po ->
  po + zlen (enc_size v ++ rest) <= ps -> ps + 128 < 2 ^ word_bits ->
  exists z1 r1 i1, us 6 z (RNone ps po) (enc_size v ++ rest) = Ret (- E_CORRUPT_PATCH_OVERFLOW, 0, z1, r1, i1).
Proof.
  intros v z ps po rest Hv Hc Hpo Hps Hw. destruct (enc_big v Hv) as (b0 & b1 & b2 & b3 & b4 & l & E & B0 & B1 & B2 & B3).
  rewrite E in *. cbn [app] in *. rewrite !zlen_cons in Hps. pose proof (zlen_nonneg (l ++ rest)).
  destruct five as (n5 & E5). change 6%nat with (S 5). rewrite <- E5. cbn [us]. rewrite none_pull by lia.
  cbn [obind]. change (negb (0 =? 0)) with false. cbv iota.
  assert (Hz : zok z) by (intros X; congruence).
  destruct (size_byte_spec z b0 Hz) as [(X & _)|(z1 & S & Ec & Hz1 & Hnd & Hv1 & _ & A)]; [congruence|]. rewrite S. cbn [obind].
  rewrite land_128_byte by (unfold byte_ok; lia). destruct (Z.ltb_spec b0 128); [lia|]. destruct (A Hc) as (A2 & _).
  subst n5.
  destruct (none_us_step 4 z1 ps (po + 1) b1 (b2 :: b3 :: b4 :: l ++ rest) Hz1 Ec ltac:(lia) B1 ltac:(lia) ltac:(lia) Hw) as (z2 & E2 & Hz2 & C2 & O2).
  rewrite E2.
  destruct (none_us_step 3 z2 ps (po + 1 + 1) b2 (b3 :: b4 :: l ++ rest) Hz2 C2 ltac:(lia) B2 ltac:(lia) ltac:(lia) Hw) as (z3 & E3 & Hz3 & C3 & O3).
  rewrite E3.
  destruct (none_us_step 2 z3 ps (po + 1 + 1 + 1) b3 (b4 :: l ++ rest) Hz3 C3 ltac:(lia) B3 ltac:(lia) ltac:(lia) Hw) as (z4 & E4 & Hz4 & C4 & O4).
  rewrite E4. cbn [us]. rewrite none_pull by lia. cbn [obind]. change (negb (0 =? 0)) with false. cbv iota.
  destruct (size_byte_spec z4 b4 Hz4) as [(_ & _ & X)|(z5 & _ & _ & _ & _ & _ & A5 & _)]; [|destruct (A5 C4); lia].
  rewrite X. cbn [obind]. eauto.
Qed.

Lemma uhs_big : forall v z rest, 2 ^ 27 <= Z.abs v -> z_cons z = false ->
  exists z1 i1, unpack_header_size (enc_size v ++ rest) z = Ret (- E_CORRUPT_PATCH_OVERFLOW, 0, z1, i1).
Proof.
  intros v z rest Hv Hc. destruct (enc_big v Hv) as (b0 & b1 & b2 & b3 & b4 & l & E & B0 & B1 & B2 & B3).
  rewrite E. cbn [app]. assert (Hz : zok z) by (intros X; congruence).
  assert (Step : forall z b l, zok z -> z_cons z = true -> z_offset z < 27 -> 128 <= b < 256 -> exists z1,
    unpack_header_size (b :: l) z = unpack_header_size l z1 /\ zok z1 /\ z_cons z1 = true /\ z_offset z1 = z_offset z + 7).
  { clear. intros z b l Hz Hc Ho Hb. rewrite uhs_unfold.
    destruct (hdr_byte_spec z b Hz) as [(_ & X & _)|(z2 & A & A1 & A2 & _ & A3 & A4 & _)]; [lia|]. rewrite A. cbn [obind].
    rewrite land_128_byte by (unfold byte_ok; lia). destruct (Z.ltb_spec b 128); [lia|]. exists z2. destruct (A4 Hc) as (_ & A5 & _). auto. }
  rewrite uhs_unfold. destruct (hdr_byte_spec z b0 Hz) as [(X & _)|(z1 & A & Ec & Hz1 & _ & A3 & _ & A4)]; [congruence|]. rewrite A. cbn [obind].
  rewrite land_128_byte by (unfold byte_ok; lia). destruct (Z.ltb_spec b0 128); [lia|]. destruct (A4 Hc) as (O1 & _).
  destruct (Step z1 b1 (b2 :: b3 :: b4 :: l ++ rest) Hz1 Ec ltac:(lia) B1) as (z2 & E2 & Hz2 & C2 & O2). rewrite E2.
  destruct (Step z2 b2 (b3 :: b4 :: l ++ rest) Hz2 C2 ltac:(lia) B2) as (z3 & E3 & Hz3 & C3 & O3). rewrite E3.
  destruct (Step z3 b3 (b4 :: l ++ rest) Hz3 C3 ltac:(lia) B3) as (z4 & E4 & Hz4 & C4 & O4). rewrite E4.
  rewrite uhs_unfold. destruct (hdr_byte_spec z4 b4 Hz4) as [(_ & _ & X)|(z5 & _ & _ & _ & _ & _ & A5 & _)]; [|destruct (A5 C4); lia].
  rewrite X. cbn [obind]. eauto.
Qed.

Lemma enc_groups_bytes : forall k a, 0 <= a -> bytes_ok (enc_groups k a).
Proof.
  induction k; intros a Ha; cbn [enc_groups]; [constructor|]. destruct (a =? 0); [constructor|].
  destruct (Z.ltb_spec a 128); [repeat constructor; unfold byte_ok; lia|]. constructor; [unfold byte_ok; lia|]. apply IHk. lia.
Qed.

Lemma enc_size_bytes : forall v, bytes_ok (enc_size v).
Proof.
  intros v. unfold enc_size. cbv zeta. destruct (Z.ltb_spec (Z.abs v) 64); constructor; try (unfold byte_ok; destruct (v <? 0); lia); [constructor|].
  apply enc_groups_bytes. lia.
Qed.

(** C13, the C reader of the fields in the patch body (uncompressed patch). *)
Lemma c_size_codec : forall v pieces rest z ps po, - 2 ^ 63 < v < 2 ^ 63 -> concat pieces = enc_size v ++ rest -> bytes_ok rest ->
  z_cons z = false -> 0 <= po -> po + zlen (concat pieces) <= ps -> ps + 128 < 2 ^ word_bits ->
  if Z.abs v <? 2 ^ 27 then size_pieces z (RNone ps po) pieces = Ret (0, v, rest)
  else exists l, size_pieces z (RNone ps po) pieces = Ret (- E_CORRUPT_PATCH_OVERFLOW, 0, l).
Proof.
  intros v pieces rest z ps po Hv Hp Hb Hc Hpo Hps Hw.
  assert (Hz : zok z) by (intros X; congruence).
  assert (Hbp : bytes_ok (concat pieces)) by (rewrite Hp; apply Forall_app; split; [apply enc_size_bytes|auto]).
  destruct (Z.ltb_spec (Z.abs v) (2 ^ 27)).
  - assert (Hr : rok (RNone ps po)) by (cbn; pose proof (zlen_nonneg (concat pieces)); lia).
    pose proof (none_pulls Hword (enc_size v) ps po rest Hpo Hw) as P. rewrite Hp, zlen_app in Hps. pose proof (zlen_nonneg rest).
    specialize (P ltac:(lia)).
    destruct (us_enc Hword v z _ _ _ _ P Hr) as (z1 & U & _); auto; [rewrite <- Hp; auto|lia|].
    eapply size_pieces_eq; [auto|auto|auto| |auto| | |]; [rewrite Hp, zlen_app; lia|rewrite Hp; exact U|lia|discriminate].
  - rewrite Hp in Hps. destruct (us_big v z ps po rest H Hc Hpo Hps Hw) as (z1 & r1 & i1 & U).
    exists i1. eapply size_pieces_eq; [auto|auto|auto| |auto| | |]; [rewrite Hp; lia|rewrite Hp; exact U|discriminate|discriminate].
Qed.

End Word.

(** C13, the C reader of the header fields (which are not negative). *)
Lemma uhs_groups : forall k a z rest, z_cons z = true -> zok z -> 0 < a < 2 ^ (27 - z_offset z) -> a < 2 ^ (7 * Z.of_nat k) ->
  exists z1, unpack_header_size (enc_groups k a ++ rest) z = Ret (0, z_value z + a * 2 ^ z_offset z, z1, rest).
Proof.
  induction k; intros a z rest Hc Hz Ha Hk; [change (2 ^ (7 * Z.of_nat 0)) with 1 in Hk; lia|].
  destruct (Hz Hc) as (O1 & O2 & O3).
  assert (Hoff : z_offset z <> 27). { intros X. rewrite X in Ha. change (2 ^ (27 - 27)) with 1 in Ha. lia. }
  cbn [enc_groups]. destruct (Z.eqb_spec a 0); [lia|].
  rewrite Nat2Z.inj_succ in Hk. unfold Z.succ in Hk. rewrite Z.mul_add_distr_l, Z.pow_add_r in Hk by lia.
  change (2 ^ (7 * 1)) with 128 in Hk.
  destruct (Z.ltb_spec a 128); cbn [app]; rewrite uhs_unfold.
  - destruct (hdr_byte_spec z a Hz) as [(_ & X & _)|(z2 & A & A1 & A2 & _ & A3 & A4 & _)]; [lia|]. rewrite A. cbn [obind].
    rewrite land_128_byte by (unfold byte_ok; lia). destruct (Z.ltb_spec a 128); [|lia]. destruct (A4 Hc) as (_ & _ & A5).
    eexists. rewrite A5, Z.mod_small by lia. reflexivity.
  - destruct (hdr_byte_spec z (a mod 128 + 128) Hz) as [(_ & X & _)|(z2 & A & A1 & A2 & _ & A3 & A4 & _)]; [lia|]. rewrite A. cbn [obind].
    rewrite land_128_byte by (unfold byte_ok; lia). destruct (Z.ltb_spec (a mod 128 + 128) 128); [lia|]. destruct (A4 Hc) as (_ & A5 & A6).
    destruct (IHk (a / 128) z2 rest A1 A2) as (z3 & U).
    + split; [lia|]. rewrite A5. apply Z.div_lt_upper_bound; [lia|]. change 128 with (2 ^ 7). rewrite <- Z.pow_add_r by lia.
      replace (7 + (27 - (z_offset z + 7))) with (27 - z_offset z) by lia. lia.
    + apply Z.div_lt_upper_bound; lia.
    + exists z3. rewrite U. do 4 f_equal. rewrite A6, A5, Z.pow_add_r by lia. change (2 ^ 7) with 128.
      replace ((a mod 128 + 128) mod 128) with (a mod 128) by lia. pose proof (Z.div_mod a 128). nia.
Qed.

Lemma uhs_enc : forall v z rest, 0 <= v < 2 ^ 27 -> z_cons z = false ->
  exists z1, unpack_header_size (enc_size v ++ rest) z = Ret (0, v, z1, rest).
Proof.
  intros v z rest Hv Hc. change (2 ^ 27) with 134217728 in Hv. assert (Hz : zok z) by (intros X; congruence). unfold enc_size. cbv zeta.
  replace (Z.abs v) with v by lia. destruct (Z.ltb_spec v 0); [lia|].
  destruct (Z.ltb_spec v 64); cbn [app]; rewrite uhs_unfold.
  - destruct (hdr_byte_spec z (0 + v) Hz) as [(X & _)|(z1 & A & Ec & Hz1 & _ & A3 & _ & A4)]; [congruence|]. rewrite A. cbn [obind].
    rewrite land_128_byte by (unfold byte_ok; lia). destruct (Z.ltb_spec (0 + v) 128); [|lia]. destruct (A4 Hc) as (_ & A5).
    eexists. rewrite A5, Z.mod_small by lia. reflexivity.
  - destruct (hdr_byte_spec z (128 + 0 + v mod 64) Hz) as [(X & _)|(z1 & A & Ec & Hz1 & _ & A3 & _ & A4)]; [congruence|]. rewrite A. cbn [obind].
    rewrite land_128_byte by (unfold byte_ok; lia). destruct (Z.ltb_spec (128 + 0 + v mod 64) 128); [lia|]. destruct (A4 Hc) as (A5 & A6).
    destruct (uhs_groups 10 (v / 64) z1 rest Ec Hz1) as (z3 & U).
    + rewrite A5. change (2 ^ (27 - 6)) with 2097152. lia.
    + change (2 ^ (7 * Z.of_nat 10)) with 1180591620717411303424. lia.
    + exists z3. rewrite U. do 4 f_equal. rewrite A6, A5. change (2 ^ 6) with 64. lia.
Qed.

Lemma c_header_codec : forall v pieces rest z, 0 <= v < 2 ^ 63 -> concat pieces = enc_size v ++ rest -> z_cons z = false ->
  if v <? 2 ^ 27 then header_pieces z pieces = Ret (0, v, rest)
  else exists l, header_pieces z pieces = Ret (- E_CORRUPT_PATCH_OVERFLOW, 0, l).
Proof.
  intros v pieces rest z Hv Hp Hc. assert (Hz : zok z) by (intros X; congruence).
  destruct (Z.ltb_spec v (2 ^ 27)).
  - destruct (uhs_enc v z rest ltac:(lia) Hc) as (z1 & U). eapply header_pieces_eq; [auto|rewrite Hp; exact U|lia].
  - destruct (uhs_big v z rest ltac:(lia) Hc) as (z1 & i1 & U). exists i1. eapply header_pieces_eq; [auto|rewrite Hp; exact U|discriminate].
Qed.
