(** The applier fed with an LZMA patch does what it does when it is given the same
    records uncompressed, call by call. *)

From Coq Require Import ZArith List Bool Lia ZifyBool ZifyNat ZifyN.
From Verif Require Import Prelude Lib Heatshrink CReader ReaderProofs SizeProofs CSeq Spec SeqSpec SeqTerm SeqRun SeqMeaning SeqApply SeqTrunc CLzma CSeqLzma LzmaSpec LzmaProofs.
Import ListNotations.
Open Scope Z_scope.

Ltac Zify.zify_post_hook ::= Z.to_euclidean_division_equations.

(** ** Size fields of a list of bytes *)

Fixpoint upk (z : size_st) (l : list Z) : outcome (Z * Z * size_st * list Z) :=
  match l with
  | [] => Ret (1, 0, z, [])
  | b :: l' =>
      letm oz := size_byte z b in
      match oz with
      | None => Ret (- E_CORRUPT_PATCH_OVERFLOW, 0, z, l')
      | Some z1 =>
          if Z.land b 128 =? 0 then
            let v := if z_signed z1 then - z_value z1 else z_value z1 in
            Ret (0, v, mksz false v (z_offset z1) (z_signed z1), l')
          else upk z1 l'
      end
  end.

Lemma upk_groups : forall k a z l, zok z -> z_cons z = true -> 0 < a < 2 ^ (27 - z_offset z) -> (27 - z_offset z) / 7 <= Z.of_nat k ->
  exists z1, upk z (enc_groups k a ++ l) = Ret (0, (if z_signed z then -1 else 1) * (z_value z + a * 2 ^ z_offset z), z1, l) /\ z_cons z1 = false.
Proof.
  induction k; intros a z l Hz Hc Ha Hk.
  { destruct (Hz Hc) as (A & B & C). assert (z_offset z = 27) by lia. rewrite H in Ha. change (2 ^ (27 - 27)) with 1 in Ha. lia. }
  destruct (Hz Hc) as (O1 & O2 & O3). cbn [enc_groups]. destruct (Z.eqb_spec a 0); [lia|].
  destruct (Z.ltb_spec a 128); cbn [app upk].
  - destruct (size_byte_spec z a Hz) as [(_ & X & _)|(z1 & S & _ & _ & _ & _ & S1 & _)].
    { rewrite X in Ha. change (2 ^ (27 - 27)) with 1 in Ha. lia. }
    rewrite S. cbn [obind]. rewrite land_128_byte by (unfold byte_ok; lia). destruct (Z.ltb_spec a 128); [|lia].
    destruct (S1 Hc) as (_ & T1 & T2 & T3). cbv zeta.
    rewrite T2, T3, Z.mod_small by lia. eexists (mksz _ _ _ _). split; [|reflexivity].
    replace ((if z_signed z then -1 else 1) * (z_value z + a * 2 ^ z_offset z)) with
      (if z_signed z then - (z_value z + a * 2 ^ z_offset z) else z_value z + a * 2 ^ z_offset z) by (destruct (z_signed z); lia).
    reflexivity.
  - destruct (size_byte_spec z (a mod 128 + 128) Hz) as [(_ & X & _)|(z1 & S & C1 & Z1 & N1 & _ & S1 & _)].
    { rewrite X in Ha. change (2 ^ (27 - 27)) with 1 in Ha. lia. }
    rewrite S. cbn [obind]. rewrite land_128_byte by (unfold byte_ok; lia).
    destruct (Z.ltb_spec (a mod 128 + 128) 128); [lia|].
    destruct (S1 Hc) as (T0 & T1 & T2 & T3).
    replace ((a mod 128 + 128) mod 128) with (a mod 128) in * by lia.
    assert (Hp : 2 ^ (z_offset z + 7) = 2 ^ z_offset z * 128) by (rewrite Z.pow_add_r by lia; reflexivity).
    assert (Hq : 2 ^ (27 - z_offset z) = 2 ^ (27 - (z_offset z + 7)) * 128).
    { replace (27 - z_offset z) with (27 - (z_offset z + 7) + 7) by lia. rewrite Z.pow_add_r by lia. reflexivity. }
    destruct (IHk (a / 128) z1 l) as (z2 & U & V); auto; try lia.
    + rewrite T1. lia.
    + exists z2. split; [|auto]. rewrite U, T1, T2, T3. do 4 f_equal. rewrite Hp.
      f_equal. rewrite (Z.div_mod a 128) at 3 by lia. ring.
Qed.

Lemma upk_enc : forall v z l, z_cons z = false -> - size_limit < v < size_limit ->
  exists z1, upk z (enc_size v ++ l) = Ret (0, v, z1, l) /\ z_cons z1 = false.
Proof.
  intros v z l Hc Hv. unfold size_limit in Hv. unfold enc_size. cbv zeta. assert (Hz : zok z) by (intros X; congruence).
  destruct (Z.ltb_spec (Z.abs v) 64); cbn [app upk].
  - destruct (size_byte_spec z ((if v <? 0 then 64 else 0) + Z.abs v) Hz) as [(X & _)|(z1 & S & _ & _ & _ & _ & _ & S1)]; [congruence|].
    rewrite S. cbn [obind]. rewrite land_128_byte by (unfold byte_ok; destruct (v <? 0); lia).
    destruct (Z.ltb_spec ((if v <? 0 then 64 else 0) + Z.abs v) 128); [|destruct (v <? 0); lia].
    destruct (S1 Hc) as (T1 & T2 & T3). cbv zeta.
    rewrite T2, T3. rewrite (testbit_small _ 6) by (change (2 ^ (6 + 1)) with 128; destruct (v <? 0); lia).
    change (2 ^ 6) with 64. eexists (mksz _ _ _ _). split; [|reflexivity].
    match goal with |- Ret (0, ?x, _, _) = _ => replace x with v; [reflexivity|] end.
    destruct (Z.ltb_spec v 0).
    + destruct (Z.leb_spec 64 (64 + Z.abs v)); lia.
    + destruct (Z.leb_spec 64 (0 + Z.abs v)); lia.
  - set (b := 128 + (if v <? 0 then 64 else 0) + Z.abs v mod 64) in *.
    assert (Hb : 128 <= b < 256) by (unfold b; destruct (v <? 0); lia).
    destruct (size_byte_spec z b Hz) as [(X & _)|(z1 & S & C1 & Z1 & N1 & _ & _ & S1)]; [congruence|].
    rewrite S. cbn [obind]. rewrite land_128_byte by (unfold byte_ok; lia).
    destruct (Z.ltb_spec b 128); [lia|].
    destruct (S1 Hc) as (T1 & T2 & T3).
    destruct (upk_groups 10 (Z.abs v / 64) z1 l) as (z2 & U & V); auto.
    + rewrite T1. change (2 ^ (27 - 6)) with 2097152. lia.
    + rewrite T1. change ((27 - 6) / 7) with 3. lia.
    + exists z2. split; [|auto]. rewrite U, T1, T2, T3. do 4 f_equal.
      assert (Hs : Z.testbit b 6 = (v <? 0)).
      { rewrite Z.testbit_eqb by lia. change (2 ^ 6) with 64. unfold b. destruct (v <? 0); lia. }
      rewrite Hs. change (2 ^ 6) with 64. unfold b. f_equal. clear - Hv. destruct (Z.ltb_spec v 0); lia.
Qed.

Lemma upk_len : forall l z v z1 l1, upk z l = Ret (0, v, z1, l1) -> zlen l1 < zlen l.
Proof.
  induction l as [|b l IH]; intros z v z1 l1 H; cbn [upk] in H; [discriminate|]. rewrite zlen_cons.
  apply obind_ret in H. destruct H as (oz & _ & H). destruct oz as [z2|]; [|discriminate].
  destruct (Z.land b 128 =? 0); [inv H; lia|]. apply IH in H. lia.
Qed.

Section Sim.
Context {WBits : WordBits}.
Hypothesis Hword : 32 <= word_bits.

Lemma none_upk_loop : forall l K z ps po byte v z1 l1, zok z -> (zneed z <= K)%nat -> 0 <= po -> po + zlen l <= ps -> ps + 128 < 2 ^ word_bits ->
  upk z l = Ret (0, v, z1, l1) ->
  unpack_size_loop K z (RNone ps po) l byte 1 = Ret (0, v, z1, RNone ps (po + (zlen l - zlen l1)), l1).
Proof.
  induction l as [|b l IH]; intros K z ps po byte v z1 l1 Hz HK Hpo Hps Hw H; cbn [upk] in H; [discriminate|].
  rewrite zlen_cons in *. pose proof (zlen_nonneg l). destruct K as [|K]; [unfold zneed in HK; destruct (z_cons z); lia|].
  cbn [unpack_size_loop decompress]. unfold none_decompress. rewrite wrap_small by lia. destruct (Z.ltb_spec ps (po + 1)); [lia|].
  rewrite zlen_cons. replace (Z.min 1 (1 + zlen l)) with 1 by lia. rewrite wrap_small by lia.
  change (ztake 1 (b :: l)) with [b]. change (zdrop 1 (b :: l)) with l. cbn [obind].
  change (negb (0 =? 0)) with false. cbv iota zeta.
  destruct (size_byte_spec z b Hz) as [(_ & _ & S)|(z2 & S & C1 & Z1 & N1 & _)]; rewrite S in *; cbn [obind] in *; [discriminate|].
  destruct (Z.land b 128 =? 0).
  - inv H. replace (po + (1 + zlen l1 - zlen l1)) with (po + 1) by lia. reflexivity.
  - change (zlen [b]) with 1. pose proof (upk_len _ _ _ _ _ H). rewrite (IH K z2 ps (po + 1) (Some b) v z1 l1); auto; try lia.
    replace (po + 1 + (zlen l - zlen l1)) with (po + (1 + zlen l - zlen l1)) by lia. reflexivity.
Qed.

Lemma none_upk : forall l z ps po v z1 l1, zok z -> 0 <= po -> po + zlen l <= ps -> ps + 128 < 2 ^ word_bits ->
  upk z l = Ret (0, v, z1, l1) -> unpack_size z (RNone ps po) l = Ret (0, v, z1, RNone ps (po + (zlen l - zlen l1)), l1).
Proof. intros. unfold unpack_size. eapply none_upk_loop; eauto. pose proof (zneed_le z H). lia. Qed.

Lemma none_read : forall l n ps po, 0 < n <= zlen l -> 0 <= po -> po + zlen l <= ps -> ps + 128 < 2 ^ word_bits ->
  decompress (RNone ps po) l n = Ret (0, ztake n l, RNone ps (po + n), zdrop n l).
Proof.
  intros l n ps po Hn Hpo Hps Hw. cbn [decompress]. unfold none_decompress. rewrite wrap_small by lia.
  destruct (Z.ltb_spec ps (po + n)); [lia|]. destruct l as [|b l]; [change (zlen (@nil Z)) with 0 in Hn; lia|].
  replace (Z.min n (zlen (b :: l))) with n by lia. rewrite wrap_small by lia. reflexivity.
Qed.

Context {D : Type} (L : lzma_lib D).
Hypothesis Hmem : enough_memory L.

Lemma lzma_upk_loop : forall K f z r left rest byte v z1 l1, zok z -> (zneed z <= K)%nat -> yields L f r left rest ->
  upk z rest = Ret (0, v, z1, l1) ->
  exists r1,
    (exists left1, xunpack_size_loop L K z (XLzma r) left byte 1 = Ret (0, v, z1, XLzma r1, left1) /\ yields L f r1 left1 l1) \/
    (exists z' rest', xunpack_size_loop L K z (XLzma r) left byte 1 = Ret (1, 0, z', XLzma r1, []) /\ yields L f r1 [] rest' /\ zok z' /\
       upk z' rest' = Ret (0, v, z1, l1) /\ f <> []).
Proof.
  induction K; intros f z r left rest byte v z1 l1 Hz HK Hy H; [unfold zneed in HK; destruct (z_cons z); lia|].
  destruct rest as [|b rest]; cbn [upk] in H; [discriminate|]. cbn [xunpack_size_loop xdecompress].
  destruct (lzma_yields L Hmem f r left (b :: rest) 1 Hy) as (r1 & [(left1 & A & B & _)|(A & B & C)]).
  { rewrite zlen_cons. pose proof (zlen_nonneg rest). lia. }
  - change (ztake 1 (b :: rest)) with [b] in A. change (zdrop 1 (b :: rest)) with rest in B. rewrite A. cbn [obind].
    change (negb (0 =? 0)) with false. cbv iota zeta.
    destruct (size_byte_spec z b Hz) as [(_ & _ & S)|(z2 & S & C1 & Z1 & N1 & _)]; rewrite S in *; cbn [obind] in *; [discriminate|].
    destruct (Z.land b 128 =? 0).
    + inv H. exists r1. left. eexists. split; [reflexivity|]. exact B.
    + change (zlen [b]) with 1. eapply IHK; eauto. lia.
  - rewrite A. cbn [obind]. change (negb (1 =? 0)) with true. cbv iota. exists r1. right. exists z, (b :: rest). split; [reflexivity|].
    split; [exact B|]. split; [auto|]. split; [|auto]. exact H.
Qed.

Lemma lzma_upk : forall f z r left rest v z1 l1, zok z -> yields L f r left rest -> upk z rest = Ret (0, v, z1, l1) ->
  exists r1,
    (exists left1, xunpack_size L z (XLzma r) left = Ret (0, v, z1, XLzma r1, left1) /\ yields L f r1 left1 l1) \/
    (exists z' rest', xunpack_size L z (XLzma r) left = Ret (1, 0, z', XLzma r1, []) /\ yields L f r1 [] rest' /\ zok z' /\
       upk z' rest' = Ret (0, v, z1, l1) /\ f <> []).
Proof. intros. unfold xunpack_size. eapply lzma_upk_loop; eauto. pose proof (zneed_le z H). lia. Qed.

Context {W : Type} (E : seq_env W).
Variable recs : list prec.
Variable stream : list Z.
Hypothesis Hrecs : recs_in_limits recs.
Hypothesis Hlast : recs = [] \/ last_nonempty recs.
Hypothesis Hstart : exists d, lz_start L = Some d.
Hypothesis Hstream : (recs = [] /\ stream = []) \/ lzma_stream L (enc_body recs) stream.

(** The uncompressed body: none if there is nothing to do. *)
Definition body : list Z := match recs with [] => [] | _ => enc_body recs end.

Definition lpatch : list Z := 1 :: enc_size (recs_size recs) ++ stream.
Definition npatch : list Z := header_byte TYPE_SEQUENTIAL CompNone :: enc_size (recs_size recs) ++ body.
Hypothesis Hlen : zlen lpatch < 2 ^ word_bits.
Hypothesis Hnlen : zlen npatch + 128 < 2 ^ word_bits.

(** Both sides read the size [v] next and have [l] after it. *)
Definition both (s t : ap) (rest : list Z) (v : Z) (l : list Z) : Prop :=
  exists z1 z2, upk (a_rsize s) rest = Ret (0, v, z1, l) /\ z_cons z1 = false /\
    upk (a_rsize t) (a_left t) = Ret (0, v, z2, l) /\ z_cons z2 = false.

Definition same_data (s t : ap) (rest : list Z) (d : list Z) (l : list Z) : Prop :=
  z_cons (a_rsize s) = false /\ z_cons (a_rsize t) = false /\ rest = d ++ l /\ a_left t = d ++ l /\
  a_chunk_size s = zlen d /\ a_chunk_size t = zlen d.

Definition fields (s t : ap) (rest : list Z) : Prop :=
  match a_state t with
  | SDfpatchSize => both s t rest 0 (enc_recs recs) /\ recs <> [] /\ left_over s 0 recs
  | SDiffSize => exists x rs,
      both s t rest (zlen (r_diff x)) (r_diff x ++ enc_size (zlen (r_extra x)) ++ r_extra x ++ enc_size (r_adj x) ++ enc_recs rs) /\
      - size_limit < r_adj x < size_limit /\ left_over s (rec_size x) rs
  | SDiffData => exists d x adj rs,
      same_data s t rest d (enc_size (zlen x) ++ x ++ enc_size adj ++ enc_recs rs) /\
      - size_limit < adj < size_limit /\ left_over s (zlen d + zlen x) rs
  | SExtraSize => exists x adj rs,
      both s t rest (zlen x) (x ++ enc_size adj ++ enc_recs rs) /\ - size_limit < adj < size_limit /\ left_over s (zlen x) rs
  | SExtraData => exists x adj rs,
      same_data s t rest x (enc_size adj ++ enc_recs rs) /\ - size_limit < adj < size_limit /\ left_over s (zlen x) rs
  | SAdjustment => exists adj rs, both s t rest adj (enc_recs rs) /\ left_over s 0 rs
  | _ => False
  end.

(** The reader can be destroyed. *)
Definition rdok (r : option (xreader (D := D))) : Prop :=
  match r with None => True | Some (XLzma r) => owned r | _ => False end.

Definition rel (f : list Z) (x : xap D) (t : ap) : Prop :=
  let s := x_ap x in
  a_state s = a_state t /\ a_to_offset s = a_to_offset t /\ a_from_offset s = a_from_offset t /\
  match a_state t with
  | SInit => x_reader x = None /\ a_to_offset s = 0 /\ a_to_init s = a_to_init t /\ a_patch_size t = zlen npatch /\ a_csize t = zlen npatch /\
      if a_to_init t then
        a_compression s = 1 /\ a_compression t = 0 /\ zok (a_size s) /\ zlen (a_left s) + zlen f < 2 ^ word_bits /\
        (exists z1, unpack_header_size (a_left s ++ f) (a_size s) = Ret (0, recs_size recs, z1, stream)) /\
        a_left t = enc_size (recs_size recs) ++ body /\ z_cons (a_size t) = false
      else a_left s ++ f = lpatch /\ a_left t = npatch
  | SDone => a_to_size s = a_to_size t /\ a_left t = [] /\
      (exists r h, x_reader x = Some (XLzma r) /\ lzma_destroy r = Ret (0, h) /\ h_live h = []) /\
      (exists r, a_reader t = Some r /\ destroy r = Ret 0)
  | SFailed => False
  | _ => a_to_size s = a_to_size t /\
      exists r rest ps po, x_reader x = Some (XLzma r) /\ yields L f r (a_left s) rest /\ zok (a_rsize s) /\
        a_reader t = Some (RNone ps po) /\ 0 <= po /\ po + zlen (a_left t) = ps /\ ps + 128 < 2 ^ word_bits /\ zok (a_rsize t) /\
        fields s t rest
  end.

(** What is left to do. *)
Definition meas (t : ap) : Z :=
  2 * zlen (a_left t) + match a_state t with SDiffData | SExtraData => 1 | _ => 0 end.

(** The outcome of a step, and what it does to the relation. *)
Definition follows (f : list Z) (x : xap D) (t : ap) (w : W) : Prop :=
  (exists x1, x_once L E x w = Ret (1, x1, w) /\ rel f x1 t /\ a_left (x_ap x1) = [] /\ f <> []) \/
  match process_once E 128 t w with
  | Ret (res, t1, w1) => exists x1, x_once L E x w = Ret (res, x1, w1) /\
      ((res = 0 /\ rel f x1 t1 /\ meas t1 < meas t) \/
       (res < 0 /\ res <> - E_ALREADY_DONE /\ a_state (x_ap x1) = SFailed /\ a_state t1 = SFailed /\ rdok (x_reader x1) /\
          (forall r, a_reader t1 = Some r -> exists d, destroy r = Ret d)))
  | Undef => x_once L E x w = Undef
  | OutOfFuel => False
  end.

#[local] Arguments fields : simpl never.
#[local] Arguments left_over : simpl never.
#[local] Arguments rel : simpl never.

Lemma both_enc : forall s t rest v l, z_cons (a_rsize s) = false -> z_cons (a_rsize t) = false -> rest = enc_size v ++ l -> a_left t = enc_size v ++ l ->
  - size_limit < v < size_limit -> both s t rest v l.
Proof.
  intros s t rest v l H1 H2 H3 H4 H5. destruct (upk_enc v (a_rsize s) l H1 H5) as (z1 & A & B). destruct (upk_enc v (a_rsize t) l H2 H5) as (z2 & C & F).
  exists z1, z2. rewrite H3, H4. auto.
Qed.

Lemma sizes_step : forall f s t r rest ps po v l, both s t rest v l -> yields L f r (a_left s) rest -> zok (a_rsize s) ->
  0 <= po -> po + zlen (a_left t) = ps -> ps + 128 < 2 ^ word_bits -> zok (a_rsize t) ->
  exists z2 r1, unpack_size (a_rsize t) (RNone ps po) (a_left t) = Ret (0, v, z2, RNone ps (po + (zlen (a_left t) - zlen l)), l) /\
    z_cons z2 = false /\ zlen l < zlen (a_left t) /\
    ((exists z1 left1, xunpack_size L (a_rsize s) (XLzma r) (a_left s) = Ret (0, v, z1, XLzma r1, left1) /\ z_cons z1 = false /\ yields L f r1 left1 l) \/
     (exists z' rest', xunpack_size L (a_rsize s) (XLzma r) (a_left s) = Ret (1, 0, z', XLzma r1, []) /\ yields L f r1 [] rest' /\ zok z' /\
        (forall s', a_rsize s' = z' -> both s' t rest' v l) /\ f <> [])).
Proof.
  intros f s t r rest ps po v l (z1 & z2 & A & B & C & F) Hy Hz Hpo Hps Hw Hzt.
  destruct (lzma_upk f _ r (a_left s) rest v z1 l Hz Hy A) as (r1 & [(left1 & P & Q)|(z' & rest' & P & Q & R & S & T)]).
  - exists z2, r1. split; [apply (none_upk (a_left t) _ ps po v z2 l); auto; lia|]. split; [auto|]. split; [eapply upk_len; eauto|].
    left. exists z1, left1. auto.
  - exists z2, r1. split; [apply (none_upk (a_left t) _ ps po v z2 l); auto; lia|]. split; [auto|]. split; [eapply upk_len; eauto|].
    right. exists z', rest'. splits; auto. intros s' <-. exists z1, z2. auto.
Qed.

Lemma zfirst_ok : forall z, z_cons z = false -> zok z.
Proof. intros z H X. congruence. Qed.

Lemma yields_owned : forall f r left rest, yields L f r left rest -> owned r.
Proof. intros f r left rest (A & _). exact A. Qed.

(** Opening [rel] in a state after the header. *)
Lemma rel_body : forall f x t, rel f x t ->
  match a_state t with SInit | SDone | SFailed => False | _ => True end ->
  a_state (x_ap x) = a_state t /\ a_to_offset (x_ap x) = a_to_offset t /\ a_from_offset (x_ap x) = a_from_offset t /\ a_to_size (x_ap x) = a_to_size t /\
  exists r rest ps po, x_reader x = Some (XLzma r) /\ yields L f r (a_left (x_ap x)) rest /\ zok (a_rsize (x_ap x)) /\
        a_reader t = Some (RNone ps po) /\ 0 <= po /\ po + zlen (a_left t) = ps /\ ps + 128 < 2 ^ word_bits /\ zok (a_rsize t) /\
        fields (x_ap x) t rest.
Proof.
  intros f x t (A & B & C & H) Hs. destruct (a_state t); try (destruct Hs); destruct H as (H1 & H2); auto.
Qed.

Lemma rel_make : forall f x t r rest ps po, a_state (x_ap x) = a_state t -> a_to_offset (x_ap x) = a_to_offset t -> a_from_offset (x_ap x) = a_from_offset t ->
  a_to_size (x_ap x) = a_to_size t -> x_reader x = Some (XLzma r) -> yields L f r (a_left (x_ap x)) rest -> zok (a_rsize (x_ap x)) ->
        a_reader t = Some (RNone ps po) -> 0 <= po -> po + zlen (a_left t) = ps -> ps + 128 < 2 ^ word_bits -> zok (a_rsize t) ->
        fields (x_ap x) t rest -> rel f x t.
Proof.
  intros f x t r rest ps po H1 H2 H3 H4 H5 H6 H7 H8 H9 H10 H11 H12 H13. unfold rel. cbv zeta. split; [auto|]. split; [auto|]. split; [auto|].
  assert (HH := H13). unfold fields in HH.
  destruct (a_state t) eqn:Et; try (destruct HH; fail); (split; [auto|]; exists r, rest, ps, po; splits; auto).
Qed.

Lemma rec_start : forall s t rest rs, z_cons (a_rsize s) = false -> z_cons (a_rsize t) = false -> rest = enc_recs rs -> a_left t = enc_recs rs ->
  left_over s 0 rs -> rs <> [] ->
  exists x rs', both s t rest (zlen (r_diff x)) (r_diff x ++ enc_size (zlen (r_extra x)) ++ r_extra x ++ enc_size (r_adj x) ++ enc_recs rs') /\
      - size_limit < r_adj x < size_limit /\ left_over s (rec_size x) rs'.
Proof.
  intros s t rest rs H1 H2 H3 H4 (A & B & C & F & G) Hne. destruct rs as [|x rs]; [congruence|]. exists x, rs. inv G.
  destruct F as [F|F]; [discriminate|].
  change (recs_size (x :: rs)) with (rec_size x + recs_size rs) in B. pose proof (recs_size_nonneg rs).
  assert (Hx : 0 <= zlen (r_diff x) <= rec_size x) by (unfold rec_size; pose proof (zlen_nonneg (r_diff x)); pose proof (zlen_nonneg (r_extra x)); lia).
  split; [|split; [auto|]].
  - apply both_enc; auto.
    + cbn [enc_recs flat_map]. unfold enc_rec at 1. rewrite <- !app_assoc. reflexivity.
    + rewrite H4. cbn [enc_recs flat_map]. unfold enc_rec at 1. rewrite <- !app_assoc. reflexivity.
    + unfold size_limit. lia.
  - unfold left_over. splits; auto; try lia. eapply last_tail; eauto.
Qed.

Ltac flds := cbn [a_patch_size a_state a_to_init a_compression a_patch_offset a_to_offset a_to_size a_from_offset a_chunk_size a_reader
  a_rsize a_csize a_left a_size set_st set_left set_chunk set_patch_offset set_header set_reader set_to_size set_from_offset set_chunk_size
  set_to_offset set_size_left x_ap x_reader] in *.

Lemma step_dfpatch : forall f x t w, rel f x t -> a_state t = SDfpatchSize -> follows f x t w.
Proof.
  intros f x t w Hr Et. destruct (rel_body _ _ _ Hr) as (A1 & A2 & A3 & A4 & r & rest & ps & po & B1 & B2 & B3 & B4 & B5 & B6 & B7 & B8 & B9); [rewrite Et; exact I|].
  assert (F := B9). unfold fields in F. rewrite Et in F. destruct F as (F1 & F2 & F3).
  destruct (sizes_step f _ _ _ _ _ _ _ _ F1 B2 B3 B5 B6 B7 B8) as (z2 & r1 & U1 & U2 & U3 & [(z1 & left1 & V1 & V2 & V3)|(z' & rest' & V1 & V2 & V3 & V4 & V5)]).
  - right. unfold process_once, process_dfpatch_size. rewrite Et, B4, U1. cbn [obind]. change (negb (0 =? 0)) with false. cbv iota zeta. change (0 <? 0) with false. cbv iota. cbn [obind].
    unfold x_once, x_dfpatch_size. rewrite A1, Et, B1, V1. cbn [obind]. change (negb (0 =? 0)) with false. cbv iota zeta. change (0 <? 0) with false. cbv iota. cbn [obind].
    eexists. split; [reflexivity|]. left. split; [reflexivity|]. split.
    + eapply rel_make with (r := r1) (rest := enc_recs recs); try reflexivity; cbn; auto; try lia; try (apply zfirst_ok; assumption); try exact V3.
      unfold fields. cbn. apply rec_start with (rs := recs); auto.
    + unfold meas. flds. rewrite Et. lia.
  - left. unfold x_once, x_dfpatch_size. rewrite A1, Et, B1, V1. cbn [obind]. change (negb (1 =? 0)) with true. cbv iota zeta. cbn [obind]. change (1 <? 0) with false. cbv iota.
    eexists. split; [reflexivity|]. split; [|split; [reflexivity|exact V5]].
    apply rel_make with (r := r1) (rest := rest') (ps := ps) (po := po); flds; auto.
    unfold fields. rewrite Et. splits; auto.
Qed.

(** The common part of the two size fields that announce data. *)
Lemma step_size : forall f x t w next v l r rest ps po,
  ((a_state t = SDiffSize /\ next = SDiffData) \/ (a_state t = SExtraSize /\ next = SExtraData)) ->
  a_state (x_ap x) = a_state t -> a_to_offset (x_ap x) = a_to_offset t -> a_from_offset (x_ap x) = a_from_offset t -> a_to_size (x_ap x) = a_to_size t ->
  x_reader x = Some (XLzma r) -> yields L f r (a_left (x_ap x)) rest -> zok (a_rsize (x_ap x)) ->
  a_reader t = Some (RNone ps po) -> 0 <= po -> po + zlen (a_left t) = ps -> ps + 128 < 2 ^ word_bits -> zok (a_rsize t) ->
  both (x_ap x) t rest v l ->
  0 <= v -> a_to_offset (x_ap x) + v <= a_to_size (x_ap x) -> 0 <= a_to_offset (x_ap x) -> a_to_size (x_ap x) < 2 ^ 27 ->
  (forall s' rest', both s' t rest' v l -> a_to_offset s' = a_to_offset (x_ap x) -> a_to_size s' = a_to_size (x_ap x) -> fields s' t rest') ->
  (forall s' t', a_state t' = next -> same_data s' t' l (ztake v l) (zdrop v l) -> a_to_offset s' = a_to_offset (x_ap x) -> a_to_size s' = a_to_size (x_ap x) -> fields s' t' l) ->
  v <= zlen l -> follows f x t w.
Proof.
  intros f x t w next v l r rest ps po Hst A1 A2 A3 A4 B1 B2 B3 B4 B5 B6 B7 B8 F1 Hv Ho Ho0 Hts Hwait Hnext Hvl. pose proof (pow2_32_le word_bits Hword).
  assert (Hchk : a_to_size (x_ap x) <? wrap (a_to_offset (x_ap x) + wrap v) = false).
  { rewrite (wrap_small v) by lia. rewrite wrap_small by lia. lia. }
  assert (Hchk' : a_to_size t <? wrap (a_to_offset t + wrap v) = false) by (rewrite <- A2, <- A4; exact Hchk).
  destruct (sizes_step f _ _ _ _ _ _ _ _ F1 B2 B3 B5 B6 B7 B8) as (z2 & r1 & U1 & U2 & U3 & [(z1 & left1 & V1 & V2 & V3)|(z' & rest' & V1 & V2 & V3 & V4 & V5)]).
  - right. 
    assert (P : process_size t next = Ret (0, set_chunk_size (set_st (set_reader t (Some (RNone ps (po + (zlen (a_left t) - zlen l)))) z2 l) next) (wrap v))).
    { unfold process_size, common_process_size. rewrite B4, U1. cbn [obind]. change (negb (0 =? 0)) with false. cbv iota zeta. rewrite Hchk'. cbn [obind]. change (negb (0 =? 0)) with false. reflexivity. }
    assert (Q : x_size L x next = Ret (0, mkxap (set_chunk_size (set_st (set_size_left (x_ap x) z1 left1) next) (wrap v)) (Some (XLzma r1)))).
    { unfold x_size, xcommon_process_size. rewrite B1, V1. cbn [obind]. change (negb (0 =? 0)) with false. cbv iota zeta. rewrite Hchk. cbn [obind]. change (negb (0 =? 0)) with false. reflexivity. }
    assert (R : process_once E 128 t w = Ret (0, set_chunk_size (set_st (set_reader t (Some (RNone ps (po + (zlen (a_left t) - zlen l)))) z2 l) next) (wrap v), w)).
    { unfold process_once. destruct Hst as [[Es En]|[Es En]]; rewrite Es; rewrite <- En; rewrite P; cbn [obind]; reflexivity. }
    assert (S : x_once L E x w = Ret (0, mkxap (set_chunk_size (set_st (set_size_left (x_ap x) z1 left1) next) (wrap v)) (Some (XLzma r1)), w)).
    { unfold x_once. rewrite A1. destruct Hst as [[Es En]|[Es En]]; rewrite Es; rewrite <- En; rewrite Q; cbn [obind]; reflexivity. }
    rewrite R. eexists. split; [exact S|]. left. split; [reflexivity|]. split.
    + apply rel_make with (r := r1) (rest := l) (ps := ps) (po := po + (zlen (a_left t) - zlen l)); flds; auto; try lia; try (apply zfirst_ok; auto).
      apply Hnext; flds; auto. unfold same_data. flds. rewrite (wrap_small v) by lia. rewrite zlen_ztake by lia. rewrite ztake_zdrop. splits; auto; lia.
    + unfold meas. flds. destruct Hst as [[-> ->]|[-> ->]]; lia.
  - left.
    assert (Q : x_size L x next = Ret (1, mkxap (set_size_left (x_ap x) z' []) (Some (XLzma r1)))).
    { unfold x_size, xcommon_process_size. rewrite B1, V1. cbn [obind]. change (negb (1 =? 0)) with true. cbv iota zeta. cbn [obind]. change (negb (1 =? 0)) with true. reflexivity. }
    assert (S : x_once L E x w = Ret (1, mkxap (set_size_left (x_ap x) z' []) (Some (XLzma r1)), w)).
    { unfold x_once. rewrite A1. destruct Hst as [[Es En]|[Es En]]; rewrite Es; rewrite <- En; rewrite Q; cbn [obind]; reflexivity. }
    eexists. split; [exact S|]. split; [|split; [reflexivity|exact V5]].
    apply rel_make with (r := r1) (rest := rest') (ps := ps) (po := po); flds; auto.
Qed.

Lemma left_over_eq : forall s s' k rs, left_over s k rs -> a_to_offset s' = a_to_offset s -> a_to_size s' = a_to_size s -> left_over s' k rs.
Proof. intros s s' k rs (A & B & C & F) H1 H2. unfold left_over. rewrite H1, H2. auto. Qed.

Lemma step_diff_size : forall f x t w, rel f x t -> a_state t = SDiffSize -> follows f x t w.
Proof.
  intros f x t w Hr Et. destruct (rel_body _ _ _ Hr) as (A1 & A2 & A3 & A4 & r & rest & ps & po & B1 & B2 & B3 & B4 & B5 & B6 & B7 & B8 & B9); [rewrite Et; exact I|].
  assert (F := B9). unfold fields in F. rewrite Et in F. destruct F as (y & rs & F1 & F2 & F3).
  assert (Hd := zlen_nonneg (r_diff y)). assert (Hx := zlen_nonneg (r_extra y)). assert (Hge : 0 <= rec_size y) by (unfold rec_size; lia).
  destruct (left_over_ge _ _ _ F3 Hge) as (O1 & O2 & O3 & O4). unfold rec_size in O1, O4.
  eapply step_size with (next := SDiffData); eauto; try lia.
  - intros s' rest' Hb H1 H2. unfold fields. rewrite Et. exists y, rs. split; [exact Hb|]. split; [auto|]. eapply left_over_eq; eauto.
  - intros s' t' Es Hs H1 H2. unfold fields. rewrite Es. exists (r_diff y), (r_extra y), (r_adj y), rs.
    rewrite ztake_app_exact, zdrop_app_exact in Hs by reflexivity. split; [exact Hs|]. split; [auto|]. eapply left_over_eq; [exact F3|auto|auto].
  - rewrite zlen_app. pose proof (zlen_nonneg (enc_size (zlen (r_extra y)) ++ r_extra y ++ enc_size (r_adj y) ++ enc_recs rs)). lia.
Qed.

Lemma step_extra_size : forall f x t w, rel f x t -> a_state t = SExtraSize -> follows f x t w.
Proof.
  intros f x t w Hr Et. destruct (rel_body _ _ _ Hr) as (A1 & A2 & A3 & A4 & r & rest & ps & po & B1 & B2 & B3 & B4 & B5 & B6 & B7 & B8 & B9); [rewrite Et; exact I|].
  assert (F := B9). unfold fields in F. rewrite Et in F. destruct F as (y & adj & rs & F1 & F2 & F3).
  assert (Hx := zlen_nonneg y). destruct (left_over_ge _ _ _ F3 Hx) as (O1 & O2 & O3 & O4).
  eapply step_size with (next := SExtraData); eauto; try lia.
  - intros s' rest' Hb H1 H2. unfold fields. rewrite Et. exists y, adj, rs. split; [exact Hb|]. split; [auto|]. eapply left_over_eq; eauto.
  - intros s' t' Es Hs H1 H2. unfold fields. rewrite Es. exists y, adj, rs.
    rewrite ztake_app_exact, zdrop_app_exact in Hs by reflexivity. split; [exact Hs|]. split; [auto|]. eapply left_over_eq; [exact F3|auto|auto].
  - rewrite zlen_app. pose proof (zlen_nonneg (enc_size adj ++ enc_recs rs)). lia.
Qed.

Lemma step_data : forall f x t w next d l r rest ps po,
  ((a_state t = SDiffData /\ next = SExtraSize) \/ (a_state t = SExtraData /\ next = SAdjustment)) ->
  a_state (x_ap x) = a_state t -> a_to_offset (x_ap x) = a_to_offset t -> a_from_offset (x_ap x) = a_from_offset t -> a_to_size (x_ap x) = a_to_size t ->
  x_reader x = Some (XLzma r) -> yields L f r (a_left (x_ap x)) rest -> zok (a_rsize (x_ap x)) ->
  a_reader t = Some (RNone ps po) -> 0 <= po -> po + zlen (a_left t) = ps -> ps + 128 < 2 ^ word_bits -> zok (a_rsize t) ->
  same_data (x_ap x) t rest d l ->
  a_to_offset (x_ap x) + zlen d <= a_to_size (x_ap x) -> 0 <= a_to_offset (x_ap x) -> a_to_size (x_ap x) < 2 ^ 27 ->
  fields (x_ap x) t rest ->
  (forall s', a_chunk_size s' = a_chunk_size (x_ap x) -> a_rsize s' = a_rsize (x_ap x) -> a_to_offset s' = a_to_offset (x_ap x) -> a_to_size s' = a_to_size (x_ap x) -> fields s' t rest) ->
  (forall s' t', a_state t' = next -> d = [] -> z_cons (a_rsize s') = false -> z_cons (a_rsize t') = false -> a_left t' = l ->
     a_to_offset s' = a_to_offset (x_ap x) -> a_to_size s' = a_to_size (x_ap x) -> fields s' t' l) ->
  (forall s' t' n, 0 < n <= zlen d -> a_state t' = a_state t -> same_data s' t' (zdrop n d ++ l) (zdrop n d) l ->
     a_to_offset s' = a_to_offset (x_ap x) + n -> a_to_size s' = a_to_size (x_ap x) -> fields s' t' (zdrop n d ++ l)) ->
  follows f x t w.
Proof.
  intros f x t w next d l r rest ps po Hst A1 A2 A3 A4 B1 B2 B3 B4 B5 B6 B7 B8 (F1 & F2 & F3 & F4 & F5 & F6) Ho Ho0 Hts HF Hwait Hnext Hmore.
  pose proof (pow2_32_le word_bits Hword). assert (Hd := zlen_nonneg d). assert (Hl := zlen_nonneg l).
  assert (PN : process_once E 128 t w = obind (process_data E 128 t w next) (fun '(res, s1, w1) => Ret (res, if res <? 0 then set_st s1 SFailed else s1, w1))).
  { unfold process_once. destruct Hst as [[-> ->]|[-> ->]]; reflexivity. }
  assert (PL : x_once L E x w = obind (x_data L E x w next) (fun '(res, x1, w1) => Ret (res, if res <? 0 then mkxap (set_st (x_ap x1) SFailed) (x_reader x1) else x1, w1))).
  { unfold x_once. rewrite A1. destruct Hst as [[-> ->]|[-> ->]]; reflexivity. }
  destruct (Z.eqb_spec (Z.min 128 (zlen d)) 0) as [Hn|Hn].
  - assert (d = []) by (apply zlen_0_nil; lia). right. rewrite PN, PL. unfold process_data, x_data. cbv zeta. rewrite F5, F6, Hn. change (0 =? 0) with true. cbv iota. cbn [obind].
    change (0 <? 0) with false. cbv iota. eexists. split; [reflexivity|]. left. split; [reflexivity|]. subst d. cbn [app] in *. split.
    + apply rel_make with (r := r) (rest := l) (ps := ps) (po := po); flds; auto; try congruence.
    + unfold meas. flds. destruct Hst as [[-> ->]|[-> ->]]; lia.
  - set (n := Z.min 128 (zlen d)) in *. assert (Hn1 : 0 < n <= zlen d) by lia.
    assert (Hall : zlen (d ++ l) = zlen d + zlen l) by apply zlen_app. assert (Hall2 : zlen (a_left t) = zlen d + zlen l) by (rewrite F4; exact Hall).
    destruct (lzma_yields L Hmem f r (a_left (x_ap x)) rest n B2) as (r1 & [(left1 & U1 & U2 & _)|(U1 & U2 & U3)]); [rewrite F3; lia| |].
    + right. rewrite PN, PL. unfold process_data, x_data. cbv zeta. rewrite F5, F6. fold n. destruct (Z.eqb_spec n 0); [congruence|]. rewrite B1, B4. cbn [xdecompress]. rewrite U1. cbn [obind].
      rewrite (none_read (a_left t) n ps po) by lia. cbn [obind]. change (negb (0 =? 0)) with false. cbv iota.
      rewrite F3 in *. rewrite F4 in *. rewrite ztake_app_l by lia. rewrite zdrop_app_l by lia. rewrite zdrop_app_l in U2 by lia.
      assert (Hout : zlen (ztake n d) = n) by (rewrite zlen_ztake; lia). rewrite Hout. flds. rewrite A3.
      assert (Fin : forall g data w2, match obind (let '(rw, w3) := to_write E w2 data in
            if negb (rw =? 0)
            then Ret (- E_IO_FAILED, set_chunk_size (set_to_offset (set_from_offset (set_reader t (Some (RNone ps (po + n))) (a_rsize t) (zdrop n d ++ l)) g) (wrap (a_to_offset t + n))) (wrap (a_chunk_size t - n)), w3)
            else Ret (0, set_chunk_size (set_to_offset (set_from_offset (set_reader t (Some (RNone ps (po + n))) (a_rsize t) (zdrop n d ++ l)) g) (wrap (a_to_offset t + n))) (wrap (a_chunk_size t - n)), w3))
              (fun '(res, s1, w1) => Ret (res, if res <? 0 then set_st s1 SFailed else s1, w1)) with
         | Ret (res, t1, w1) => exists x1,
             obind (let '(rw, w3) := to_write E w2 data in
            if negb (rw =? 0)
            then Ret (- E_IO_FAILED, mkxap (set_chunk_size (set_to_offset (set_from_offset (set_size_left (x_ap x) (a_rsize (x_ap x)) left1) g) (wrap (a_to_offset (x_ap x) + n))) (wrap (a_chunk_size (x_ap x) - n))) (Some (XLzma r1)), w3)
            else Ret (0, mkxap (set_chunk_size (set_to_offset (set_from_offset (set_size_left (x_ap x) (a_rsize (x_ap x)) left1) g) (wrap (a_to_offset (x_ap x) + n))) (wrap (a_chunk_size (x_ap x) - n))) (Some (XLzma r1)), w3))
              (fun '(res, x1, w1) => Ret (res, if res <? 0 then mkxap (set_st (x_ap x1) SFailed) (x_reader x1) else x1, w1)) = Ret (res, x1, w1) /\
            ((res = 0 /\ rel f x1 t1 /\ meas t1 < meas t) \/
             (res < 0 /\ res <> - E_ALREADY_DONE /\ a_state (x_ap x1) = SFailed /\ a_state t1 = SFailed /\ rdok (x_reader x1) /\
                (forall r, a_reader t1 = Some r -> exists d, destroy r = Ret d)))
         | _ => False end).
      { intros g data w2. destruct (to_write E w2 data) as [rw w3]. destruct (negb (rw =? 0)); cbn [obind].
        - change (- E_IO_FAILED <? 0) with true. cbv iota. eexists. split; [reflexivity|]. right. flds. unfold E_IO_FAILED, E_ALREADY_DONE.
          splits; try lia; auto; [eapply yields_owned; eauto|]. intros r0 X. inv X. eexists. reflexivity.
        - change (0 <? 0) with false. cbv iota. eexists. split; [reflexivity|]. left. split; [reflexivity|]. split.
          + apply rel_make with (r := r1) (rest := zdrop n d ++ l) (ps := ps) (po := po + n); flds; auto; try (rewrite A2; reflexivity); try (rewrite zlen_app, zlen_zdrop by lia; lia); try lia.
            * apply Hmore with (n := n); flds; auto.
              -- unfold same_data. flds. rewrite F5, F6. rewrite zlen_zdrop by lia. rewrite wrap_small by lia. splits; auto; lia.
              -- apply wrap_small. lia.
          + unfold meas. flds. rewrite F4, !zlen_app, zlen_zdrop by lia. destruct Hst as [[-> ->]|[-> ->]]; lia. }
      destruct Hst as [[Et ->]|[Et ->]].
      * destruct (from_read E w n) as [[rr from] w1]. destruct (negb (rr =? 0)); cbn [obind].
        { change (- E_IO_FAILED <? 0) with true. cbv iota. eexists. split; [reflexivity|]. right. flds. unfold E_IO_FAILED, E_ALREADY_DONE.
          splits; try lia; auto; [eapply yields_owned; eauto|]. intros r0 X. inv X. eexists. reflexivity. }
        destruct (add_data (ztake n d) from) as [dd| |] eqn:Ea; cbn [obind]; [| reflexivity|].
        { flds. specialize (Fin (to_int (a_from_offset t + n)) dd w1). 
          destruct (obind _ _) as [[[res t1] w9]| |] eqn:Ex in Fin; [|destruct Fin|destruct Fin]. rewrite Ex. exact Fin. }
        { exfalso. revert Ea. generalize (ztake n d) as q. clear. intros q. revert from. induction q as [|b0 q IH0]; intros from; destruct from as [|c0 from]; cbn [add_data]; try discriminate. destruct (add_data q from) eqn:Eq; cbn [obind]; try discriminate. intros _. eapply IH0; eauto. }
      * cbn [obind].
        assert (X1 : set_reader t (Some (RNone ps (po + n))) (a_rsize t) (zdrop n d ++ l) =
          set_from_offset (set_reader t (Some (RNone ps (po + n))) (a_rsize t) (zdrop n d ++ l)) (a_from_offset t)) by (destruct t; reflexivity).
        assert (X2 : set_size_left (x_ap x) (a_rsize (x_ap x)) left1 =
          set_from_offset (set_size_left (x_ap x) (a_rsize (x_ap x)) left1) (a_from_offset t)) by (rewrite <- A3; destruct (x_ap x); reflexivity).
        rewrite X1, X2. flds. specialize (Fin (a_from_offset t) (ztake n d) w).
        destruct (obind _ _) as [[[res t1] w9]| |] eqn:Ex in Fin; [|destruct Fin|destruct Fin]. cbn [obind]. rewrite Ex. exact Fin.
    + left. rewrite PL. unfold x_data. cbv zeta. rewrite F5. fold n. destruct (Z.eqb_spec n 0); [congruence|]. rewrite B1. cbn [xdecompress]. rewrite U1. cbn [obind].
      change (negb (1 =? 0)) with true. cbv iota. cbn [obind]. change (1 <? 0) with false. cbv iota. eexists. split; [reflexivity|]. split; [|split; [reflexivity|exact U3]].
      apply rel_make with (r := r1) (rest := rest) (ps := ps) (po := po); flds; auto.
Qed.

Lemma step_diff_data : forall f x t w, rel f x t -> a_state t = SDiffData -> follows f x t w.
Proof.
  intros f x t w Hr Et. destruct (rel_body _ _ _ Hr) as (A1 & A2 & A3 & A4 & r & rest & ps & po & B1 & B2 & B3 & B4 & B5 & B6 & B7 & B8 & B9); [rewrite Et; exact I|].
  assert (F := B9). unfold fields in F. rewrite Et in F. destruct F as (d & y & adj & rs & F1 & F2 & F3).
  assert (Hd := zlen_nonneg d). assert (Hx := zlen_nonneg y). assert (Hge : 0 <= zlen d + zlen y) by lia.
  destruct (left_over_ge _ _ _ F3 Hge) as (O1 & O2 & O3 & O4).
  eapply step_data with (next := SExtraSize); eauto; try lia.
  - intros s' H1 H2 H3 H4. unfold fields. rewrite Et. exists d, y, adj, rs. split; [|split; [auto|eapply left_over_eq; eauto]].
    unfold same_data in *. rewrite H1, H2. exact F1.
  - intros s' t' H1 H2 H3 H4 H5 H6 H7. unfold fields. rewrite H1. exists y, adj, rs. split; [|split; [auto|]].
    + apply both_enc; auto. unfold size_limit. lia.
    + subst d. change (zlen (@nil Z)) with 0 in F3. eapply left_over_eq; eauto.
  - intros s' t' n Hn H1 H2 H3 H4. unfold fields. rewrite H1, Et. exists (zdrop n d), y, adj, rs. split; [auto|]. split; [auto|].
    rewrite zlen_zdrop by lia. destruct F3 as (G1 & G2 & G3 & G4 & G5). unfold left_over. rewrite H3, H4. splits; auto; lia.
Qed.

Lemma step_extra_data : forall f x t w, rel f x t -> a_state t = SExtraData -> follows f x t w.
Proof.
  intros f x t w Hr Et. destruct (rel_body _ _ _ Hr) as (A1 & A2 & A3 & A4 & r & rest & ps & po & B1 & B2 & B3 & B4 & B5 & B6 & B7 & B8 & B9); [rewrite Et; exact I|].
  assert (F := B9). unfold fields in F. rewrite Et in F. destruct F as (y & adj & rs & F1 & F2 & F3).
  assert (Hx := zlen_nonneg y). destruct (left_over_ge _ _ _ F3 Hx) as (O1 & O2 & O3 & O4).
  eapply step_data with (next := SAdjustment); eauto; try lia.
  - intros s' H1 H2 H3 H4. unfold fields. rewrite Et. exists y, adj, rs. split; [|split; [auto|eapply left_over_eq; eauto]].
    unfold same_data in *. rewrite H1, H2. exact F1.
  - intros s' t' H1 H2 H3 H4 H5 H6 H7. unfold fields. rewrite H1. exists adj, rs. split.
    + apply both_enc; auto.
    + subst y. change (zlen (@nil Z)) with 0 in F3. eapply left_over_eq; eauto.
  - intros s' t' n Hn H1 H2 H3 H4. unfold fields. rewrite H1, Et. exists (zdrop n y), adj, rs. split; [auto|]. split; [auto|].
    rewrite zlen_zdrop by lia. destruct F3 as (G1 & G2 & G3 & G4 & G5). unfold left_over. rewrite H3, H4. splits; auto; lia.
Qed.

Lemma step_adjustment : forall f x t w, rel f x t -> a_state t = SAdjustment -> follows f x t w.
Proof.
  intros f x t w Hr Et. destruct (rel_body _ _ _ Hr) as (A1 & A2 & A3 & A4 & r & rest & ps & po & B1 & B2 & B3 & B4 & B5 & B6 & B7 & B8 & B9); [rewrite Et; exact I|].
  assert (F := B9). unfold fields in F. rewrite Et in F. destruct F as (adj & rs & F1 & F3).
  destruct (left_over_ge _ _ _ F3 (Z.le_refl 0)) as (O1 & O2 & O3 & O4).
  destruct (sizes_step f _ _ _ _ _ _ _ _ F1 B2 B3 B5 B6 B7 B8) as (z2 & r1 & U1 & U2 & U3 & [(z1 & left1 & V1 & V2 & V3)|(z' & rest' & V1 & V2 & V3 & V4 & V5)]).
  - right. unfold process_once, process_adjustment. rewrite Et, B4, U1. cbn [obind]. change (negb (0 =? 0)) with false. cbv iota zeta.
    unfold x_once, x_adjustment. rewrite A1, Et, B1, V1. cbn [obind]. change (negb (0 =? 0)) with false. cbv iota zeta.
    destruct (from_seek E w adj) as [rr w1]. destruct (negb (rr =? 0)).
    { cbn [obind]. change (- E_IO_FAILED <? 0) with true. cbv iota. eexists. split; [reflexivity|]. right. flds. unfold E_IO_FAILED, E_ALREADY_DONE.
      splits; try lia; auto; [eapply yields_owned; eauto|]. intros r0 X. inv X. eexists. reflexivity. }
    flds. rewrite A3. destruct (int_add (a_from_offset t) adj) as [fo| |] eqn:Ei; cbn [obind]; [| reflexivity| unfold int_add in Ei; destruct (in_int _); discriminate].
    change (0 <? 0) with false. cbv iota. eexists. split; [reflexivity|]. left. split; [reflexivity|]. flds. rewrite A2, A4.
    destruct F3 as (G1 & G2 & G3 & G4 & G5). rewrite Z.add_0_r in G2.
    destruct (Z.eqb_spec (a_to_offset t) (a_to_size t)) as [He|He].
    + assert (Hrs : rs = []). { destruct G4 as [G4|G4]; [auto|]. apply last_pos in G4. lia. }
      subst rs. change (enc_recs []) with (@nil Z) in *. split.
      * unfold rel. flds. splits; auto.
        { destruct (yields_end L f r1 left1 V3) as (h & Y1 & Y2). exists r1, h. auto. }
        eexists. split; [reflexivity|]. cbn [destroy]. change (zlen (@nil Z)) with 0. replace (po + (zlen (a_left t) - 0)) with ps by lia. rewrite Z.eqb_refl. reflexivity.
      * unfold meas. flds. rewrite Et. lia.
    + assert (Hrs : rs <> []). { intros ->. change (recs_size []) with 0 in G2. lia. }
      split.
      * apply rel_make with (r := r1) (rest := enc_recs rs) (ps := ps) (po := po + (zlen (a_left t) - zlen (enc_recs rs))); flds; auto; try lia; try (apply zfirst_ok; auto).
        unfold fields. flds. apply rec_start with (rs := rs); flds; auto. unfold left_over. flds. splits; auto; lia.
      * unfold meas. flds. rewrite Et. lia.
  - left. unfold x_once, x_adjustment. rewrite A1, Et, B1, V1. cbn [obind]. change (negb (1 =? 0)) with true. cbv iota zeta. cbn [obind]. change (1 <? 0) with false. cbv iota.
    eexists. split; [reflexivity|]. split; [|split; [reflexivity|exact V5]].
    apply rel_make with (r := r1) (rest := rest') (ps := ps) (po := po); flds; auto.
    unfold fields. rewrite Et. exists adj, rs. splits; auto.
Qed.

Lemma step_done : forall f x t w, rel f x t -> a_state t = SDone ->
  process_once E 128 t w = Ret (- E_ALREADY_DONE, t, w) /\ x_once L E x w = Ret (- E_ALREADY_DONE, x, w).
Proof.
  intros f x t w (A1 & _) Et. rewrite Et in A1. unfold process_once, x_once. rewrite Et, A1. auto.
Qed.

Lemma limit : 0 <= recs_size recs < 2 ^ 27.
Proof. split; [apply recs_size_nonneg|]. destruct Hrecs as (H & _). unfold size_limit in H. exact H. Qed.

Lemma enc_size_pos : forall v, 0 < zlen (enc_size v).
Proof. intros v. unfold enc_size. cbv zeta. destruct (Z.abs v <? 64); rewrite zlen_cons; match goal with |- 0 < 1 + zlen ?l => pose proof (zlen_nonneg l); lia end. Qed.

Lemma step_init : forall f x t w, rel f x t -> a_state t = SInit -> (a_left (x_ap x) <> [] \/ f = []) -> follows f x t w.
Proof.
  intros f x t w Hr Et Hne. unfold rel in Hr. rewrite Et in Hr. destruct Hr as (A1 & A2 & A3 & A4 & A5 & A6 & A7 & A8 & H).
  pose proof (pow2_32_le word_bits Hword). pose proof limit.
  destruct (a_to_init t) eqn:Ei.
  - destruct H as (B1 & B2 & B3 & B4 & (z1 & B5) & B6 & B7).
    destruct (header_enc (recs_size recs) (a_size t) body) as (z2 & C1 & C2); auto.
    destruct (uhs_app (a_left (x_ap x)) (a_size (x_ap x)) f B3)
      as [(z3 & P & Q & R)|[(v & z3 & l1 & used & P & Q & R & S)|(z3 & l1 & P & R)]].
    + left. unfold x_once, x_init, x_init_to_size. rewrite A1, A6. rewrite P. cbn [obind]. change (negb (1 =? 0)) with true. cbv iota zeta. cbn [obind].
      change (1 <? 0) with false. cbv iota. eexists. split; [reflexivity|]. rewrite B5 in R. split; [|split; [reflexivity|]].
      * unfold rel. flds. rewrite Et, Ei. change (zlen (@nil Z)) with 0. pose proof (zlen_nonneg (a_left (x_ap x))). splits; auto; try lia. exists z1. cbn [app]. auto.
      * intros ->. cbn in R. discriminate.
    + right. rewrite B5 in S. injection S as S1 S2 S3. unfold process_once, process_init, process_init_to_size. rewrite Et, Ei, B6, C1. cbn [obind].
      unfold x_once, x_init, x_init_to_size. rewrite A1, A6, P. cbn [obind]. change (negb (0 =? 0)) with false. cbv iota zeta. flds. rewrite B1, B2.
      unfold reader_init, xreader_init. change (0 =? 0) with true. change (1 =? 1) with true. cbv iota. destruct Hstart as (d0 & Hd0). rewrite Hd0.
      unfold chunk_offset. flds. rewrite A7, A8. replace (zlen npatch - (zlen npatch - zlen body)) with (zlen body) by lia.
      assert (Hbl : 0 <= zlen body /\ zlen body + 128 < 2 ^ word_bits).
      { split; [apply zlen_nonneg|]. revert Hnlen. unfold npatch. rewrite zlen_cons, zlen_app. pose proof (zlen_nonneg (enc_size (recs_size recs))). lia. }
      rewrite (wrap_small (zlen body)) by lia. rewrite <- S1. destruct (Z.ltb_spec (recs_size recs) 0); [lia|]. cbn [obind]. change (0 <? 0) with false. cbv iota.
      eexists. split; [reflexivity|]. left. split; [reflexivity|]. rewrite (wrap_small (recs_size recs)) by lia.
      pose proof (enc_size_pos (recs_size recs)) as Hep.
      assert (Hpos : 0 < zlen l1 + zlen f \/ recs_size recs = 0 \/ True) by auto.
      destruct (Z.ltb_spec 0 (recs_size recs)) as [Hp|Hp].
      * assert (Hn0 : recs <> []) by (intros X; rewrite X in Hp; cbn in Hp; lia).
        assert (Hbody : body = enc_size 0 ++ enc_recs recs). { unfold body. destruct recs; [congruence|reflexivity]. }
        split.
        -- destruct Hstream as [[X _]|(d1 & X1 & X2)]; [congruence|]. rewrite Hd0 in X1. inv X1.
           apply rel_make with (r := mklz d1 None None (mkheap [] 0)) (rest := enc_body recs) (ps := zlen body) (po := 0); flds; auto; try lia; try (apply zfirst_ok; reflexivity).
           ++ apply yields_start; [rewrite <- S3; exact X2|]. rewrite R, zlen_app in B4. pose proof (zlen_nonneg used). lia.
           ++ unfold fields. flds. split; [|split; [auto|]].
              ** apply both_enc; flds; auto. unfold size_limit. lia.
              ** unfold left_over. flds. destruct Hrecs as (_ & G & _). destruct Hlast as [X|X]; [congruence|]. splits; auto; lia.
        -- unfold meas. flds. rewrite Et, B6, zlen_app. lia.
      * assert (Hr0 : recs = []) by (destruct Hlast as [X|X]; [auto|apply last_pos in X; lia]).
        assert (Hbody : body = []) by (unfold body; rewrite Hr0; reflexivity).
        split.
        -- unfold rel. flds. rewrite Hbody. splits; auto.
           ++ exists (mklz d0 None None (mkheap [] 0)), (mkheap [] 0). auto.
           ++ eexists. split; [reflexivity|]. reflexivity.
        -- unfold meas. flds. rewrite Et, B6, zlen_app. lia.
    + rewrite B5 in R. discriminate.
  - destruct H as (B1 & B2). right. unfold process_once, process_init, process_init_fixed_header. rewrite Et, Ei, B2. unfold npatch at 1. cbv zeta.
    change (Z.land (Z.shiftr (header_byte TYPE_SEQUENTIAL CompNone) 4) 7) with 0. change (Z.land (header_byte TYPE_SEQUENTIAL CompNone) 15) with 0. change (negb (0 =? 0)) with false. cbv iota. cbn [obind].
    unfold x_once, x_init, process_init_fixed_header. rewrite A1, A6. destruct (a_left (x_ap x)) as [|b l'] eqn:El.
    { exfalso. destruct Hne as [X|X]; [congruence|]. rewrite X in B1. discriminate. }
    cbn [app] in B1. unfold lpatch in B1. injection B1 as B1 B1'. subst b. cbv zeta. change (Z.land (Z.shiftr 1 4) 7) with 0. change (Z.land 1 15) with 1. change (negb (0 =? 0)) with false. cbv iota. cbn [obind].
    change (0 <? 0) with false. cbv iota. eexists. split; [reflexivity|]. left. split; [reflexivity|]. split.
    + unfold rel. flds. rewrite Et. splits; auto.
      * apply zfirst_ok. reflexivity.
      * revert Hlen. unfold lpatch. rewrite zlen_cons, <- B1', zlen_app. lia.
      * rewrite B1'. match goal with |- exists z, unpack_header_size _ ?y = _ => destruct (header_enc (recs_size recs) y stream) as (z3 & C1 & C2); [auto|reflexivity|] end. exists z3. exact C1.
    + unfold meas. flds. rewrite Et, B2. unfold npatch. rewrite zlen_cons. lia.
Qed.

Lemma step : forall f x t w, rel f x t -> a_state t <> SDone -> (a_left (x_ap x) <> [] \/ f = []) -> follows f x t w.
Proof.
  intros f x t w Hr Hd Hne. destruct (a_state t) eqn:Et; try congruence.
  - apply step_init; auto.
  - apply step_dfpatch; auto.
  - apply step_diff_size; auto.
  - apply step_diff_data; auto.
  - apply step_extra_size; auto.
  - apply step_extra_data; auto.
  - apply step_adjustment; auto.
  - exfalso. unfold rel in Hr. rewrite Et in Hr. tauto.
Qed.

(** Another piece. *)
Lemma rel_chunk : forall f c x t s', rel (c ++ f) x t -> (a_left (x_ap x) = [] \/ a_state t = SDone) ->
  a_state s' = a_state (x_ap x) -> a_to_offset s' = a_to_offset (x_ap x) -> a_from_offset s' = a_from_offset (x_ap x) -> a_to_init s' = a_to_init (x_ap x) ->
  a_compression s' = a_compression (x_ap x) -> a_size s' = a_size (x_ap x) -> a_to_size s' = a_to_size (x_ap x) -> a_rsize s' = a_rsize (x_ap x) ->
  a_chunk_size s' = a_chunk_size (x_ap x) -> a_left s' = c -> rel f (mkxap s' (x_reader x)) t.
Proof.
  intros f c x t s' Hr Hl H1 H2 H3 H4 H5 H6 H7 H8 H9 H10.
  assert (Hb : match a_state t with SInit | SDone | SFailed => False | _ => True end -> rel f (mkxap s' (x_reader x)) t).
  { intros Hs. destruct (rel_body _ _ _ Hr Hs) as (A1 & A2 & A3 & A4 & r & rest & ps & po & B1 & B2 & B3 & B4 & B5 & B6 & B7 & B8 & B9).
    destruct Hl as [Hl|Hl]; [|rewrite Hl in Hs; destruct Hs]. rewrite Hl in B2. apply yields_chunk in B2.
    apply rel_make with (r := r) (rest := rest) (ps := ps) (po := po); flds; auto; try congruence; try (rewrite H10; exact B2); try (rewrite H8; exact B3).
    unfold fields, both, same_data, left_over in *. rewrite H8, H9, H2, H7. exact B9. }
  destruct (a_state t) eqn:Et; try (apply Hb; exact I); unfold rel in Hr |- *; flds; rewrite Et in Hr |- *.
  - destruct Hl as [Hl|Hl]; [|discriminate]. rewrite Hl in Hr. cbn [app] in Hr. change (zlen (@nil Z)) with 0 in Hr. rewrite zlen_app in Hr.
    rewrite H1, H2, H3, H4, H5, H6, H10. destruct Hr as (A1 & A2 & A3 & A4 & A5 & A6 & A7 & A8 & H). splits; auto.
  - rewrite H1, H2, H3, H7. exact Hr.
  - rewrite H1, H2, H3. exact Hr.
Qed.

(** Nothing is left of the uncompressed patch only in the end. *)
Lemma rel_left_done : forall f x t, rel f x t -> a_left t = [] -> a_state t = SDone.
Proof.
  intros f x t Hr Hl. assert (Hn : forall v l, (@nil Z) <> enc_size v ++ l).
  { intros v l X. pose proof (enc_size_pos v). symmetry in X. apply app_eq_nil in X. destruct X as [X _]. rewrite X in H. cbn in H. lia. }
  assert (Hn2 : forall d v l, (@nil Z) <> d ++ enc_size v ++ l).
  { intros d v l X. symmetry in X. apply app_eq_nil in X. destruct X as [_ X]. symmetry in X. apply (Hn _ _ X). }
  destruct (a_state t) eqn:Et; auto; exfalso;
    try (destruct (rel_body _ _ _ Hr) as (A1 & A2 & A3 & A4 & r & rest & ps & po & B1 & B2 & B3 & B4 & B5 & B6 & B7 & B8 & B9);
         [rewrite Et; exact I|]; unfold fields in B9; rewrite Et in B9).
  - unfold rel in Hr. rewrite Et in Hr. destruct Hr as (A1 & A2 & A3 & A4 & A5 & A6 & A7 & A8 & H). destruct (a_to_init t).
    + destruct H as (_ & _ & _ & _ & _ & X & _). rewrite Hl in X. apply (Hn _ _ X).
    + destruct H as (_ & X). rewrite Hl in X. discriminate.
  - destruct B9 as ((z1 & z2 & _ & _ & X & _) & _). rewrite Hl in X. discriminate.
  - destruct B9 as (y & rs & (z1 & z2 & _ & _ & X & _) & _). rewrite Hl in X. discriminate.
  - destruct B9 as (d & y & adj & rs & (_ & _ & _ & X & _) & _). rewrite Hl in X. apply (Hn2 _ _ _ X).
  - destruct B9 as (y & adj & rs & (z1 & z2 & _ & _ & X & _) & _). rewrite Hl in X. discriminate.
  - destruct B9 as (y & adj & rs & (_ & _ & _ & X & _) & _). rewrite Hl in X. apply (Hn2 _ _ _ X).
  - destruct B9 as (adj & rs & (z1 & z2 & _ & _ & X & _) & _). rewrite Hl in X. discriminate.
  - unfold rel in Hr. rewrite Et in Hr. tauto.
Qed.

(** ** Whole runs *)

Definition nfin (fuel : nat) (t : ap) (w : W) : outcome (Z * W) :=
  letm (res, t2, w2) := finalize_loop E fuel 128 t w in
  letm r := common_finalize res (a_reader t2) (a_to_size t2) in
  Ret (r, w2).

(** The same result and effects, and no memory left allocated. *)
Definition same (a : outcome (Z * W)) (b : outcome (Z * xap D * W)) : Prop :=
  match a, b with
  | Ret (v, w), Ret (v', x, w') => v' = v /\ w' = w /\ nothing_allocated (x_reader x)
  | Undef, Undef => True
  | _, _ => False
  end.

Definition fcont (fuel : nat) (x : xap D) (w : W) : outcome (Z * xap D * W) :=
  letm (res, x2, w2) := x_finalize_loop L E fuel x w in
  letm (r, rd) := x_common_finalize res (x_reader x2) (a_to_size (x_ap x2)) in
  Ret (r, mkxap (x_ap x2) rd, w2).

Definition xcont (fuel k : nat) (res : Z) (x : xap D) (w : W) (cs : list (list Z)) : outcome (Z * xap D * W) :=
  letm (res1, x1, w1) := x_process_loop L E k res x w in
  let res2 := if (res1 =? 1) || (res1 =? - E_ALREADY_DONE) then 0 else res1 in
  if res2 =? 0 then x_feed L E fuel x1 w1 cs
  else letm (r2, x2, w2) := x_finalize L E fuel x1 w1 in Ret (res2, x2, w2).

Lemma feed_cons : forall fuel x w c cs, x_feed L E fuel x w (c :: cs) =
  xcont fuel fuel 0 (mkxap (set_chunk (set_patch_offset (x_ap x) (wrap (a_patch_offset (x_ap x) + zlen c))) c) (x_reader x)) w cs.
Proof.
  intros. cbn [x_feed]. unfold x_process, xcont. cbv zeta. destruct (x_process_loop L E fuel 0 _ w) as [[[res x2] w2]| |]; reflexivity.
Qed.

(** Once done. *)
Lemma fin_done : forall f x t w n m, rel f x t -> a_state t = SDone -> same (nfin (S n) t w) (fcont (S m) x w).
Proof.
  intros f x t w n m Hr Et. destruct (step_done f x t w Hr Et) as (P & Q). unfold nfin, fcont. cbn [finalize_loop x_finalize_loop]. rewrite P, Q. cbn [obind].
  change (- E_ALREADY_DONE =? 0) with false. cbv iota. cbn [obind]. unfold rel in Hr. rewrite Et in Hr.
  destruct Hr as (A1 & A2 & A3 & A4 & A5 & (r & h & B1 & B2 & B3) & (r' & B4 & B5)). rewrite B1, B4. unfold common_finalize, x_common_finalize. cbv zeta.
  change (- E_ALREADY_DONE =? 1) with false. cbv iota. change (- E_ALREADY_DONE =? - E_ALREADY_DONE) with true. cbv iota. cbn [xdestroy]. rewrite B2, B5. cbn [obind].
  change (0 =? 0) with true. cbv iota. cbn [obind same nothing_allocated x_reader]. rewrite A4. auto.
Qed.

Lemma rdok_destroy : forall r, rdok r -> forall res to_size, res <> 1 -> res < 0 -> res <> - E_ALREADY_DONE ->
  exists r1, x_common_finalize res r to_size = Ret (res, r1) /\ nothing_allocated r1.
Proof.
  intros r Hr res to_size H1 H2 H3. unfold x_common_finalize. cbv zeta. destruct (Z.eqb_spec res 1); [lia|]. cbv iota. destruct (Z.eqb_spec res (- E_ALREADY_DONE)); [congruence|].
  destruct r as [[p|r|h]|]; cbn [rdok] in Hr; try (destruct Hr; fail).
  - destruct (destroy_spec r Hr) as (h & A & B). cbn [xdestroy]. rewrite A. cbn [obind]. destruct (Z.eqb_spec res 0); [lia|]. cbn [obind]. destruct (Z.eqb_spec res 0); [lia|].
    eexists. split; [reflexivity|]. exact B.
  - cbn [obind]. destruct (Z.eqb_spec res 0); [lia|]. eexists. split; [reflexivity|]. exact I.
Qed.

Lemma fin_run : forall m x t w, rel [] x t -> meas t < Z.of_nat m ->
  exists n, forall fn fx, (n <= fn)%nat -> (n <= fx)%nat -> same (nfin fn t w) (fcont fx x w).
Proof.
  induction m; intros x t w Hr Hm.
  { exfalso. unfold meas in Hm. pose proof (zlen_nonneg (a_left t)). destruct (a_state t); lia. }
  destruct (a_state t) eqn:Et; try (exists 1%nat; intros [|fn] [|fx] A B; try lia; eapply fin_done; eauto; fail).
  all: assert (Hs : follows [] x t w) by (apply step; [auto|rewrite Et; discriminate|auto]);
    destruct Hs as [(x1 & _ & _ & _ & X)|Hs]; [congruence|];
    destruct (process_once E 128 t w) as [[[res t1] w1]| |] eqn:Ep; [|exists 1%nat; intros [|fn] [|fx] A B; try lia; unfold nfin, fcont; cbn [finalize_loop x_finalize_loop]; rewrite Ep, Hs; exact I|destruct Hs];
    destruct Hs as (x1 & P & [(-> & R & M)|(R1 & R2 & R3 & R4 & R5 & R6)]);
    [ destruct (IHm x1 t1 w1 R) as (n & Hn); [lia|]; exists (S n); intros [|fn] [|fx] A B; try lia; unfold nfin, fcont; cbn [finalize_loop x_finalize_loop]; rewrite Ep, P; cbn [obind];
      change (0 =? 0) with true; cbv iota; apply Hn; lia
    | exists 1%nat; intros [|fn] [|fx] A B; try lia; unfold nfin, fcont; cbn [finalize_loop x_finalize_loop]; rewrite Ep, P; cbn [obind];
      destruct (Z.eqb_spec res 0); [lia|]; cbn [obind];
      destruct (rdok_destroy _ R5 res (a_to_size (x_ap x1))) as (r1 & Q1 & Q2); [lia|auto|auto|]; rewrite Q1; cbn [obind];
      unfold common_finalize; cbv zeta; destruct (Z.eqb_spec res 1); [lia|]; cbv iota; destruct (Z.eqb_spec res (- E_ALREADY_DONE)); [congruence|];
      destruct (a_reader t1) as [rt|] eqn:Ert;
      [ destruct (R6 rt eq_refl) as (dd & Q3); rewrite Q3; cbn [obind]; destruct (Z.eqb_spec res 0); [lia|]; cbn [obind]; destruct (Z.eqb_spec res 0); [lia|]; cbn [obind same x_reader]; auto
      | cbn [obind]; destruct (Z.eqb_spec res 0); [lia|]; cbn [obind same x_reader]; auto ] ].
Qed.
Lemma finalize_fcont : forall fuel x w, x_finalize L E fuel x w = fcont fuel (mkxap (set_chunk (x_ap x) []) (x_reader x)) w.
Proof. reflexivity. Qed.

(** After an error. *)
Lemma fin_failed : forall fuel x w, a_state (x_ap x) = SFailed -> rdok (x_reader x) ->
  exists v x2, x_finalize L E (S fuel) x w = Ret (v, x2, w) /\ nothing_allocated (x_reader x2).
Proof.
  intros fuel x w Hs Hr. rewrite finalize_fcont. unfold fcont. cbn [x_finalize_loop]. unfold x_once. flds. rewrite Hs. cbn [obind]. flds.
  change (- E_ALREADY_FAILED <? 0) with true. cbv iota. cbn [obind]. change (- E_ALREADY_FAILED =? 0) with false. cbv iota. cbn [obind]. flds.
  destruct (rdok_destroy _ Hr (- E_ALREADY_FAILED) (a_to_size (x_ap x))) as (r1 & Q1 & Q2); [unfold E_ALREADY_FAILED; lia|unfold E_ALREADY_FAILED; lia|unfold E_ALREADY_FAILED, E_ALREADY_DONE; lia|].
  unfold set_st. flds. rewrite Q1. cbn [obind]. eexists _, _. split; [reflexivity|]. exact Q2.
Qed.

Lemma nfin_failed : forall fn t w res t1 w1, process_once E 128 t w = Ret (res, t1, w1) -> res < 0 -> res <> - E_ALREADY_DONE ->
  (forall r, a_reader t1 = Some r -> exists d, destroy r = Ret d) -> nfin (S fn) t w = Ret (res, w1).
Proof.
  intros fn t w res t1 w1 Ep R1 R2 R6. unfold nfin. cbn [finalize_loop]. rewrite Ep. cbn [obind]. destruct (Z.eqb_spec res 0); [lia|]. cbn [obind].
  unfold common_finalize; cbv zeta; destruct (Z.eqb_spec res 1); [lia|]; cbv iota; destruct (Z.eqb_spec res (- E_ALREADY_DONE)); [congruence|].
  destruct (a_reader t1) as [rt|] eqn:Ert.
  - destruct (R6 rt eq_refl) as (dd & Q3). rewrite Q3. cbn [obind]. destruct (Z.eqb_spec res 0); [lia|]. cbn [obind]. destruct (Z.eqb_spec res 0); [lia|]. reflexivity.
  - cbn [obind]. destruct (Z.eqb_spec res 0); [lia|]. reflexivity.
Qed.

Lemma run : forall m cs,
  (forall x t w, rel (concat cs) x t -> (a_left (x_ap x) = [] \/ a_state t = SDone) -> meas t < Z.of_nat m ->
     exists n, forall fn fx, (n <= fn)%nat -> (n <= fx)%nat -> same (nfin fn t w) (x_feed L E fx x w cs)) /\
  (forall x t w res, rel (concat cs) x t -> meas t < Z.of_nat m -> 0 <= res <= 1 ->
     exists n, forall fn fx k, (n <= fn)%nat -> (n <= fx)%nat -> (n <= k)%nat -> same (nfin fn t w) (xcont fx k res x w cs)).
Proof.
  induction m; [intros cs|].
  { assert (Hm : forall t, ~ meas t < Z.of_nat 0). { intros t. unfold meas. pose proof (zlen_nonneg (a_left t)). destruct (a_state t); lia. }
    split; intros; exfalso; eapply Hm; eauto. }
  assert (HC : forall cs, (forall x t w, rel (concat cs) x t -> (a_left (x_ap x) = [] \/ a_state t = SDone) -> meas t < Z.of_nat (S m) ->
     exists n, forall fn fx, (n <= fn)%nat -> (n <= fx)%nat -> same (nfin fn t w) (x_feed L E fx x w cs)) ->
   (forall x t w res, rel (concat cs) x t -> meas t < Z.of_nat (S m) -> 0 <= res <= 1 ->
     exists n, forall fn fx k, (n <= fn)%nat -> (n <= fx)%nat -> (n <= k)%nat -> same (nfin fn t w) (xcont fx k res x w cs))).
  { intros cs HF x t w res Hr Hm Hres. destruct (IHm cs) as [_ IHc].
    assert (Hnorm : (if (res =? 1) || (res =? - E_ALREADY_DONE) then 0 else res) = 0).
    { assert (X : res = 0 \/ res = 1) by lia. destruct X as [-> | ->]; reflexivity. }
    destruct (a_left (x_ap x)) as [|b l] eqn:El.
    - destruct (HF x t w Hr (or_introl El) Hm) as (n & Hn). exists n. intros fn fx k A B C. unfold xcont.
      assert (X : x_process_loop L E k res x w = Ret (res, x, w)) by (destruct k; cbn [x_process_loop]; rewrite El; reflexivity).
      rewrite X. cbn [obind]. cbv zeta. rewrite Hnorm. change (0 =? 0) with true. cbv iota. apply Hn; lia.
    - assert (Hloop : forall k, x_process_loop L E (S k) res x w = obind (x_once L E x w) (fun '(r1, x1, w1) => x_process_loop L E k r1 x1 w1)).
      { intros k. cbn [x_process_loop]. rewrite El. destruct (Z.ltb_spec res 0); [lia|]. reflexivity. }
      assert (Hneg : forall k r1 x1 w1, r1 < 0 -> x_process_loop L E k r1 x1 w1 = Ret (r1, x1, w1)).
      { intros k r1 x1 w1 X. destruct k; cbn [x_process_loop]; destruct (a_left (x_ap x1)); auto; destruct (Z.ltb_spec r1 0); auto; lia. }
      destruct (a_state t) eqn:Et;
        try (destruct (step_done _ _ _ w Hr Et) as (P & Q); destruct (HF x t w Hr (or_intror Et) Hm) as (n & Hn); exists (S n);
             intros fn fx [|k] A B C; [lia|]; unfold xcont; rewrite Hloop, Q; cbn [obind]; rewrite Hneg by (unfold E_ALREADY_DONE; lia); cbn [obind]; cbv zeta;
             change ((- E_ALREADY_DONE =? 1) || (- E_ALREADY_DONE =? - E_ALREADY_DONE)) with true; cbv iota; change (0 =? 0) with true; cbv iota; apply Hn; lia).
      all: assert (Hs : follows (concat cs) x t w) by (apply step; [auto|rewrite Et; discriminate|left; rewrite El; discriminate]);
        destruct Hs as [(x1 & P & R & Z1 & _)|Hs].
      all: try (destruct (HF x1 t w R (or_introl Z1) Hm) as (n & Hn); exists (S n); intros fn fx [|k] A B C; [lia|]; unfold xcont; rewrite Hloop, P; cbn [obind];
        assert (X : x_process_loop L E k 1 x1 w = Ret (1, x1, w)) by (destruct k; cbn [x_process_loop]; rewrite Z1; reflexivity);
        rewrite X; cbn [obind]; cbv zeta; change (1 =? 1) with true; cbn [orb]; cbv iota; change (0 =? 0) with true; cbv iota; apply Hn; lia).
      all: destruct (process_once E 128 t w) as [[[r1 t1] w1]| |] eqn:Ep; [|exists 1%nat; intros [|fn] fx [|k] A B C; try lia; unfold nfin, xcont; rewrite Hloop, Hs; cbn [finalize_loop]; rewrite Ep; exact I|destruct Hs].
      all: destruct Hs as (x1 & P & [(-> & R & M)|(R1 & R2 & R3 & R4 & R5 & R6)]).
      all: try (destruct (IHc x1 t1 w1 0 R) as (n & Hn); [lia|lia|]; exists (S n); intros [|fn] fx [|k] A B C; try lia;
        assert (X : xcont fx (S k) res x w cs = xcont fx k 0 x1 w1 cs) by (unfold xcont; rewrite Hloop, P; reflexivity); rewrite X;
        assert (Y : nfin (S fn) t w = nfin fn t1 w1) by (unfold nfin; cbn [finalize_loop]; rewrite Ep; reflexivity); rewrite Y; apply Hn; lia).
      all: exists 1%nat; intros [|fn] [|fx] [|k] A B C; try lia; unfold xcont; rewrite Hloop, P; cbn [obind]; rewrite Hneg by auto; cbn [obind]; cbv zeta;
        destruct (Z.eqb_spec r1 1); [lia|]; destruct (Z.eqb_spec r1 (- E_ALREADY_DONE)); [congruence|]; cbn [orb]; cbv iota; destruct (Z.eqb_spec r1 0); [lia|];
        destruct (fin_failed fx x1 w1 R3 R5) as (v & x2 & Q1 & Q2); rewrite Q1; cbn [obind]; rewrite (nfin_failed fn t w r1 t1 w1 Ep R1 R2 R6); cbn [same]; auto. }
  intros cs. induction cs as [|c cs IHcs].
  - split; [|apply HC]; intros x t w Hr Hl Hm.
    all: destruct (fin_run (S m) (mkxap (set_chunk (x_ap x) []) (x_reader x)) t w) as (n & Hn); [|auto|exists n; intros fn fx A B; cbn [x_feed]; rewrite finalize_fcont; apply Hn; auto].
    all: apply rel_chunk with (c := []); auto.
  - destruct IHcs as [_ IHc].
    split; [|apply HC]; intros x t w Hr Hl Hm.
    all: destruct (IHc (mkxap (set_chunk (set_patch_offset (x_ap x) (wrap (a_patch_offset (x_ap x) + zlen c))) c) (x_reader x)) t w 0) as (n & Hn);
      [cbn [concat] in Hr; apply rel_chunk with (c := c); auto|auto|lia|]; exists n; intros fn fx A B; rewrite feed_cons; apply Hn; auto.
Qed.
Definition nproj (o : outcome (Z * ap * W)) : outcome (Z * W) := letm (v, t, w) := o in Ret (v, w).

Definition ncont (fuel k : nat) (t : ap) (w : W) : outcome (Z * ap * W) :=
  letm (res1, t1, w1) := process_loop E k 128 0 t w in
  let res2 := if (res1 =? 1) || (res1 =? - E_ALREADY_DONE) then 0 else res1 in
  if res2 =? 0 then finalize E fuel 128 t1 w1
  else letm (r2, t2, w2) := finalize E fuel 128 t1 w1 in Ret (res2, t2, w2).

Lemma nrun : forall m x t w, rel [] x t -> meas t < Z.of_nat m ->
  exists n, forall fn fx k, (n <= fn)%nat -> (n <= fx)%nat -> (n <= k)%nat -> nproj (ncont fx k t w) = nfin fn t w.
Proof.
  induction m; intros x t w Hr Hm.
  { exfalso. unfold meas in Hm. pose proof (zlen_nonneg (a_left t)). destruct (a_state t); lia. }
  destruct (a_left t) as [|b l] eqn:El.
  - assert (Et := rel_left_done _ _ _ Hr El). exists 1%nat. intros [|fn] [|fx] k A B C; try lia. unfold ncont, nfin.
    assert (X : process_loop E k 128 0 t w = Ret (0, t, w)) by (destruct k; cbn [process_loop]; rewrite El; reflexivity).
    rewrite X. cbn [obind]. cbv zeta. change ((0 =? 1) || (0 =? - E_ALREADY_DONE)) with false. cbv iota. change (0 =? 0) with true. cbv iota.
    unfold finalize. cbv zeta. cbn [finalize_loop]. unfold process_once. flds. rewrite Et. cbn [obind]. change (- E_ALREADY_DONE =? 0) with false. cbv iota. cbn [obind]. flds.
    destruct (common_finalize _ _ _); reflexivity.
  - assert (Hloop : forall k, process_loop E (S k) 128 0 t w = obind (process_once E 128 t w) (fun '(r1, t1, w1) => process_loop E k 128 r1 t1 w1)).
    { intros k. cbn [process_loop]. rewrite El. reflexivity. }
    assert (Hneg : forall k r1 t1 w1, r1 < 0 -> process_loop E k 128 r1 t1 w1 = Ret (r1, t1, w1)).
    { intros k r1 t1 w1 X. destruct k; cbn [process_loop]; destruct (a_left t1); auto; destruct (Z.ltb_spec r1 0); auto; lia. }
    assert (Hd : a_state t <> SDone). { intros Et. unfold rel in Hr. rewrite Et in Hr. destruct Hr as (_ & _ & _ & _ & X & _). rewrite El in X. discriminate. }
    destruct (step [] x t w Hr Hd (or_intror eq_refl)) as [(x1 & _ & _ & _ & X)|Hs]; [congruence|].
    destruct (process_once E 128 t w) as [[[r1 t1] w1]| |] eqn:Ep; [| |destruct Hs].
    + destruct Hs as (x1 & P & [(-> & R & M)|(R1 & R2 & R3 & R4 & R5 & R6)]).
      * destruct (IHm x1 t1 w1 R) as (n & Hn); [lia|]. exists (S n). intros [|fn] fx [|k] A B C; try lia.
        assert (X : ncont fx (S k) t w = ncont fx k t1 w1) by (unfold ncont; rewrite Hloop; reflexivity). rewrite X.
        assert (Y : nfin (S fn) t w = nfin fn t1 w1) by (unfold nfin; cbn [finalize_loop]; rewrite Ep; reflexivity). rewrite Y. apply Hn; lia.
      * exists 1%nat. intros [|fn] [|fx] [|k] A B C; try lia. unfold ncont. rewrite Hloop. cbn [obind]. rewrite Hneg by auto. cbn [obind]. cbv zeta.
        destruct (Z.eqb_spec r1 1); [lia|]. destruct (Z.eqb_spec r1 (- E_ALREADY_DONE)); [congruence|]. cbn [orb]. cbv iota. destruct (Z.eqb_spec r1 0); [lia|].
        rewrite (nfin_failed fn t w r1 t1 w1 Ep R1 R2 R6). unfold finalize. cbv zeta. cbn [finalize_loop]. unfold process_once. flds. rewrite R4. cbn [obind].
        change (- E_ALREADY_FAILED <? 0) with true. cbv iota. cbn [obind]. change (- E_ALREADY_FAILED =? 0) with false. cbv iota. cbn [obind]. flds.
        unfold common_finalize. cbv zeta. destruct (a_reader t1) as [rt|] eqn:Ert; [destruct (R6 rt eq_refl) as (dd & Q3); rewrite Q3|]; reflexivity.
    + exists 1%nat. intros [|fn] fx [|k] A B C; try lia. unfold ncont, nfin. rewrite Hloop. cbn [finalize_loop]. rewrite Ep. reflexivity.
Qed.

Lemma start : forall junk junk' ps f c s', c ++ f = lpatch -> s' = set_chunk (set_patch_offset (ap_init junk ps) (wrap (0 + zlen c))) c ->
  rel f (mkxap s' None) (set_chunk (set_patch_offset (ap_init junk' (zlen npatch)) (wrap (0 + zlen npatch))) npatch).
Proof.
  intros junk junk' ps f c s' Hc ->. unfold rel, ap_init. flds. splits; auto.
Qed.

Theorem as_plain : forall junk junk' ps w chunks, concat chunks = lpatch ->
  exists n, forall fuel, (n <= fuel)%nat ->
    same (nproj (feed E fuel 128 (ap_init junk' (zlen npatch)) w [npatch])) (x_feed L E fuel (xap_init junk ps) w chunks).
Proof.
  intros junk junk' ps w chunks Hc. set (t := set_chunk (set_patch_offset (ap_init junk' (zlen npatch)) (wrap (0 + zlen npatch))) npatch).
  assert (H1 := start junk junk' ps [] lpatch _ (app_nil_r _) eq_refl). fold t in H1.
  destruct (nrun (Z.to_nat (meas t + 1)) _ t w H1) as (n1 & Hn1). { unfold meas. pose proof (zlen_nonneg (a_left t)). destruct (a_state t); lia. }
  destruct chunks as [|c cs]; [discriminate|]. cbn [concat] in Hc.
  assert (H2 := start junk junk' ps (concat cs) c _ Hc eq_refl). fold t in H2.
  destruct (run (Z.to_nat (meas t + 1)) cs) as [_ Hrun]. destruct (Hrun _ t w 0 H2) as (n2 & Hn2); [|lia|].
  { unfold meas. pose proof (zlen_nonneg (a_left t)). destruct (a_state t); lia. }
  exists (Nat.max n1 n2). intros fuel Hf. rewrite feed_cons. cbn [feed].
  assert (X : nproj (letm (res, s1, w1) := process E fuel 128 (ap_init junk' (zlen npatch)) w npatch in
     if res =? 0 then finalize E fuel 128 s1 w1 else letm (_, s2, w2) := finalize E fuel 128 s1 w1 in Ret (res, s2, w2)) = nproj (ncont fuel fuel t w)).
  { unfold process, ncont. cbv zeta. unfold t. unfold ap_init. flds. destruct (process_loop E fuel 128 0 _ w) as [[[rr tt1] ww]| |]; reflexivity. }
  rewrite X, (Hn1 fuel fuel fuel) by lia. apply Hn2; lia.
Qed.
End Sim.
