(** A truncated patch is never accepted, whatever the callbacks do, however it is
    divided and whatever size was announced to init (C09). *)

From Coq Require Import ZArith List Bool Lia ZifyBool ZifyNat ZifyN.
From Verif Require Import Prelude Lib Heatshrink HsProofs CReader ReaderProofs SizeProofs CSeq Spec SeqSim SeqRun SeqTerm SeqMeaning SeqApply SeqSpec SeqInv SeqCount ReaderSpec ReaderDrive SizeCodec SeqBound CInPlace IpBoundSpec IpBound.
Import ListNotations.
Open Scope Z_scope.

Ltac Zify.zify_post_hook ::= Z.to_euclidean_division_equations.

(** ** Sizes written by the specification are read back *)

Lemma dec_groups : forall k a l, 0 < a < 2 ^ (7 * Z.of_nat k) -> dec_usize (enc_groups k a ++ l) = Some (a, l).
Proof.
  induction k; intros a l Ha.
  - change (2 ^ (7 * Z.of_nat 0)) with 1 in Ha. lia.
  - cbn [enc_groups]. destruct (Z.eqb_spec a 0); [lia|]. destruct (Z.ltb_spec a 128) as [H|H].
    + cbn [app dec_usize]. destruct (Z.ltb_spec a 128); [reflexivity|lia].
    + cbn [app dec_usize]. destruct (Z.ltb_spec (a mod 128 + 128) 128); [lia|].
      rewrite IHk.
      * f_equal. f_equal. lia.
      * rewrite Nat2Z.inj_succ in Ha. unfold Z.succ in Ha. rewrite Z.mul_add_distr_l, Z.pow_add_r in Ha by lia.
        change (2 ^ (7 * 1)) with 128 in Ha. split; [lia|]. apply Z.div_lt_upper_bound; lia.
Qed.

Lemma testbit6 : forall s m, 0 <= m < 64 -> Z.testbit (64 * s + m) 6 = Z.odd s.
Proof.
  intros s m Hm. change 6 with (0 + 6). rewrite <- Z.div_pow2_bits by lia. change (2 ^ 6) with 64.
  replace ((64 * s + m) / 64) with s by lia. apply Z.bit0_odd.
Qed.

Lemma dec_size_enc : forall v l, - 2 ^ 63 < v < 2 ^ 63 -> dec_size (enc_size v ++ l) = Some (v, l).
Proof.
  intros v l Hv. change (2 ^ 63) with 9223372036854775808 in Hv. unfold enc_size. cbv zeta.
  destruct (Z.ltb_spec (Z.abs v) 64) as [Hs|Hs].
  - cbn [app dec_size]. destruct (Z.ltb_spec v 0).
    + destruct (Z.ltb_spec (64 + Z.abs v) 128); [|lia]. replace (64 + Z.abs v) with (64 * 1 + Z.abs v) by lia. rewrite testbit6 by lia.
      cbn [Z.odd]. f_equal. f_equal. lia.
    + destruct (Z.ltb_spec (0 + Z.abs v) 128); [|lia]. replace (0 + Z.abs v) with (64 * 0 + Z.abs v) by lia. rewrite testbit6 by lia.
      cbn [Z.odd]. f_equal. f_equal. lia.
  - assert (G : dec_usize (enc_groups 10 (Z.abs v / 64) ++ l) = Some (Z.abs v / 64, l)).
    { apply dec_groups. change (2 ^ (7 * Z.of_nat 10)) with 1180591620717411303424. lia. }
    cbn [app dec_size]. rewrite G. destruct (Z.ltb_spec v 0).
    + destruct (Z.ltb_spec (128 + 64 + Z.abs v mod 64) 128); [lia|]. replace (128 + 64 + Z.abs v mod 64) with (64 * 3 + Z.abs v mod 64) by lia.
      rewrite testbit6 by lia. cbn [Z.odd]. f_equal. f_equal. lia.
    + destruct (Z.ltb_spec (128 + 0 + Z.abs v mod 64) 128); [lia|]. replace (128 + 0 + Z.abs v mod 64) with (64 * 2 + Z.abs v mod 64) by lia.
      rewrite testbit6 by lia. cbn [Z.odd]. f_equal. f_equal. lia.
Qed.

Lemma dec_magnitude_enc : forall v l, 0 <= v < 2 ^ 63 -> dec_magnitude (enc_size v ++ l) = Some (v, l).
Proof.
  intros v l Hv. change (2 ^ 63) with 9223372036854775808 in Hv. unfold enc_size. cbv zeta. rewrite Z.abs_eq by lia.
  destruct (Z.ltb_spec v 0); [lia|]. destruct (Z.ltb_spec v 64) as [Hs|Hs].
  - cbn [app dec_magnitude]. destruct (Z.ltb_spec (0 + v) 128); [|lia]. f_equal. f_equal. lia.
  - assert (G : dec_usize (enc_groups 10 (v / 64) ++ l) = Some (v / 64, l)).
    { apply dec_groups. change (2 ^ (7 * Z.of_nat 10)) with 1180591620717411303424. lia. }
    cbn [app dec_magnitude]. rewrite G. destruct (Z.ltb_spec (128 + 0 + v mod 64) 128); [lia|]. f_equal. f_equal. lia.
Qed.

(** ** What is compressed are bytes *)

Lemma copy_back_bytes : forall n d h out h1, Forall byte_ok h -> copy_back n d h = (out, h1) -> Forall byte_ok out /\ Forall byte_ok h1.
Proof.
  induction n; intros d h out h1 Hh E; cbn [copy_back] in E; [inv E; auto|]. cbv zeta in E.
  destruct (copy_back n d _) as [o h2] eqn:C. inv E.
  assert (Hc : byte_ok (nth (Z.to_nat (d - 1)) h 0)).
  { rewrite Forall_forall in Hh. destruct (nth_in_or_default (Z.to_nat (d - 1)) h 0) as [X|X]; [apply Hh; auto|rewrite X; unfold byte_ok; lia]. }
  apply IHn in C; [|constructor; auto]. destruct C. split; [constructor|]; auto.
Qed.

Lemma tokens_bytes : forall ts h, Forall (token_ok 8 7) ts -> Forall byte_ok h -> Forall byte_ok (tokens_expand h ts).
Proof.
  induction ts as [|[b|d n] ts IH]; intros h Ht Hh; cbn [tokens_expand]; [constructor| |]; inv Ht.
  - constructor; [auto|]. apply IH; auto.
  - destruct (copy_back _ _ _) as [out h1] eqn:C. apply copy_back_bytes in C; [|auto]. destruct C. apply Forall_app. auto.
Qed.

Lemma segs_back : forall segs, Forall (fun s => 1 <= seg_len s < 2 ^ 28) segs -> bytes_ok (enc_segs segs) -> bytes_ok (segs_expand segs).
Proof.
  unfold bytes_ok. induction segs as [|s segs IH]; intros H B; [constructor|]. inv H. unfold enc_segs, segs_expand in *. cbn [flat_map] in *.
  apply Forall_app in B. destruct B as [B1 B2]. apply Forall_app. split; [|auto].
  destruct s as [d|n v]; cbn [enc_seg seg_expand] in *; inv B1; apply Forall_app in H4; destruct H4 as [_ B]; [auto|].
  inv B. unfold zrepeat. apply Forall_forall. intros x Hx. apply repeat_spec in Hx. subst. auto.
Qed.

Lemma compressed_bytes : forall c body stream, compressed c body stream -> bytes_ok stream -> bytes_ok body.
Proof.
  intros c body stream H Hs. inv H; [auto|apply segs_back; auto|apply tokens_bytes; auto; constructor].
Qed.

Section Trunc.
Context {WBits : WordBits}.
Hypothesis Hword : 32 <= word_bits.

(** ** The end of the data comes with the end of the patch *)

Lemma gives_end : forall f r left b b1 r1 l1, bytes_ok f -> gives f r left [b] -> decompress r left 1 = Ret (0, [b1], r1, l1) -> l1 ++ f = [].
Proof.
  intros f r left b b1 r1 l1 Hf (A & A' & B) E.
  assert (Hnn : not_none r \/ exists ps po, r = RNone ps po) by (destruct r; cbn; eauto).
  destruct Hnn as [Hnn|(ps & po & ->)].
  - assert (B' : rok r /\ will r (left ++ f) [b]) by (destruct r; [destruct Hnn|auto|auto]). clear B. destruct B' as [B (r0 & i0 & rE & J & P & _)].
    apply (pull_exact r left b1 r1 l1 f B A Hf) in E. inversion P as [|? ? ? ra ia o rb ib P1 P2]; subst. rewrite J, P1 in E. inv E. inv P2. auto.
  - cbn [decompress] in E. unfold none_decompress in E. destruct (_ <? _); [inv E|].
    destruct left as [|x left]; [inv E|]. cbn [app] in B. injection B as -> B. symmetry in B. apply app_eq_nil in B. destruct B as [-> ->].
    change (Z.min 1 (zlen [x])) with 1 in E. inv E. reflexivity.
Qed.

Lemma unpack_end_loop : forall K f z r left rest byte v z1 r1 l1, bytes_ok f -> gives f r left rest -> zok z ->
  unpack_size_loop K z r left byte 1 = Ret (0, v, z1, r1, l1) -> szrest z rest = Some (v, []) -> l1 ++ f = [].
Proof.
  induction K; intros f z r left rest byte v z1 r1 l1 Hf Hg Hz E Hs; cbn [unpack_size_loop] in E; [discriminate|].
  pose proof E as E0.
  apply obind_ret in E. destruct E as ([[[r0 o0] r2] l2] & A & E).
  assert (Ho : r0 = 0 -> zlen o0 <= 1) by (intros ->; eapply gives_len; [exact Hg| |exact A]; lia).
  destruct (gives_dec _ _ _ _ _ _ _ _ _ Hf Hg (Z.le_refl 1) A) as [G1 G2].
  destruct (Z.eqb_spec r0 0) as [->|Hne]; cbn [negb] in E; [|inv E; congruence].
  destruct (G1 eq_refl) as (G3 & rest1 & -> & G4). specialize (Ho eq_refl).
  destruct o0 as [|b o0]; [congruence|].
  assert (o0 = []) as -> by (apply zlen_0_nil; rewrite zlen_cons in Ho; pose proof (zlen_nonneg o0); lia).
  clear G1 G2 G3 Ho. assert (Hg' := Hg). destruct Hg as (_ & Hb & _). cbn [app] in *. inv Hb. rename H1 into Hb. rename H2 into Hrb.
  assert (Hbb := Hb). unfold byte_ok in Hbb.
  cbv zeta in E. destruct (size_byte_spec z b Hz) as [(_ & _ & S)|(z2 & S & Ec & Hz1 & Hnd & Hv & S1 & S2)]; rewrite S in E; cbn [obind] in E; [inv E|].
  rewrite land_128_byte in E by auto.
  assert (Hsz : szrest z (b :: rest1) =
     if b <? 128 then Some ((if z_signed z2 then - z_value z2 else z_value z2), rest1) else szrest z2 rest1).
  { unfold szrest. rewrite Ec. destruct (z_cons z) eqn:Ez.
    - destruct (S1 eq_refl) as (_ & T1 & T2 & T3). rewrite T1, T2, T3. cbn [dec_usize]. destruct (Hz Ez) as (O1 & O2 & O3).
      destruct (Z.ltb_spec b 128); [rewrite Z.mod_small by lia; reflexivity|].
      destruct (dec_usize rest1) as [[y l]|]; [|reflexivity]. cbv zeta.
      replace (z_value z + (b - 128 + 128 * y) * 2 ^ z_offset z) with (z_value z + b mod 128 * 2 ^ z_offset z + y * 2 ^ (z_offset z + 7)); [reflexivity|].
      rewrite Z.pow_add_r by lia. change (2 ^ 7) with 128. replace (b mod 128) with (b - 128) by lia. ring.
    - destruct (S2 eq_refl) as (T1 & T2 & T3). rewrite T1, T2, T3. cbn [dec_size].
      destruct (Z.ltb_spec b 128); [reflexivity|]. destruct (dec_usize rest1) as [[y l]|]; [|reflexivity]. cbv zeta.
      change (2 ^ 6) with 64. replace (y * 64) with (64 * y) by lia. reflexivity. }
  rewrite Hsz in Hs. destruct (b <? 128).
  - inv Hs. inv E. eapply gives_end; eauto.
  - change (zlen [b]) with 1 in E. eapply IHK; [exact Hf|exact G4|exact Hz1|exact E|exact Hs].
Qed.

Lemma unpack_end : forall f z r left rest v z1 r1 l1, bytes_ok f -> gives f r left rest -> zok z ->
  unpack_size z r left = Ret (0, v, z1, r1, l1) -> szrest z rest = Some (v, []) -> l1 ++ f = [].
Proof. intros. eapply unpack_end_loop; eauto. Qed.

(** ** The invariant *)

Context {W : Type} (E : seq_env W).
Variable c : comp.
Variable recs : list prec.
Variable stream : list Z.
Hypothesis Hrecs : recs_in_limits recs.
Definition whole : list Z := header_byte TYPE_SEQUENTIAL c :: enc_size (recs_size recs) ++ stream.
Hypothesis Hpatch : bytes_ok whole.
Hypothesis Hbody : (recs = [] /\ stream = []) \/ (last_nonempty recs /\ compressed c (enc_body recs) stream).

(** The rest [rs] of the records, after [k] more to bytes. *)
Definition left_over (s : ap) (k : Z) (rs : list prec) : Prop :=
  0 <= a_to_offset s /\ a_to_offset s + k + recs_size rs = a_to_size s /\ a_to_size s < 2 ^ 27 /\
  (rs = [] \/ last_nonempty rs) /\ Forall (fun r => - size_limit < r_adj r < size_limit) rs.

Definition at_field (s : ap) (rest : list Z) : Prop :=
  match a_state s with
  | SDfpatchSize => szrest (a_rsize s) rest = Some (0, enc_recs recs) /\ recs <> [] /\ left_over s 0 recs
  | SDiffSize => exists x rs,
      szrest (a_rsize s) rest = Some (zlen (r_diff x), r_diff x ++ enc_size (zlen (r_extra x)) ++ r_extra x ++ enc_size (r_adj x) ++ enc_recs rs) /\
      - size_limit < r_adj x < size_limit /\ left_over s (rec_size x) rs
  | SDiffData => exists d x adj rs, z_cons (a_rsize s) = false /\ a_chunk_size s = zlen d /\
      rest = d ++ enc_size (zlen x) ++ x ++ enc_size adj ++ enc_recs rs /\
      - size_limit < adj < size_limit /\ left_over s (zlen d + zlen x) rs
  | SExtraSize => exists x adj rs,
      szrest (a_rsize s) rest = Some (zlen x, x ++ enc_size adj ++ enc_recs rs) /\
      - size_limit < adj < size_limit /\ left_over s (zlen x) rs
  | SExtraData => exists x adj rs, z_cons (a_rsize s) = false /\ a_chunk_size s = zlen x /\
      rest = x ++ enc_size adj ++ enc_recs rs /\ - size_limit < adj < size_limit /\ left_over s (zlen x) rs
  | SAdjustment => exists adj rs, szrest (a_rsize s) rest = Some (adj, enc_recs rs) /\ left_over s 0 rs
  | _ => True
  end.

Definition qinv (f : list Z) (s : ap) : Prop :=
  match a_state s with
  | SInit => a_to_offset s = 0 /\ bytes_ok (a_left s) /\
      if a_to_init s then
        zok (a_size s) /\ a_compression s = comp_number c /\
        forall v z1 l1, unpack_header_size (a_left s ++ f) (a_size s) = Ret (0, v, z1, l1) ->
          v = recs_size recs /\ l1 = stream
      else a_left s ++ f = whole
  | SDone => f = []
  | SFailed => True
  | _ => exists r rest, a_reader s = Some r /\ gives f r (a_left s) rest /\ zok (a_rsize s) /\ at_field s rest
  end.

#[local] Arguments at_field : simpl never.
#[local] Arguments left_over : simpl never.

Lemma recs_size_nonneg : forall rs, 0 <= recs_size rs.
Proof.
  induction rs as [|r rs IH]; [cbn; lia|]. change (recs_size (r :: rs)) with (rec_size r + recs_size rs). unfold rec_size.
  pose proof (zlen_nonneg (r_diff r)). pose proof (zlen_nonneg (r_extra r)). lia.
Qed.

Lemma last_pos : forall rs, last_nonempty rs -> 0 < recs_size rs.
Proof.
  intros rs (r1 & x & -> & H). unfold recs_size. induction r1 as [|y r1 IH]; cbn [app fold_right]; [lia|].
  unfold rec_size at 1. pose proof (zlen_nonneg (r_diff y)). pose proof (zlen_nonneg (r_extra y)). lia.
Qed.

Lemma last_tail : forall x rs, last_nonempty (x :: rs) -> rs = [] \/ last_nonempty rs.
Proof.
  intros x rs (r1 & y & Ex & H). destruct r1 as [|z r1]; cbn [app] in Ex; inv Ex; [auto|]. right. exists r1, y. auto.
Qed.

Lemma last_cons : forall rs, last_nonempty rs -> rs <> [].
Proof. intros rs (r1 & y & -> & _) X. destruct r1; discriminate. Qed.

Lemma stream_body : recs <> [] -> compressed c (enc_body recs) stream /\ bytes_ok (enc_body recs) /\ bytes_ok stream.
Proof.
  intros H. destruct Hbody as [[X _]|[_ X]]; [congruence|]. assert (Hp := Hpatch). inv Hp. apply Forall_app in H3. destruct H3 as [_ H3].
  split; [auto|]. split; [eapply compressed_bytes; eauto|auto].
Qed.

Lemma stream_gives : forall f l1 r ps, bytes_ok f -> recs <> [] -> l1 ++ f = stream -> bytes_ok l1 -> reader_init ps (comp_number c) = Some r ->
  gives f r l1 (enc_body recs).
Proof.
  intros f l1 r ps Hf Hne El Hl Hr. destruct (stream_body Hne) as (B1 & B2 & B3).
  split; [auto|]. split; [auto|]. destruct (reader_init_comp (zlen stream) c) as (r' & R1 & _).
  assert (Hc : c = CompNone \/ c <> CompNone) by (destruct c; auto; right; discriminate). destruct Hc as [Ec|Hc].
  - rewrite Ec in Hr, B1. inv Hr. inv B1. congruence.
  - destruct (stream_will _ _ _ _ Hc B1 B3 R1) as (A & B & D).
    assert (r' = r) by (clear - Hc R1 Hr; destruct c; cbn in *; congruence). subst r'. rewrite El.
    destruct r; [destruct A|auto|auto].
Qed.

Lemma header_read : forall l z v z1 l1, zok z -> z_cons z = false -> l = enc_size (recs_size recs) ++ stream -> bytes_ok l ->
  unpack_header_size l z = Ret (0, v, z1, l1) -> v = recs_size recs /\ l1 = stream.
Proof.
  intros l z v z1 l1 Hz Hc El Hl U. pose proof (recs_size_nonneg recs) as Hn. destruct Hrecs as (Hlim & _ & _). unfold size_limit in Hlim.
  eapply uhs_magnitude in U; eauto. rewrite El, dec_magnitude_enc in U by lia. inv U. auto.
Qed.

Lemma init_trunc : forall f s res s1, bytes_ok f -> a_state s = SInit -> qinv f s -> process_init s = Ret (res, s1) -> 0 <= res -> qinv f s1.
Proof.
  intros f s res s1 Hf Es Hi H Hr. unfold qinv in Hi. rewrite Es in Hi. destruct Hi as (Ho & Hb & Hi). unfold process_init in H.
  pose proof (pow2_32_le word_bits Hword). pose proof (recs_size_nonneg recs) as Hn. assert (Hlim := Hrecs). destruct Hlim as (Hlim & Hadj & _). unfold size_limit in Hlim.
  destruct (a_to_init s) eqn:Et.
  - destruct Hi as (Hz & Hc & Hi). unfold process_init_to_size in H.
    destruct (uhs_app (a_left s) (a_size s) f Hz)
      as [(z1 & P & Q & R)|[(v & z1 & l1 & used & P & Q & R & S)|(z1 & l1 & P & R)]]; rewrite P in H; cbn [obind] in H; cbv zeta in H.
    + inv H. unfold qinv. cbn. rewrite Es, Et. splits; auto; [constructor|]. intros v z2 l2 U. apply (Hi v z2 l2). rewrite R. exact U.
    + change (negb (0 =? 0)) with false in H. cbv iota in H.
      assert (Hl1 : bytes_ok l1) by (rewrite R in Hb; apply Forall_app in Hb; tauto).
      destruct (Hi _ _ _ S) as [I1 I2].
      destruct (reader_init _ _) as [r|] eqn:Er; [|inv H; unfold E_BAD_COMPRESSION in Hr; lia].
      cbn [a_compression set_header] in Er. rewrite Hc in Er.
      destruct (Z.ltb_spec v 0); [lia|]. inv H.
      unfold qinv. cbn -[Z.pow wrap Z.ltb Z.lt Z.le]. rewrite !(wrap_small (recs_size recs)) by lia. destruct (Z.ltb_spec 0 (recs_size recs)).
      * assert (Hne : recs <> []) by (intros X; rewrite X in *; cbn in *; lia).
        exists r, (enc_body recs). cbn. splits; auto.
        { exact (stream_gives f l1 r _ Hf Hne I2 Hl1 Er). }
        { intros X; discriminate. }
        unfold at_field. cbn. unfold szrest. cbn [z_cons]. split; [reflexivity|]. split; [auto|].
        unfold left_over. cbn. splits; auto; try lia. destruct Hbody as [[]|[]]; auto.
      * destruct Hbody as [[_ X]|[X _]]; [|apply last_pos in X; lia]. rewrite X in I2. apply app_eq_nil in I2. tauto.
    + inv H. unfold E_CORRUPT_PATCH_OVERFLOW in Hr. lia.
  - unfold process_init_fixed_header in H. destruct (a_left s) as [|b l] eqn:El; [inv H; unfold E_SHORT_HEADER in Hr; lia|].
    cbv zeta in H. destruct (negb _); inv H; [unfold E_BAD_PATCH_TYPE in Hr; lia|].
    inv Hb. cbn [app] in Hi. injection Hi as Hi1 Hi2. unfold qinv. cbn. rewrite Es. splits; auto.
    + intros X; discriminate.
    + rewrite Hi1. destruct c; reflexivity.
    + intros v z1 l1 U. eapply header_read; [| | | |exact U]; auto; [intros X; discriminate X|]. apply Forall_app. auto.
Qed.

Ltac fin := try match goal with H : left_over _ _ _ |- left_over _ _ _ => exact H end; try (unfold size_limit in *; lia).

Lemma left_over_ge : forall s k rs, left_over s k rs -> 0 <= k -> a_to_offset s + k <= a_to_size s /\ a_to_size s < 2 ^ 27 /\ 0 <= a_to_offset s /\ k < 2 ^ 27.
Proof. intros s k rs (A & B & C & _) Hk. pose proof (recs_size_nonneg rs). lia. Qed.

Lemma once_trunc : forall f s w res s1 w1, bytes_ok f -> qinv f s -> process_once E 128 s w = Ret (res, s1, w1) -> qinv f s1.
Proof.
  intros f s w res s1 w1 Hf Hi H.
  pose proof (pow2_32_le word_bits Hword).
  unfold process_once in H. apply obind_ret in H. destruct H as ([[r0 s0] w0] & A & H).
  assert (K : (0 <= r0 -> qinv f s0) -> a_state s <> SDone -> qinv f s1).
  { intros K2 Hnd. assert (Hx : Ret (r0, if r0 <? 0 then set_st s0 SFailed else s0, w0) = Ret (res, s1, w1)) by (destruct (a_state s); try exact H; congruence).
    inv Hx. destruct (Z.ltb_spec res 0); [exact I|apply K2; lia]. }
  assert (Kd : a_state s = SDone -> qinv f s1).
  { intros Es. rewrite Es in A, H. inv A. inv H. exact Hi. }
  destruct (a_state s) eqn:Es; try (apply K; [|discriminate]); try (apply Kd; reflexivity); clear K Kd H;
    try (apply obind_ret in A; destruct A as ([r2 s2] & A & A2); inv A2); intros Hr.
  - eapply init_trunc; eauto.
  - unfold qinv in Hi. rewrite Es in Hi. destruct Hi as (r & rest & J1 & J2 & J3 & J4). unfold at_field in J4. rewrite Es in J4. destruct J4 as (J4 & J5 & J6).
    unfold process_dfpatch_size in A. rewrite J1 in A.
    apply obind_ret in A. destruct A as ([[[[r1 v] z1] r2] l1] & A & C). cbv zeta in C.
    destruct (Z.eqb_spec r1 0) as [->|Hne]; cbn [negb] in C.
    + destruct (unpack_bound whole _ _ _ _ _ _ _ _ _ _ Hf J2 J3 A (Z.le_refl 0)) as [(_ & U1 & U2 & U3 & rest1 & U4 & U5)|(X & _)]; [|lia].
      rewrite U4 in J4. inv J4. inv C.
      unfold qinv. cbn. exists r2, (enc_recs recs). cbn. splits; auto; fin. unfold at_field. cbn.
      destruct recs as [|x rs] eqn:Erecs; [congruence|]. exists x, rs. destruct J6 as (L1 & L2 & L3 & [L4|L4] & L5); [discriminate|]. inv L5.
      change (recs_size (x :: rs)) with (rec_size x + recs_size rs) in L2.
      assert (Hx : 0 <= zlen (r_diff x) <= rec_size x) by (unfold rec_size; pose proof (zlen_nonneg (r_diff x)); pose proof (zlen_nonneg (r_extra x)); lia).
      pose proof (recs_size_nonneg rs).
      split; [|split; [auto|]].
      * unfold szrest. rewrite U2. cbn [enc_recs flat_map]. unfold enc_rec at 1. rewrite <- !app_assoc. apply dec_size_enc. lia.
      * unfold left_over. cbn. splits; auto; try lia; fin. eapply last_tail; eauto.
    + inv C. destruct (unpack_bound whole _ _ _ _ _ _ _ _ _ _ Hf J2 J3 A Hr) as [(X & _)|(_ & U1 & rest1 & U2 & U3)]; [lia|].
      unfold qinv. cbn. rewrite Es. exists r2, rest1. cbn. splits; auto; fin. unfold at_field. cbn. rewrite Es. rewrite U2. splits; auto; fin.
  - unfold qinv in Hi. rewrite Es in Hi. destruct Hi as (r & rest & J1 & J2 & J3 & J4). unfold at_field in J4. rewrite Es in J4. destruct J4 as (x & rs & J4 & J5 & J6).
    assert (Hd := zlen_nonneg (r_diff x)). assert (Hx := zlen_nonneg (r_extra x)).
    assert (Hge : 0 <= rec_size x) by (unfold rec_size; lia).
    destruct (left_over_ge _ _ _ J6 Hge) as (O1 & O2 & O3 & O4). unfold rec_size in O1, O4.
    unfold process_size, common_process_size in A. rewrite J1 in A.
    apply obind_ret in A. destruct A as ([[[[r1 v] z1] r2] l1] & A & C). cbv zeta in C.
    apply obind_ret in A. destruct A as ([[[[r1' v'] z1'] r2'] l1'] & A & D).
    destruct (Z.eqb_spec r1' 0) as [->|Hne]; cbn [negb] in D.
    + destruct (unpack_bound whole _ _ _ _ _ _ _ _ _ _ Hf J2 J3 A (Z.le_refl 0)) as [(_ & U1 & U2 & U3 & rest1 & U4 & U5)|(X & _)]; [|lia].
      rewrite U4 in J4. inv J4. rewrite (wrap_small (zlen (r_diff x))) in D by lia. rewrite wrap_small in D by lia.
      destruct (Z.ltb_spec (a_to_size s) (a_to_offset s + zlen (r_diff x))); inv D; [change (negb (- E_CORRUPT_PATCH =? 0)) with true in C; inv C; unfold E_CORRUPT_PATCH in Hr; lia|].
      change (negb (0 =? 0)) with false in C. cbv iota in C. inv C. unfold qinv. cbn. eexists r2, _. split; [reflexivity|]. split; [exact U5|]. split; [exact U3|].
      unfold at_field. cbn. exists (r_diff x), (r_extra x), (r_adj x), rs. rewrite wrap_small by lia. splits; auto; try lia; fin.
    + inv D. destruct (Z.eqb_spec r1 0); [congruence|]. cbn [negb] in C. inv C.
      destruct (unpack_bound whole _ _ _ _ _ _ _ _ _ _ Hf J2 J3 A Hr) as [(X & _)|(_ & U1 & rest1 & U2 & U3)]; [lia|].
      unfold qinv. cbn. rewrite Es. exists r2, rest1. cbn. splits; auto; fin. unfold at_field. cbn. rewrite Es. exists x, rs. rewrite U2. splits; auto; try lia; fin.
  - unfold qinv in Hi. rewrite Es in Hi. destruct Hi as (r & rest & J1 & J2 & J3 & J4). unfold at_field in J4. rewrite Es in J4.
    destruct J4 as (d & x & adj & rs & J4 & J5 & J6 & J7 & J8).
    assert (Hd := zlen_nonneg d). assert (Hx := zlen_nonneg x).
    assert (Hge : 0 <= zlen d + zlen x) by lia. destruct (left_over_ge _ _ _ J8 Hge) as (O1 & O2 & O3 & O4).
    unfold process_data in A. cbv zeta in A. rewrite J5 in A. destruct (Z.eqb_spec (Z.min 128 (zlen d)) 0) as [Ez|Nz].
    { inv A. assert (Hnil : d = []) by (apply zlen_0_nil; lia). subst d. cbn [app] in J2.
      unfold qinv. cbn. exists r, (enc_size (zlen x) ++ x ++ enc_size adj ++ enc_recs rs). cbn. splits; auto; fin.
      unfold at_field. cbn. exists x, adj, rs. split; [unfold szrest; rewrite J4; apply dec_size_enc; lia|]. splits; auto; try lia; fin. }
    rewrite J1 in A. apply obind_ret in A. destruct A as ([[[r1 o] r2] l1] & A & C).
    assert (Hmin : 1 <= Z.min 128 (zlen d)) by lia.
    destruct (gives_dec _ _ _ _ _ _ _ _ _ Hf J2 Hmin A) as [G1 G2].
    assert (Ho : r1 = 0 -> zlen o <= zlen d).
    { intros ->. pose proof (gives_len _ _ _ _ _ _ _ _ J2 Hmin A). lia. }
    destruct (Z.eqb_spec r1 0) as [->|Hne]; cbn [negb] in C.
    2:{ inv C. apply decompress_code in A. assert (r0 = 1) by (destruct A as [|[|]]; lia). subst r0.
        unfold qinv. cbn. rewrite Es. exists r2, (d ++ enc_size (zlen x) ++ x ++ enc_size adj ++ enc_recs rs). cbn. splits; auto; fin.
        unfold at_field. cbn. rewrite Es. exists d, x, adj, rs. splits; auto; try lia; fin. }
    destruct (G1 eq_refl) as (G3 & rest1 & Er & G4). specialize (Ho eq_refl). pose proof (zlen_nonneg o) as Hzo.
    assert (Hsplit : exists d1, d = o ++ d1 /\ rest1 = d1 ++ enc_size (zlen x) ++ x ++ enc_size adj ++ enc_recs rs).
    { exists (zdrop (zlen o) d). assert (Hod : ztake (zlen o) d = o).
      { apply (f_equal (ztake (zlen o))) in Er. rewrite J6, ztake_app_l in Er by lia. rewrite Er. rewrite ztake_app_l by lia. apply ztake_all. lia. }
      split; [rewrite <- Hod at 1; symmetry; apply ztake_zdrop|].
      rewrite J6 in Er. rewrite <- (ztake_zdrop (zlen o) d), Hod, <- app_assoc in Er. apply app_inv_head in Er. auto. }
    destruct Hsplit as (d1 & -> & Hrest1). rewrite zlen_app in *. pose proof (zlen_nonneg d1).
    apply obind_ret in C. destruct C as ([[[io data] s2] w2] & C & F).
    destruct (from_read E w (zlen o)) as [[rr fr] w3].
    destruct (negb _); [inv C; cbv iota in F; inv F; unfold E_IO_FAILED in Hr; lia|].
    apply obind_ret in C. destruct C as (dd & C1 & C). inv C. apply add_data_len in C1. cbv iota in F.
    destruct (to_write E w2 data) as [rw w4].
    destruct (negb _); inv F; [unfold E_IO_FAILED in Hr; lia|].
    unfold qinv. cbn. rewrite Es. eexists r2, _. split; [reflexivity|]. split; [exact G4|]. split; [auto|].
    unfold at_field. cbn. rewrite Es. exists d1, x, adj, rs. rewrite wrap_small by lia. splits; auto; try lia; fin.
    destruct J8 as (L1 & L2 & L3 & L4 & L5). unfold left_over. cbn. try rewrite C1. rewrite !wrap_small by lia. splits; auto; try lia; fin.
  - unfold qinv in Hi. rewrite Es in Hi. destruct Hi as (r & rest & J1 & J2 & J3 & J4). unfold at_field in J4. rewrite Es in J4. destruct J4 as (x & adj & rs & J4 & J5 & J6).
    assert (Hx := zlen_nonneg x). destruct (left_over_ge _ _ _ J6 Hx) as (O1 & O2 & O3 & O4).
    unfold process_size, common_process_size in A. rewrite J1 in A.
    apply obind_ret in A. destruct A as ([[[[r1 v] z1] r2] l1] & A & C). cbv zeta in C.
    apply obind_ret in A. destruct A as ([[[[r1' v'] z1'] r2'] l1'] & A & D).
    destruct (Z.eqb_spec r1' 0) as [->|Hne]; cbn [negb] in D.
    + destruct (unpack_bound whole _ _ _ _ _ _ _ _ _ _ Hf J2 J3 A (Z.le_refl 0)) as [(_ & U1 & U2 & U3 & rest1 & U4 & U5)|(X & _)]; [|lia].
      rewrite U4 in J4. inv J4. rewrite (wrap_small (zlen x)) in D by lia. rewrite wrap_small in D by lia.
      destruct (Z.ltb_spec (a_to_size s) (a_to_offset s + zlen x)); inv D; [change (negb (- E_CORRUPT_PATCH =? 0)) with true in C; inv C; unfold E_CORRUPT_PATCH in Hr; lia|].
      change (negb (0 =? 0)) with false in C. cbv iota in C. inv C. unfold qinv. cbn. eexists r2, _. split; [reflexivity|]. split; [exact U5|]. split; [exact U3|].
      unfold at_field. cbn. exists x, adj, rs. rewrite wrap_small by lia. splits; auto; try lia; fin.
    + inv D. destruct (Z.eqb_spec r1 0); [congruence|]. cbn [negb] in C. inv C.
      destruct (unpack_bound whole _ _ _ _ _ _ _ _ _ _ Hf J2 J3 A Hr) as [(X & _)|(_ & U1 & rest1 & U2 & U3)]; [lia|].
      unfold qinv. cbn. rewrite Es. exists r2, rest1. cbn. splits; auto; fin. unfold at_field. cbn. rewrite Es. exists x, adj, rs. rewrite U2. splits; auto; try lia; fin.
  - unfold qinv in Hi. rewrite Es in Hi. destruct Hi as (r & rest & J1 & J2 & J3 & J4). unfold at_field in J4. rewrite Es in J4.
    destruct J4 as (x & adj & rs & J4 & J5 & J6 & J7 & J8).
    assert (Hx := zlen_nonneg x). destruct (left_over_ge _ _ _ J8 Hx) as (O1 & O2 & O3 & O4).
    unfold process_data in A. cbv zeta in A. rewrite J5 in A. destruct (Z.eqb_spec (Z.min 128 (zlen x)) 0) as [Ez|Nz].
    { inv A. assert (Hnil : x = []) by (apply zlen_0_nil; lia). subst x. cbn [app] in J2.
      unfold qinv. cbn. exists r, (enc_size adj ++ enc_recs rs). cbn. splits; auto; fin.
      unfold at_field. cbn. exists adj, rs. unfold size_limit in J7. split; [unfold szrest; rewrite J4; apply dec_size_enc; lia|]. auto. }
    rewrite J1 in A. apply obind_ret in A. destruct A as ([[[r1 o] r2] l1] & A & C).
    assert (Hmin : 1 <= Z.min 128 (zlen x)) by lia.
    destruct (gives_dec _ _ _ _ _ _ _ _ _ Hf J2 Hmin A) as [G1 G2].
    assert (Ho : r1 = 0 -> zlen o <= zlen x).
    { intros ->. pose proof (gives_len _ _ _ _ _ _ _ _ J2 Hmin A). lia. }
    destruct (Z.eqb_spec r1 0) as [->|Hne]; cbn [negb] in C.
    2:{ inv C. apply decompress_code in A. assert (r0 = 1) by (destruct A as [|[|]]; lia). subst r0.
        unfold qinv. cbn. rewrite Es. exists r2, (x ++ enc_size adj ++ enc_recs rs). cbn. splits; auto; fin.
        unfold at_field. cbn. rewrite Es. exists x, adj, rs. splits; auto; try lia; fin. }
    destruct (G1 eq_refl) as (G3 & rest1 & Er & G4). specialize (Ho eq_refl). pose proof (zlen_nonneg o) as Hzo.
    assert (Hsplit : exists d1, x = o ++ d1 /\ rest1 = d1 ++ enc_size adj ++ enc_recs rs).
    { exists (zdrop (zlen o) x). assert (Hod : ztake (zlen o) x = o).
      { apply (f_equal (ztake (zlen o))) in Er. rewrite J6, ztake_app_l in Er by lia. rewrite Er. rewrite ztake_app_l by lia. apply ztake_all. lia. }
      split; [rewrite <- Hod at 1; symmetry; apply ztake_zdrop|].
      rewrite J6 in Er. rewrite <- (ztake_zdrop (zlen o) x), Hod, <- app_assoc in Er. apply app_inv_head in Er. auto. }
    destruct Hsplit as (d1 & -> & Hrest1). rewrite zlen_app in *. pose proof (zlen_nonneg d1).
    cbn [obind] in C. destruct (to_write E w o) as [rw w4].
    destruct (negb _); inv C; [unfold E_IO_FAILED in Hr; lia|].
    unfold qinv. cbn. rewrite Es. eexists r2, _. split; [reflexivity|]. split; [exact G4|]. split; [auto|].
    unfold at_field. cbn. rewrite Es. exists d1, adj, rs. rewrite wrap_small by lia. splits; auto; try lia; fin.
    destruct J8 as (L1 & L2 & L3 & L4 & L5). unfold left_over. cbn. try rewrite C1. rewrite !wrap_small by lia. splits; auto; try lia; fin.
  - unfold qinv in Hi. rewrite Es in Hi. destruct Hi as (r & rest & J1 & J2 & J3 & J4). unfold at_field in J4. rewrite Es in J4. destruct J4 as (adj & rs & J4 & J5).
    unfold process_adjustment in A. rewrite J1 in A.
    apply obind_ret in A. destruct A as ([[[[r1 v] z1] r2] l1] & A & C). cbv zeta in C.
    destruct (Z.eqb_spec r1 0) as [->|Hne]; cbn [negb] in C.
    + destruct (unpack_bound whole _ _ _ _ _ _ _ _ _ _ Hf J2 J3 A (Z.le_refl 0)) as [(_ & U1 & U2 & U3 & rest1 & U4 & U5)|(X & _)]; [|lia].
      assert (U4' := U4). rewrite U4 in J4. inv J4. destruct (from_seek E w adj) as [rs' w3].
      destruct (negb _); [inv C; unfold E_IO_FAILED in Hr; lia|].
      apply obind_ret in C. destruct C as (fo & _ & C). inv C. unfold qinv. cbn. destruct J5 as (L1 & L2 & L3 & L4 & L5).
      destruct (Z.eqb_spec (a_to_offset s) (a_to_size s)) as [Ed|Ed].
      * destruct L4 as [->|L4]; [|apply last_pos in L4; lia]. pose proof (unpack_end _ _ _ _ _ _ _ _ _ Hf J2 J3 A U4') as X.
        apply app_eq_nil in X. tauto.
      * destruct rs as [|x rs]; [cbn in L2; lia|]. destruct L4 as [L4|L4]; [discriminate|]. inv L5.
        exists r2, (enc_recs (x :: rs)). cbn. splits; auto; fin. unfold at_field. cbn. exists x, rs.
        change (recs_size (x :: rs)) with (rec_size x + recs_size rs) in L2.
        assert (Hx : 0 <= zlen (r_diff x) <= rec_size x) by (unfold rec_size; pose proof (zlen_nonneg (r_diff x)); pose proof (zlen_nonneg (r_extra x)); lia).
        pose proof (recs_size_nonneg rs).
        split; [|split; [auto|]].
        -- unfold szrest. rewrite U2. cbn [enc_recs flat_map]. unfold enc_rec at 1. rewrite <- !app_assoc. apply dec_size_enc. lia.
        -- unfold left_over. cbn. splits; auto; try lia; fin. eapply last_tail; eauto.
    + inv C. destruct (unpack_bound whole _ _ _ _ _ _ _ _ _ _ Hf J2 J3 A Hr) as [(X & _)|(_ & U1 & rest1 & U2 & U3)]; [lia|].
      unfold qinv. cbn. rewrite Es. exists r2, rest1. cbn. splits; auto; fin. unfold at_field. cbn. rewrite Es. exists adj, rs. rewrite U2. splits; auto; fin.
  - inv A. unfold E_ALREADY_FAILED in Hr. lia.
Qed.

Lemma qinv_left : forall f s l, a_left s = l -> qinv f s -> qinv f (set_left s l).
Proof. intros f s l <- H. destruct s. exact H. Qed.

Lemma qinv_stop : forall f s, (a_state s = SDone \/ a_state s = SFailed \/ a_left s = []) -> qinv f s -> qinv f (set_chunk s []).
Proof.
  intros f s [Y|[Y|Y]] H; unfold qinv, at_field in *; cbn in *; rewrite Y in *; exact H.
Qed.

Lemma qinv_chunk : forall f s p, bytes_ok p -> qinv (p ++ f) (set_chunk s []) -> qinv f (set_chunk s p).
Proof.
  intros f s p Hp H. unfold qinv, at_field in *. cbn in *. destruct (a_state s); auto;
    try (destruct H as (A & _ & D); auto; fail); try (apply app_eq_nil in H; tauto);
    (destruct H as (r & rest & G1 & (G2 & G3 & G4) & G5 & G6);
     exists r, rest; split; [auto|]; split; [split; [auto|split; auto]|auto]).
Qed.

Lemma loop_trunc : forall fuel f res s w res1 s1 w1, bytes_ok f -> qinv f s ->
  (res < 0 -> a_state s = SDone \/ a_state s = SFailed) ->
  process_loop E fuel 128 res s w = Ret (res1, s1, w1) -> qinv f (set_chunk s1 []).
Proof.
  induction fuel; intros f res s w res1 s1 w1 Hf Hi Hr X; cbn [process_loop] in X.
  - destruct (a_left s) eqn:El; [inv X; apply qinv_stop; auto|].
    destruct (Z.ltb_spec res 0); [|discriminate]. inv X. apply qinv_stop; [|auto]. destruct (Hr H); auto.
  - destruct (a_left s) eqn:El; [inv X; apply qinv_stop; auto|].
    destruct (Z.ltb_spec res 0); [inv X; apply qinv_stop; [|auto]; destruct (Hr H); auto|].
    apply obind_ret in X. destruct X as ([[r2 s2] w2] & A & X).
    eapply IHfuel; [exact Hf|eapply once_trunc; eauto| |exact X].
    intros Y. apply once_code in A. destruct A as [(A1 & A2 & A3 & A4)|[(A1 & A2 & A3 & A4)|(A1 & A2 & A3 & A4)]]; subst; auto.
Qed.

Lemma finloop_trunc : forall fuel f s w res1 s1 w1, bytes_ok f -> qinv f s ->
  finalize_loop E fuel 128 s w = Ret (res1, s1, w1) -> qinv f (set_chunk s1 []) /\ (res1 = - E_ALREADY_DONE -> f = []) /\ (res1 < 0 \/ res1 = 1).
Proof.
  induction fuel; intros f s w res1 s1 w1 Hf Hi X; cbn [finalize_loop] in X; [discriminate|].
  apply obind_ret in X. destruct X as ([[r2 s2] w2] & A & X).
  assert (Hi2 : qinv f s2) by (eapply once_trunc; eauto).
  destruct (Z.eqb_spec r2 0); [eapply IHfuel; eauto|]. inv X.
  pose proof A as A'. apply once_code in A. destruct A as [(A1 & A2 & A3 & A4)|[(A1 & A2 & A3 & A4)|(A1 & A2 & A3 & A4)]]; subst.
  - unfold qinv in Hi2. rewrite A1 in Hi2. subst f. unfold E_ALREADY_DONE. split; [|split; [auto|lia]]. apply qinv_stop; [auto|]. unfold qinv. rewrite A1. reflexivity.
  - unfold E_ALREADY_DONE, E_ALREADY_FAILED. split; [|split; [lia|lia]]. apply qinv_stop; [auto|exact Hi2].
  - unfold code_ok in A3. unfold E_ALREADY_DONE in *. split; [|split; lia].
    destruct (Z.eqb_spec res1 1) as [->|Hne]; [|apply qinv_stop; [|exact Hi2]; right; left; apply A4; lia].
    apply qinv_stop; [|auto]. right; right. eapply once_left; eauto.
Qed.

Lemma finalize_trunc : forall fuel f s w v s1 w1, bytes_ok f -> f <> [] -> qinv f (set_chunk s []) ->
  finalize E fuel 128 s w = Ret (v, s1, w1) -> v < 0 /\ qinv f (set_chunk s1 []).
Proof.
  intros fuel f s w v s1 w1 Hf Hne Hi X. unfold finalize in X. cbv zeta in X.
  apply obind_ret in X. destruct X as ([[r2 s2] w2] & A & X). apply obind_ret in X. destruct X as (v' & B & X). inv X.
  destruct (finloop_trunc _ _ _ _ _ _ _ Hf Hi A) as (A1 & A2 & A3). split; [|auto].
  unfold common_finalize in B. cbv zeta in B. assert (Hd : r2 <> - E_ALREADY_DONE) by auto.
  set (res1 := if r2 =? 1 then - E_NOT_ENOUGH_PATCH_DATA else r2) in *.
  assert (Hr1 : res1 < 0 /\ res1 <> - E_ALREADY_DONE).
  { unfold res1. destruct (Z.eqb_spec r2 1); [unfold E_NOT_ENOUGH_PATCH_DATA, E_ALREADY_DONE; lia|]. lia. }
  destruct (Z.eqb_spec res1 (- E_ALREADY_DONE)); [tauto|]. clearbody res1.
  apply obind_ret in B. destruct B as (r3 & B1 & B). assert (r3 = res1).
  { destruct (a_reader s1); [|congruence]. apply obind_ret in B1. destruct B1 as (d & _ & B1). destruct (Z.eqb_spec res1 0); [lia|congruence]. }
  subst r3. destruct (Z.eqb_spec res1 0); [lia|]. inv B. lia.
Qed.

Lemma feed_trunc : forall chunks f fuel s w v s1 w1, bytes_ok (concat chunks ++ f) -> f <> [] -> qinv (concat chunks ++ f) (set_chunk s []) ->
  feed E fuel 128 s w chunks = Ret (v, s1, w1) -> v < 0.
Proof.
  induction chunks as [|p chunks IH]; intros f fuel s w v s1 w1 Hb Hne Hi X; cbn [feed concat app] in *.
  - eapply finalize_trunc; eauto.
  - rewrite <- app_assoc in Hb, Hi. apply Forall_app in Hb. destruct Hb as [Hp Hb].
    apply obind_ret in X. destruct X as ([[r2 s2] w2] & A & X). assert (A' := A).
    unfold process in A'. cbv zeta in A'. apply obind_ret in A'. destruct A' as ([[r3 s3] w3] & A2 & A3).
    assert (s3 = s2 /\ w3 = w2) as [-> ->] by (split; congruence). clear A3.
    assert (Hi2 : qinv (concat chunks ++ f) (set_chunk s2 [])).
    { eapply loop_trunc; [exact Hb| | |exact A2]; [|lia]. apply qinv_chunk in Hi; [exact Hi|auto]. }
    destruct (Z.eqb_spec r2 0) as [Hz|Hz].
    + eapply (IH f); [exact Hb|exact Hne|exact Hi2|exact X].
    + apply obind_ret in X. destruct X as ([[r4 s4] w4] & _ & X). inv X. eapply process_failed; eauto.
Qed.

Lemma calls_trunc : forall calls f fuel s w rs s1 w1, bytes_ok (concat (pieces_of calls) ++ f) -> f <> [] ->
  qinv (concat (pieces_of calls) ++ f) (set_chunk s []) ->
  run_calls E fuel s w calls = Ret (rs, s1, w1) -> Forall2 (fun cl r => match cl with CallProcess _ => r <= 0 | CallFinalize => r < 0 end) calls rs.
Proof.
  induction calls as [|cl cs IH]; intros f fuel s w rs s1 w1 Hb Hne Hi X; cbn [run_calls] in X; [inv X; constructor|].
  unfold pieces_of in Hb, Hi. cbn [map concat] in Hb, Hi. rewrite <- app_assoc in Hb, Hi. apply Forall_app in Hb. destruct Hb as [Hp Hb].
  apply obind_ret in X. destruct X as ([[r2 s2] w2] & A & X).
  apply obind_ret in X. destruct X as ([[r3 s3] w3] & B & X). inv X.
  destruct cl as [p|].
  - assert (A' := A). unfold process in A'. cbv zeta in A'. apply obind_ret in A'. destruct A' as ([[r4 s4] w4] & A2 & A3).
    assert (s4 = s2 /\ w4 = w2) as [-> ->] by (split; congruence). clear A3.
    constructor.
    + destruct (Z.eq_dec r2 0) as [->|Hz]; [lia|]. eapply process_failed in A; [lia|exact Hz].
    + eapply (IH f); [exact Hb|exact Hne| |exact B]. eapply loop_trunc; [exact Hb| | |exact A2]; [|lia]. apply qinv_chunk in Hi; [exact Hi|auto].
  - cbn [app] in Hi. assert (Hne2 : concat (pieces_of cs) ++ f <> []) by (intros X; apply app_eq_nil in X; tauto).
    destruct (finalize_trunc _ _ _ _ _ _ _ Hb Hne2 Hi A) as [F1 F2]. constructor; [auto|]. eapply (IH f); [exact Hb|exact Hne|exact F2|exact B].
Qed.

Lemma init_qinv : forall junk ps, qinv whole (set_chunk (ap_init junk ps) []).
Proof. intros junk ps. unfold qinv. cbn. splits; auto. constructor. Qed.

End Trunc.

Lemma seq_whole : forall c recs patch, seq_patch c recs patch -> exists stream, patch = whole c recs stream /\
  ((recs = [] /\ stream = []) \/ (last_nonempty recs /\ compressed c (enc_body recs) stream)).
Proof.
  intros c recs patch [[A B]|[A (stream & B & C)]].
  - exists []. subst. auto.
  - exists stream. subst. auto.
Qed.

Lemma truncated_feed : forall (wb : WordBits), 32 <= word_bits ->
  forall (W : Type) (E : seq_env W) junk c recs patch pre rest ps chunks,
  seq_patch c recs patch -> recs_in_limits recs -> bytes_ok patch ->
  patch = pre ++ rest -> rest <> [] -> concat chunks = pre ->
  forall fuel w v s w1, feed E fuel 128 (ap_init junk ps) w chunks = Ret (v, s, w1) -> v < 0.
Proof.
  intros wb Hw W E junk c recs patch pre rest ps chunks Hs Hl Hb Ep Hne Ec fuel w v s w1 X.
  destruct (seq_whole _ _ _ Hs) as (stream & A & B). subst pre. rewrite A in *.
  eapply (feed_trunc Hw E c recs stream Hl Hb B chunks rest); [| | |exact X]; auto; rewrite <- Ep; [exact Hb|apply init_qinv].
Qed.

Lemma truncated_calls : forall (wb : WordBits), 32 <= word_bits ->
  forall (W : Type) (E : seq_env W) junk c recs patch pre rest ps calls,
  seq_patch c recs patch -> recs_in_limits recs -> bytes_ok patch ->
  patch = pre ++ rest -> rest <> [] -> concat (pieces_of calls) = pre ->
  forall fuel w rs s w1, run_calls E fuel (ap_init junk ps) w calls = Ret (rs, s, w1) ->
  Forall2 (fun cl r => match cl with CallProcess _ => r <= 0 | CallFinalize => r < 0 end) calls rs.
Proof.
  intros wb Hw W E junk c recs patch pre rest ps calls Hs Hl Hb Ep Hne Ec fuel w rs s w1 X.
  destruct (seq_whole _ _ _ Hs) as (stream & A & B). subst pre. rewrite A in *.
  eapply (calls_trunc Hw E c recs stream Hl Hb B calls rest); [| | |exact X]; auto; rewrite <- Ep; [exact Hb|apply init_qinv].
Qed.
