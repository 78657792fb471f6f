(** The header of an in-place patch, step by step, and truncated in-place patches
    (C54). *)

From Coq Require Import ZArith List Bool Lia ZifyBool ZifyNat ZifyN.
From Verif Require Import Prelude Lib Heatshrink HsProofs CReader ReaderProofs SizeProofs CSeq Spec SeqSim SeqRun SeqTerm SeqMeaning SeqApply SeqSpec SeqInv SeqCount ReaderSpec ReaderDrive SizeCodec SeqBound SeqTrunc
  CInPlace InPlaceSpec CodesSpec CodesSeq CodesIp CallbackSpec IpCallbackSpec IpCallback IpBoundSpec IpBound SeqSafe.
Import ListNotations.
Open Scope Z_scope.

Ltac Zify.zify_post_hook ::= Z.to_euclidean_division_equations.

Ltac splits := repeat match goal with |- _ /\ _ => split end.

(** ** The header *)

Section Head.
Context {WBits : WordBits}.
Hypothesis Hword : 32 <= word_bits.
Context {W : Type} (E : ip_env W).
Variable patch : list Z.
Variable a : announced.
Variable c : comp.
Variables l1 l2 l3 l4 : list Z.
Hypothesis Hcomp : announced_comp patch = comp_number c.
Hypothesis Hhdr : dec_magnitude (tl patch) = Some (n_memory a, l1) /\ dec_magnitude l1 = Some (n_segment a, l2) /\
  dec_magnitude l2 = Some (n_shift a, l3) /\ dec_magnitude l3 = Some (n_from a, l4) /\ dec_magnitude l4 = Some (n_to a, n_stream a).

Notation head_ok := (head_ok patch a c l1 l2 l3 l4).

(** What is known when the header has been read: [l] is left in the piece. *)
Definition header_done (f : list Z) (s1 : ip) (w w1 : W) : Prop :=
  exists r l ps, reader_init ps (comp_number c) = Some r /\ l ++ f = n_stream a /\ bytes_ok l /\
    0 <= n_memory a < 2 ^ 27 /\ 0 <= n_segment a < 2 ^ 27 /\ 0 <= n_shift a < 2 ^ 27 /\ 0 <= n_from a < 2 ^ 27 /\ 0 <= n_to a < 2 ^ 27 /\
    i_left s1 = l /\ i_reader s1 = Some r /\ z_cons (i_rsize s1) = false /\ i_to_pos s1 = 0 /\ i_to_size s1 = n_to a /\
    i_memory_size s1 = n_memory a /\ i_segment_size s1 = n_segment a /\ i_shift_size s1 = n_shift a /\ i_from_size s1 = n_from a /\ g_index (i_seg s1) = 0 /\
    ((n_to a = 0 /\ i_state s1 = SDone /\ w1 = w /\ i_step s1 = 1) \/
     (0 < n_to a /\ i_state s1 = SDfpatchSize /\
      shift_memory E 1 w (n_memory a) (n_from a) (n_segment a) (n_shift a) = Ret (0, i_step s1, w1))).

Lemma head_step : forall f s w res s1 w1, bytes_ok f -> i_state s = SInit -> head_ok f s -> 
  ip_process_init E s w = Ret (res, s1, w1) ->
  (forall step x n1 n2 n3 n4 r st x1, shift_memory E step x n1 n2 n3 n4 = Ret (r, st, x1) -> r <= 0) ->
  res < 0 \/
  (res = 1 /\ w1 = w /\ i_state s1 = SInit /\ head_ok f s1 /\ i_left s1 = []) \/
  (res = 0 /\ w1 = w /\ i_state s1 = SInit /\ head_ok f s1) \/
  (res = 0 /\ i_init s = ITo /\ header_done f s1 w w1).
Proof.
  intros f s w res s1 w1 Hf Es Hh U Hsh. unfold ip_process_init in U. pose proof (pow2_32_le word_bits Hword).
  assert (Sz : forall next store M v0 M1, zok (i_size s) -> pend f M s -> dec_magnitude M = Some (v0, M1) ->
     obind (ip_init_size s next store) (fun '(r, s1) => Ret (r, s1, w)) = Ret (res, s1, w1) ->
     (forall x v, i_state (store x v) = i_state x /\ i_left (store x v) = i_left x) ->
     (forall z1, zok z1 -> pend f M (iset_header s (i_init s) (i_compression s) z1 []) ->
         head_ok f (iset_header s (i_init s) (i_compression s) z1 [])) ->
     (forall z1 l, bytes_ok l -> l ++ f = M1 -> 0 <= v0 < 2 ^ 27 -> head_ok f (store (iset_header s next (i_compression s) (z_first z1) l) v0)) ->
     res < 0 \/ (res = 1 /\ w1 = w /\ i_state s1 = SInit /\ head_ok f s1 /\ i_left s1 = []) \/
     (res = 0 /\ w1 = w /\ i_state s1 = SInit /\ head_ok f s1) \/ (res = 0 /\ i_init s = ITo /\ header_done f s1 w w1)).
  { intros next store M v0 M1 Hz Hp Hm V Hst H1 H0. apply obind_ret in V. destruct V as ([r2 s2] & V & V2). inv V2.
    assert (Hb : bytes_ok (i_left s)) by (destruct Hh; auto).
    pose proof (init_size_may Hword False (fun _ _ => True) patch a l1 l2 l3 l4 Hhdr (or_introl (fun _ _ => I)) f s next store M v0 M1 Hf Hb Hz Hp Hm) as X.
    rewrite V in X. cbn [may] in X.
    destruct X as [(-> & z1 & -> & Y1 & Y2)|[(-> & Y1 & z1 & l & -> & Y2 & Y3)|(Y1 & z1 & l & ->)]].
    - right. left. cbn. rewrite Es. splits; auto.
    - right. right. left. destruct (Hst (iset_header s next (i_compression s) (z_first z1) l) v0) as (T1 & T2). cbn in T1, T2. rewrite T1, Es. splits; auto.
    - left. exact Y1. }
  assert (Hh0 := Hh). destruct Hh as (Hb & Hst & Hh). destruct Hhdr as (H1 & H2 & H3 & H4 & H5).
  destruct (i_init s) eqn:Ei.
  - clear Sz. assert (Hp : id (i_left s ++ f = patch)) by exact Hh. clear Hh. apply obind_ret in U. destruct U as ([r2 s2] & U & U2). inv U2.
    unfold ip_init_fixed_header in U. destruct (i_left s) as [|b l] eqn:El; [inv U; left; unfold E_SHORT_HEADER; lia|].
    cbv zeta in U. destruct (negb _); inv U; [left; unfold E_BAD_PATCH_TYPE; lia|].
    right. right. left. pose proof (Forall_inv_tail Hb). unfold id in Hp. cbn. rewrite Es. split; [auto|]. split; [auto|]. split; [auto|].
    unfold IpBound.head_ok. cbn. splits; auto; [apply zok_first|rewrite <- Hp in Hcomp; exact Hcomp|].
    apply pend_next; auto. cbn. rewrite <- Hp. reflexivity.
  - destruct Hh as (Hz & Hc & Hp). eapply Sz with (M := tl patch) (v0 := n_memory a) (M1 := l1); [..|exact U| | |]; auto.
    + intros z1 Y1 Y2. unfold IpBound.head_ok. cbn. splits; auto. constructor.
    + intros z1 l Y1 Y2 Y3. unfold IpBound.head_ok. cbn. splits; auto; try lia; [apply zok_first|]. apply pend_next; auto.
  - destruct Hh as (Hz & Hc & Hp & Hm & Hm2). eapply Sz with (M := l1) (v0 := n_segment a) (M1 := l2); [..|exact U| | |]; auto.
    + intros z1 Y1 Y2. unfold IpBound.head_ok. cbn. splits; auto; try lia. constructor.
    + intros z1 l Y1 Y2 Y3. unfold IpBound.head_ok. cbn. splits; auto; try lia; [apply zok_first|]. apply pend_next; auto.
  - destruct Hh as (Hz & Hc & Hp & Hm & Hm2 & Hg & Hg2). eapply Sz with (M := l2) (v0 := n_shift a) (M1 := l3); [..|exact U| | |]; auto.
    + intros z1 Y1 Y2. unfold IpBound.head_ok. cbn. splits; auto; try lia. constructor.
    + intros z1 l Y1 Y2 Y3. unfold IpBound.head_ok. cbn. splits; auto; try lia; [apply zok_first|]. apply pend_next; auto.
  - destruct Hh as (Hz & Hc & Hp & Hm & Hm2 & Hg & Hg2 & Hs & Hs2). eapply Sz with (M := l3) (v0 := n_from a) (M1 := l4); [..|exact U| | |]; auto.
    + intros z1 Y1 Y2. unfold IpBound.head_ok. cbn. splits; auto; try lia. constructor.
    + intros z1 l Y1 Y2 Y3. unfold IpBound.head_ok. cbn. splits; auto; try lia; [apply zok_first|]. apply pend_next; auto.
  - clear Sz. destruct Hh as (Hz & Hc & Hp & M1 & M2 & G1 & G2 & S1 & S2 & F1 & F2). unfold ip_init_to_size in U.
    destruct (uhs_app (i_left s) (i_size s) f Hz)
      as [(z1 & P & Q & R)|[(v & z1 & l & used & P & Q & R & S)|(z1 & l & P & R)]]; rewrite P in U; cbn [obind] in U; cbv zeta in U.
    + change (negb (1 =? 0)) with true in U. inv U. right. left. cbn. rewrite Es. split; [auto|]. split; [auto|]. split; [auto|]. split; [|auto].
      unfold IpBound.head_ok. cbn. rewrite Ei. splits; auto; [constructor| |lia..].
      intros v z2 l U. apply (Hp v z2 l). rewrite R. exact U.
    + change (negb (0 =? 0)) with false in U. cbv iota in U. pose proof (Hp _ _ _ S) as X. rewrite H5 in X. inversion X as [[X1 X2]]. clear X. subst v.
      assert (Hl : bytes_ok l) by (rewrite R in Hb; apply Forall_app in Hb; tauto).
      destruct (reader_init _ _) as [r|] eqn:Er; [|inv U; left; unfold E_BAD_COMPRESSION; lia].
      cbn [i_compression iset_header] in Er. rewrite Hc in Er.
      destruct (Z.ltb_spec (n_to a) 0); [lia|]. destruct (Z.ltb_spec 0 (n_to a)).
      * cbn [i_step i_memory_size i_from_size i_segment_size i_shift_size iset_seg iset_to iset_reader iset_header] in U.
        rewrite Hst, M1, F1, G1, S1 in U. apply obind_ret in U. destruct U as ([[r1 st] w2] & A & U).
        destruct (Z.eqb_spec r1 0) as [->|Hne]; cbn [negb] in U; [|inv U; left; pose proof (Hsh _ _ _ _ _ _ _ _ _ A); lia].
        inv U. right. right. right. split; [auto|]. split; [auto|]. eexists r, l, _. split; [exact Er|]. cbn. rewrite wrap_small by lia. splits; auto; try lia.
      * inv U. right. right. right. split; [auto|]. split; [auto|]. eexists r, l, _. split; [exact Er|]. cbn. rewrite wrap_small by lia. splits; auto; try lia.
        left. splits; auto. lia.
    + change (negb (- E_CORRUPT_PATCH_OVERFLOW =? 0)) with true in U. inv U. left. unfold E_CORRUPT_PATCH_OVERFLOW. lia.
Qed.

End Head.

(** ** Truncated patches *)

Section Trunc.
Context {WBits : WordBits}.
Hypothesis Hword : 32 <= word_bits.
Context {W : Type} (E : ip_env W).
Variable P : Z -> Prop.
Hypothesis HG : callbacks_good E (fun _ => True) P.
Variable c : comp.
Variables memory segment shift from_size to_size : Z.
Variable segs : list (list prec).
Variable stream : list Z.

Definition iwhole : list Z := in_place_header c memory segment shift from_size to_size ++ stream.
Definition iann : announced := mkann memory segment shift from_size to_size stream.
Definition at4 : list Z := enc_size to_size ++ stream.
Definition at3 : list Z := enc_size from_size ++ at4.
Definition at2 : list Z := enc_size shift ++ at3.
Definition at1 : list Z := enc_size segment ++ at2.

Definition adj_ok (r : prec) : Prop := - size_limit < r_adj r < size_limit.

Hypothesis Hpatch : bytes_ok iwhole.
Hypothesis Hsizes : 0 < segment < 2 ^ 27 /\ 0 <= memory < 2 ^ 27 /\ 0 <= shift < 2 ^ 27 /\ 0 <= from_size < 2 ^ 27 /\ 0 <= to_size < 2 ^ 27.
Hypothesis Hok : segments_ok segment segs to_size.
Hypothesis Hadj : Forall (Forall adj_ok) segs.
Hypothesis Hbody : (segs = [] /\ stream = []) \/ (segs <> [] /\ compressed c (enc_segments segs) stream).

(** In a segment, [k] bytes and the records [rs] before its end; then come [more]. *)
Definition over (s : ip) (k : Z) (rs : list prec) (more : list (list prec)) : Prop :=
  let g := i_seg s in
  1 <= g_index g /\ 0 <= g_to_offset g /\ g_to_offset g = (g_index g - 1) * segment /\
  g_to_size g = Z.min segment (to_size - g_to_offset g) /\ i_to_pos s = g_to_offset g + g_to_pos g /\ 0 <= g_to_pos g /\
  g_to_pos g + k + recs_size rs = g_to_size g /\ (rs = [] \/ last_nonempty rs) /\ Forall adj_ok rs /\
  segments_ok segment more (to_size - (g_to_offset g + g_to_size g)) /\ Forall (Forall adj_ok) more.

Definition follow (rs : list prec) (more : list (list prec)) : list Z := enc_recs rs ++ enc_segments more.

Definition ifield (s : ip) (rest : list Z) : Prop :=
  match i_state s with
  | SDfpatchSize => exists recs more,
      szrest (i_rsize s) rest = Some (0, follow recs more) /\ 0 <= g_index (i_seg s) /\ i_to_pos s = g_index (i_seg s) * segment /\
      0 <= i_to_pos s < to_size /\ segments_ok segment (recs :: more) (to_size - i_to_pos s) /\ Forall (Forall adj_ok) (recs :: more)
  | SDiffSize => exists x rs more,
      szrest (i_rsize s) rest = Some (zlen (r_diff x), r_diff x ++ enc_size (zlen (r_extra x)) ++ r_extra x ++ enc_size (r_adj x) ++ follow rs more) /\
      adj_ok x /\ over s (rec_size x) rs more
  | SDiffData => exists d x adj rs more, z_cons (i_rsize s) = false /\ i_chunk_size s = zlen d /\
      rest = d ++ enc_size (zlen x) ++ x ++ enc_size adj ++ follow rs more /\
      - size_limit < adj < size_limit /\ over s (zlen d + zlen x) rs more
  | SExtraSize => exists x adj rs more,
      szrest (i_rsize s) rest = Some (zlen x, x ++ enc_size adj ++ follow rs more) /\
      - size_limit < adj < size_limit /\ over s (zlen x) rs more
  | SExtraData => exists x adj rs more, z_cons (i_rsize s) = false /\ i_chunk_size s = zlen x /\
      rest = x ++ enc_size adj ++ follow rs more /\ - size_limit < adj < size_limit /\ over s (zlen x) rs more
  | SAdjustment => exists adj rs more, szrest (i_rsize s) rest = Some (adj, follow rs more) /\ over s 0 rs more
  | _ => True
  end.

Definition tinv (f : list Z) (s : ip) : Prop :=
  match i_state s with
  | SInit => head_ok iwhole iann c at1 at2 at3 at4 f s
  | SDone => f = []
  | SFailed => True
  | _ => i_segment_size s = segment /\ i_to_size s = to_size /\
      exists r rest, i_reader s = Some r /\ gives f r (i_left s) rest /\ zok (i_rsize s) /\ ifield s rest
  end.

#[local] Arguments ifield : simpl never.
#[local] Arguments over : simpl never.
#[local] Arguments follow : simpl never.

Lemma iwhole_hdr : dec_magnitude (tl iwhole) = Some (memory, at1) /\ dec_magnitude at1 = Some (segment, at2) /\
  dec_magnitude at2 = Some (shift, at3) /\ dec_magnitude at3 = Some (from_size, at4) /\ dec_magnitude at4 = Some (to_size, stream).
Proof.
  destruct Hsizes as (S1 & S2 & S3 & S4 & S5). unfold at1, at2, at3, at4. repeat split; try (apply dec_magnitude_enc; lia).
  unfold iwhole, in_place_header. cbn [tl app]. rewrite <- !app_assoc. apply dec_magnitude_enc. lia.
Qed.

Lemma iwhole_comp : announced_comp iwhole = comp_number c.
Proof. unfold iwhole, in_place_header. clear. destruct c; reflexivity. Qed.

Lemma shift_neg : forall step x n1 n2 n3 n4 r st x1, shift_memory E step x n1 n2 n3 n4 = Ret (r, st, x1) -> r <= 0.
Proof.
  intros step x n1 n2 n3 n4 r st x1 B. unfold shift_memory in B. destruct (_ =? 0); [discriminate|]. cbv zeta in B.
  apply (shift_good E (fun _ => True) P HG) in B. destruct B as [B _]. apply (cb_neg E (fun _ => True) P HG) in B. tauto.
Qed.

Lemma iwhole_stream : bytes_ok stream.
Proof. unfold iwhole in Hpatch. apply Forall_app in Hpatch. tauto. Qed.

Lemma istream_gives : forall f l r ps, bytes_ok f -> segs <> [] -> l ++ f = stream -> bytes_ok l -> reader_init ps (comp_number c) = Some r ->
  gives f r l (enc_segments segs).
Proof.
  intros f l1 r ps Hf Hne El Hl Hr. pose proof iwhole_stream as B3. destruct Hbody as [[X _]|[_ B1]]; [congruence|].
  assert (B2 : bytes_ok (enc_segments segs)) by (eapply compressed_bytes; eauto).
  split; [auto|]. split; [auto|]. destruct (reader_init_comp (zlen stream) c) as (r' & R1 & _).
  assert (Hc : c = CompNone \/ c <> CompNone) by (destruct c; auto; right; discriminate). destruct Hc as [Ec|Hc].
  - rewrite Ec in Hr, B1. inv Hr. inv B1. congruence.
  - destruct (stream_will _ _ _ _ Hc B1 B3 R1) as (A & B & D).
    assert (r' = r) by (clear - Hc R1 Hr; destruct c; cbn in *; congruence). subst r'. rewrite El.
    destruct r; [destruct A|auto|auto].
Qed.

Lemma segments_zero : forall more, segments_ok segment more 0 -> more = [].
Proof.
  intros [|rs more] H; [reflexivity|]. destruct H as (A & B & _). apply last_pos in B. lia.
Qed.

Lemma init_tinv : forall f s w res s1 w1, bytes_ok f -> i_state s = SInit -> tinv f s -> ip_process_init E s w = Ret (res, s1, w1) ->
  0 <= res -> tinv f s1 /\ (res = 1 -> i_left s1 = []).
Proof.
  intros f s w res s1 w1 Hf Es Hi U Hr. unfold tinv in Hi. rewrite Es in Hi.
  destruct (head_step Hword E iwhole iann c at1 at2 at3 at4 iwhole_comp iwhole_hdr f s w res s1 w1 Hf Es Hi U shift_neg)
    as [X|[(-> & _ & X1 & X2 & X3)|[(-> & _ & X1 & X2)|(-> & _ & r & l & ps & H1 & H2 & H3 & _ & _ & _ & _ & _ & L1 & L2 & L3 & L4 & L5 & L6 & L7 & L8 & L9 & L10 & L)]]].
  - lia.
  - split; [unfold tinv; rewrite X1; exact X2|auto].
  - split; [unfold tinv; rewrite X1; exact X2|lia].
  - split; [|lia]. unfold tinv. cbn [n_to n_segment iann n_stream] in *. destruct L as [(Z1 & ZS & _)|(Z1 & ZS & _)]; rewrite ZS.
    + destruct Hbody as [[_ X]|[X _]]; [rewrite X in H2; apply app_eq_nil in H2; tauto|].
      rewrite Z1 in Hok. apply segments_zero in Hok. congruence.
    + split; [auto|]. split; [auto|]. assert (Hne : segs <> []) by (intros X; rewrite X in Hok; cbn in Hok; lia).
      exists r, (enc_segments segs). split; [auto|]. rewrite L1. split; [eapply istream_gives; eauto|].
      split; [intros X; congruence|]. unfold ifield. rewrite ZS. destruct segs as [|recs more] eqn:Eg; [congruence|]. exists recs, more.
      rewrite L4, L10. unfold szrest. rewrite L3. rewrite Z.sub_0_r.
      split; [|splits; auto; lia]. unfold enc_segments, enc_body, follow. cbn [flat_map]. rewrite <- app_assoc. apply dec_size_enc. lia.
Qed.

Ltac fin := try match goal with H : over _ _ _ _ |- over _ _ _ _ => exact H end; try (unfold adj_ok, size_limit in *; lia).

Lemma over_ge : forall s k rs more, over s k rs more -> 0 <= k -> i_to_pos s + k <= to_size /\ to_size < 2 ^ 27 /\ 0 <= i_to_pos s /\ k < 2 ^ 27 /\ 0 <= g_to_pos (i_seg s).
Proof. intros s k rs more (A1 & A2 & A3 & A4 & A5 & A6 & A7 & _) Hk. pose proof (recs_size_nonneg rs). destruct Hsizes as (S1 & S2 & S3 & S4 & S5). lia. Qed.

Lemma rec_next : forall f s r x rs more, i_state s = SDiffSize -> i_reader s = Some r -> i_segment_size s = segment -> i_to_size s = to_size ->
  z_cons (i_rsize s) = false -> zok (i_rsize s) -> gives f r (i_left s) (follow (x :: rs) more) -> over s 0 (x :: rs) more -> tinv f s.
Proof.
  intros f s r x rs more Es Er Eg Et Hz Hz2 G O. unfold tinv. rewrite Es. split; [auto|]. split; [auto|]. exists r, (follow (x :: rs) more).
  split; [auto|]. split; [auto|]. split; [auto|]. unfold ifield. rewrite Es. exists x, rs, more.
  destruct (over_ge _ _ _ _ O (Z.le_refl 0)) as (O1 & O2 & O3 & _ & O4). destruct O as (A1 & A2 & A3 & A4 & A5 & A6 & A7 & [A8|A8] & A9 & A10 & A11); [discriminate|]. inv A9.
  change (recs_size (x :: rs)) with (rec_size x + recs_size rs) in A7.
  assert (Hx : 0 <= zlen (r_diff x) <= rec_size x) by (unfold rec_size; pose proof (zlen_nonneg (r_diff x)); pose proof (zlen_nonneg (r_extra x)); lia).
  pose proof (recs_size_nonneg rs).
  split; [|split; [auto|]].
  - unfold szrest. rewrite Hz. unfold follow. cbn [enc_recs flat_map]. unfold enc_rec at 1. rewrite <- !app_assoc. apply dec_size_enc. lia.
  - unfold over. splits; auto; try lia. eapply last_tail; eauto.
Qed.

Lemma split_at : forall (d o rest1 tail rest : list Z), zlen o <= zlen d -> rest = d ++ tail -> rest = o ++ rest1 ->
  exists d1, d = o ++ d1 /\ rest1 = d1 ++ tail.
Proof.
  clear. intros d o rest1 tail rest Ho J6 Er. pose proof (zlen_nonneg o). pose proof (zlen_nonneg d).
  exists (zdrop (zlen o) d). assert (Hod : ztake (zlen o) d = o).
  { rewrite Er in J6. apply (f_equal (ztake (zlen o))) in J6. rewrite !ztake_app_l in J6 by lia. rewrite <- J6. apply ztake_all. lia. }
  split; [rewrite <- Hod at 1; symmetry; apply ztake_zdrop|].
  rewrite J6 in Er. rewrite <- (ztake_zdrop (zlen o) d), Hod, <- app_assoc in Er. apply app_inv_head in Er. auto.
Qed.

Ltac start Hi Es := unfold tinv in Hi; rewrite Es in Hi; destruct Hi as (I1 & I2 & r & rest & J1 & J2 & J3 & J4); unfold ifield in J4; rewrite Es in J4.

(** A step that only waits for more data. *)
Lemma wait_tinv : forall f s r1 z1 l1 rest1, i_state s <> SInit -> i_state s <> SDone -> i_segment_size s = segment -> i_to_size s = to_size ->
  zok z1 -> gives f r1 l1 rest1 -> ifield (iset_reader s (Some r1) z1 l1) rest1 -> tinv f (iset_reader s (Some r1) z1 l1).
Proof.
  intros f s r1 z1 l1 rest1 N1 N2 E1 E2 Hz G F. unfold tinv. cbn [i_state iset_reader i_segment_size i_to_size i_reader i_left i_rsize].
  destruct (i_state s); try congruence; try exact I; (split; [auto|]; split; [auto|]; exists r1, rest1; split; [auto|]; split; [auto|]; split; auto).
Qed.

Lemma size_tinv : forall f s next res s1, bytes_ok f -> tinv f s -> ip_process_size s next = Ret (res, s1) -> 0 <= res ->
  (i_state s = SDiffSize /\ next = SDiffData \/ i_state s = SExtraSize /\ next = SExtraData) -> tinv f s1 /\ (res = 1 -> i_left s1 = []).
Proof.
  intros f s next res s1 Hf Hi A Hr Hs. pose proof (pow2_32_le word_bits Hword).
  destruct Hs as [[Es ->]|[Es ->]]; start Hi Es.
  - destruct J4 as (x & rs & more & J4 & J5 & J6).
    assert (Hd := zlen_nonneg (r_diff x)). assert (Hx := zlen_nonneg (r_extra x)).
    assert (Hge : 0 <= rec_size x) by (unfold rec_size; lia).
    destruct (over_ge _ _ _ _ J6 Hge) as (O1 & O2 & O3 & O4 & O5). unfold rec_size in O1, O4.
    unfold ip_process_size, common_process_size in A. rewrite J1 in A.
    apply obind_ret in A. destruct A as ([[[[r1 v] z1] r2] l1] & A & C). cbv zeta in C.
    apply obind_ret in A. destruct A as ([[[[r1' v'] z1'] r2'] l1'] & A & D).
    destruct (Z.eqb_spec r1' 0) as [->|Hne]; cbn [negb] in D.
    + destruct (unpack_bound [] _ _ _ _ _ _ _ _ _ _ Hf J2 J3 A (Z.le_refl 0)) as [(_ & U1 & U2 & U3 & rest1 & U4 & U5)|(X & _)]; [|lia].
      rewrite U4 in J4. inv J4. rewrite (wrap_small (zlen (r_diff x))) in D by lia. rewrite wrap_small in D by lia.
      destruct (Z.ltb_spec (i_to_size s) (i_to_pos s + zlen (r_diff x))); inv D; [change (negb (- E_CORRUPT_PATCH =? 0)) with true in C; inv C; unfold E_CORRUPT_PATCH in Hr; lia|].
      change (negb (0 =? 0)) with false in C. cbv iota in C. inv C. split; [|lia]. unfold tinv. cbn. split; [auto|]. split; [auto|]. eexists r2, _. split; [reflexivity|]. split; [exact U5|]. split; [exact U3|].
      unfold ifield. cbn. exists (r_diff x), (r_extra x), (r_adj x), rs, more. rewrite wrap_small by lia. split; [auto|]. split; [auto|]. split; [auto|]. split; fin.
    + inv D. destruct (Z.eqb_spec r1 0); [congruence|]. cbn [negb] in C. inv C.
      destruct (unpack_bound [] _ _ _ _ _ _ _ _ _ _ Hf J2 J3 A Hr) as [(X & _)|(_ & U1 & rest1 & U2 & U3)]; [lia|].
      split; [|intros ->; eapply unpack_left; exact A].
      apply wait_tinv with rest1; auto; try congruence. unfold ifield. cbn. rewrite Es. exists x, rs, more. rewrite U2. split; [auto|]. split; fin.
  - destruct J4 as (x & adj & rs & more & J4 & J5 & J6).
    assert (Hx := zlen_nonneg x). destruct (over_ge _ _ _ _ J6 Hx) as (O1 & O2 & O3 & O4 & O5).
    unfold ip_process_size, common_process_size in A. rewrite J1 in A.
    apply obind_ret in A. destruct A as ([[[[r1 v] z1] r2] l1] & A & C). cbv zeta in C.
    apply obind_ret in A. destruct A as ([[[[r1' v'] z1'] r2'] l1'] & A & D).
    destruct (Z.eqb_spec r1' 0) as [->|Hne]; cbn [negb] in D.
    + destruct (unpack_bound [] _ _ _ _ _ _ _ _ _ _ Hf J2 J3 A (Z.le_refl 0)) as [(_ & U1 & U2 & U3 & rest1 & U4 & U5)|(X & _)]; [|lia].
      rewrite U4 in J4. inv J4. rewrite (wrap_small (zlen x)) in D by lia. rewrite wrap_small in D by lia.
      destruct (Z.ltb_spec (i_to_size s) (i_to_pos s + zlen x)); inv D; [change (negb (- E_CORRUPT_PATCH =? 0)) with true in C; inv C; unfold E_CORRUPT_PATCH in Hr; lia|].
      change (negb (0 =? 0)) with false in C. cbv iota in C. inv C. split; [|lia]. unfold tinv. cbn. split; [auto|]. split; [auto|]. eexists r2, _. split; [reflexivity|]. split; [exact U5|]. split; [exact U3|].
      unfold ifield. cbn. exists x, adj, rs, more. rewrite wrap_small by lia. split; [auto|]. split; [auto|]. split; [auto|]. split; fin.
    + inv D. destruct (Z.eqb_spec r1 0); [congruence|]. cbn [negb] in C. inv C.
      destruct (unpack_bound [] _ _ _ _ _ _ _ _ _ _ Hf J2 J3 A Hr) as [(X & _)|(_ & U1 & rest1 & U2 & U3)]; [lia|].
      split; [|intros ->; eapply unpack_left; exact A].
      apply wait_tinv with rest1; auto; try congruence. unfold ifield. cbn. rewrite Es. exists x, adj, rs, more. rewrite U2. split; [auto|]. split; fin.
Qed.

Lemma data_tinv : forall f s w next res s1 w1, bytes_ok f -> tinv f s -> ip_process_data E s w next = Ret (res, s1, w1) -> 0 <= res ->
  (i_state s = SDiffData /\ next = SExtraSize \/ i_state s = SExtraData /\ next = SAdjustment) -> tinv f s1 /\ (res = 1 -> i_left s1 = []).
Proof.
  intros f s w next res s1 w1 Hf Hi A Hr Hs. pose proof (pow2_32_le word_bits Hword).
  unfold ip_process_data in A. cbv zeta in A.
  destruct Hs as [[Es ->]|[Es ->]]; start Hi Es.
  - destruct J4 as (d & x & adj & rs & more & J4 & J5 & J6 & J7 & J8).
    assert (Hd := zlen_nonneg d). assert (Hx := zlen_nonneg x).
    assert (Hge : 0 <= zlen d + zlen x) by lia. destruct (over_ge _ _ _ _ J8 Hge) as (O1 & O2 & O3 & O4 & O5).
    rewrite J5 in A. destruct (Z.eqb_spec (Z.min 128 (zlen d)) 0) as [Ez|Nz].
    { inv A. assert (Hnil : d = []) by (apply zlen_0_nil; lia). subst d. cbn [app] in J2. split; [|lia].
      unfold tinv. cbn. split; [auto|]. split; [auto|]. exists r, (enc_size (zlen x) ++ x ++ enc_size adj ++ follow rs more). split; [auto|]. split; [auto|]. split; [auto|].
      unfold ifield. cbn. exists x, adj, rs, more. split; [unfold szrest; rewrite J4; apply dec_size_enc; lia|]. split; fin. }
    rewrite J1 in A. apply obind_ret in A. destruct A as ([[[r1 o] r2] l1] & A & C).
    assert (Hmin : 1 <= Z.min 128 (zlen d)) by lia.
    destruct (gives_dec _ _ _ _ _ _ _ _ _ Hf J2 Hmin A) as [G1 G2].
    assert (Ho : r1 = 0 -> zlen o <= zlen d).
    { intros ->. pose proof (gives_len _ _ _ _ _ _ _ _ J2 Hmin A). lia. }
    destruct (Z.eqb_spec r1 0) as [->|Hne]; cbn [negb] in C.
    2:{ inv C. assert (A' := A). apply SeqInv.decompress_code in A. assert (res = 1) by (destruct A as [|[|]]; lia). subst res.
        split; [|intros _; eapply decompress_left; exact A'].
        eapply wait_tinv; [congruence|congruence|auto|auto|auto|apply G2; reflexivity|]. unfold ifield. cbn. rewrite Es. exists d, x, adj, rs, more. split; [auto|]. split; [auto|]. split; [auto|]. split; fin. }
    destruct (G1 eq_refl) as (G3 & rest1 & Er & G4). specialize (Ho eq_refl). pose proof (zlen_nonneg o) as Hzo.
    destruct (split_at _ _ _ _ _ Ho J6 Er) as (d1 & -> & Hrest1). rewrite zlen_app in *. pose proof (zlen_nonneg d1).
    apply obind_ret in C. destruct C as ([[[io data] s2] w2] & C & F).
    destruct (ip_mem_read E _ w _ (zlen o)) as [[rr fr] w3].
    destruct (negb _); [inv C; cbv iota in F; inv F; unfold E_IO_FAILED in Hr; lia|].
    apply obind_ret in C. destruct C as (fo & _ & C). apply obind_ret in C. destruct C as (dd & _ & C). inv C. cbv iota in F.
    destruct (ip_mem_write E _ w2 _ data) as [rw w4].
    destruct (negb _); inv F; [unfold E_IO_FAILED in Hr; lia|]. split; [|lia].
    unfold tinv. cbn. rewrite Es. split; [auto|]. split; [auto|]. eexists r2, _. split; [reflexivity|]. split; [exact G4|]. split; [auto|].
    unfold ifield. cbn. rewrite Es. exists d1, x, adj, rs, more. rewrite wrap_small by lia. split; [auto|]. split; [lia|]. split; [auto|]. split; [auto|].
    destruct J8 as (A1 & A2 & A3 & A4 & A5 & A6 & A7 & A8 & A9 & A10 & A11). unfold over. cbn. rewrite !wrap_small by lia. splits; auto; try lia.
  - destruct J4 as (x & adj & rs & more & J4 & J5 & J6 & J7 & J8).
    assert (Hx := zlen_nonneg x). destruct (over_ge _ _ _ _ J8 Hx) as (O1 & O2 & O3 & O4 & O5).
    rewrite J5 in A. destruct (Z.eqb_spec (Z.min 128 (zlen x)) 0) as [Ez|Nz].
    { inv A. assert (Hnil : x = []) by (apply zlen_0_nil; lia). subst x. cbn [app] in J2. split; [|lia].
      unfold tinv. cbn. split; [auto|]. split; [auto|]. exists r, (enc_size adj ++ follow rs more). split; [auto|]. split; [auto|]. split; [auto|].
      unfold ifield. cbn. exists adj, rs, more. unfold size_limit in J7. split; [unfold szrest; rewrite J4; apply dec_size_enc; lia|]. auto. }
    rewrite J1 in A. apply obind_ret in A. destruct A as ([[[r1 o] r2] l1] & A & C).
    assert (Hmin : 1 <= Z.min 128 (zlen x)) by lia.
    destruct (gives_dec _ _ _ _ _ _ _ _ _ Hf J2 Hmin A) as [G1 G2].
    assert (Ho : r1 = 0 -> zlen o <= zlen x).
    { intros ->. pose proof (gives_len _ _ _ _ _ _ _ _ J2 Hmin A). lia. }
    destruct (Z.eqb_spec r1 0) as [->|Hne]; cbn [negb] in C.
    2:{ inv C. assert (A' := A). apply SeqInv.decompress_code in A. assert (res = 1) by (destruct A as [|[|]]; lia). subst res.
        split; [|intros _; eapply decompress_left; exact A'].
        eapply wait_tinv; [congruence|congruence|auto|auto|auto|apply G2; reflexivity|]. unfold ifield. cbn. rewrite Es. exists x, adj, rs, more. split; [auto|]. split; [auto|]. split; [auto|]. split; fin. }
    destruct (G1 eq_refl) as (G3 & rest1 & Er & G4). specialize (Ho eq_refl). pose proof (zlen_nonneg o) as Hzo.
    destruct (split_at _ _ _ _ _ Ho J6 Er) as (d1 & -> & Hrest1). rewrite zlen_app in *. pose proof (zlen_nonneg d1).
    cbn [obind] in C. destruct (ip_mem_write E _ w _ o) as [rw w4].
    destruct (negb _); inv C; [unfold E_IO_FAILED in Hr; lia|]. split; [|lia].
    unfold tinv. cbn. rewrite Es. split; [auto|]. split; [auto|]. eexists r2, _. split; [reflexivity|]. split; [exact G4|]. split; [auto|].
    unfold ifield. cbn. rewrite Es. exists d1, adj, rs, more. rewrite wrap_small by lia. split; [auto|]. split; [lia|]. split; [auto|]. split; [auto|].
    destruct J8 as (A1 & A2 & A3 & A4 & A5 & A6 & A7 & A8 & A9 & A10 & A11). unfold over. cbn. rewrite !wrap_small by lia. splits; auto; try lia.
Qed.

Lemma dfpatch_tinv : forall f s w res s1 w1, bytes_ok f -> i_state s = SDfpatchSize -> tinv f s -> ip_process_dfpatch_size E s w = Ret (res, s1, w1) ->
  0 <= res -> tinv f s1 /\ (res = 1 -> i_left s1 = []).
Proof.
  intros f s w res s1 w1 Hf Es Hi A Hr. pose proof (pow2_32_le word_bits Hword). start Hi Es. destruct J4 as (recs & more & J4 & K1 & K2 & K3 & K4 & K5).
  destruct Hsizes as (S1 & S2 & S3 & S4 & S5).
  unfold ip_process_dfpatch_size in A. rewrite J1 in A.
  apply obind_ret in A. destruct A as ([[[[r1 v] z1] r2] l1] & A & C). cbv zeta in C.
  destruct (Z.eqb_spec r1 0) as [->|Hne]; cbn [negb] in C.
  - destruct (unpack_bound [] _ _ _ _ _ _ _ _ _ _ Hf J2 J3 A (Z.le_refl 0)) as [(_ & U1 & U2 & U3 & rest1 & U4 & U5)|(X & _)]; [|lia].
    rewrite U4 in J4. inv J4. change (0 <? 0) with false in C. cbv iota in C.
    cbn [i_seg i_segment_size i_shift_size i_to_size i_step iset_reader iset_seg iset_st] in C. rewrite I1, I2 in C.
    assert (Hixb : g_index (i_seg s) <= i_to_pos s) by (rewrite K2; pose proof (Z.mul_le_mono_nonneg_l 1 (segment) (g_index (i_seg s))); lia).
    rewrite <- K2 in C. rewrite (wrap_small (i_to_pos s)) in C by lia. rewrite (wrap_small (g_index (i_seg s) + 1)) in C by lia. rewrite (wrap_small (to_size - i_to_pos s)) in C by lia.
    destruct (ip_mem_erase E _ w _ _) as [re we] eqn:Ee. apply (erase_good E (fun _ => True) P HG) in Ee. destruct Ee as [Ee _]. apply (cb_neg E (fun _ => True) P HG) in Ee.
    inv C. split; [|lia]. destruct K4 as (Q1 & Q2 & Q3). inv K5. destruct recs as [|x rs]; [apply last_cons in Q2; congruence|].
    eapply rec_next; cbn; eauto. unfold over. cbn. change (fold_right (fun r n => rec_size r + n) 0) with recs_size in *. splits; auto; try lia.
    rewrite Z.sub_add_distr. rewrite <- Q1. exact Q3.
  - inv C. destruct (unpack_bound [] _ _ _ _ _ _ _ _ _ _ Hf J2 J3 A Hr) as [(X & _)|(_ & U1 & rest1 & U2 & U3)]; [lia|].
    split; [|intros ->; eapply unpack_left; exact A].
    apply wait_tinv with rest1; auto; try congruence. unfold ifield. cbn. rewrite Es. exists recs, more. rewrite U2. split; [auto|]. split; [auto|]. split; [auto|]. split; [auto|]. split; [exact K4|exact K5].
Qed.

Lemma adjust_tinv : forall f s w res s1 w1, bytes_ok f -> i_state s = SAdjustment -> tinv f s -> ip_process_adjustment E s w = Ret (res, s1, w1) ->
  0 <= res -> tinv f s1 /\ (res = 1 -> i_left s1 = []).
Proof.
  intros f s w res s1 w1 Hf Es Hi A Hr. pose proof (pow2_32_le word_bits Hword). start Hi Es. destruct J4 as (adj & rs & more & J4 & J5).
  destruct Hsizes as (S1 & S2 & S3 & S4 & S5).
  unfold ip_process_adjustment in A. rewrite J1 in A.
  apply obind_ret in A. destruct A as ([[[[r1 v] z1] r2] l1] & A & C). cbv zeta in C.
  destruct (Z.eqb_spec r1 0) as [->|Hne]; cbn [negb] in C.
  - destruct (unpack_bound [] _ _ _ _ _ _ _ _ _ _ Hf J2 J3 A (Z.le_refl 0)) as [(_ & U1 & U2 & U3 & rest1 & U4 & U5)|(X & _)]; [|lia].
    assert (U4' := U4). rewrite U4 in J4. inv J4. cbn [i_to_pos i_to_size i_seg i_step iset_reader] in C. rewrite I2 in C. assert (O := J5).
    destruct J5 as (A1 & A2 & A3 & A4 & A5 & A6 & A7 & A8 & A9 & A10 & A11). pose proof (recs_size_nonneg rs) as Hrs.
    destruct (Z.eqb_spec (i_to_pos s) (to_size)) as [Ed|Ed].
    + destruct (all_steps_completed E w) as [re we] eqn:Ee. apply (steps_good E (fun _ => True) P HG) in Ee. destruct Ee as [Ee _]. apply (cb_neg E (fun _ => True) P HG) in Ee.
      inv C. split; [|lia]. unfold tinv. cbn. destruct A8 as [->|A8]; [|apply last_pos in A8; lia].
      replace (to_size - (g_to_offset (i_seg s) + g_to_size (i_seg s))) with 0 in A10 by lia. apply segments_zero in A10. subst more.
      pose proof (unpack_end _ _ _ _ _ _ _ _ _ Hf J2 J3 A U4') as X. apply app_eq_nil in X. tauto.
    + destruct (Z.eqb_spec (g_to_pos (i_seg s)) (g_to_size (i_seg s))) as [Eg|Eg].
      * apply obind_ret in C. destruct C as ([[re st] we] & Ee & C). apply (next_good E (fun _ => True) P HG) in Ee. destruct Ee as [Ee _]. apply (cb_neg E (fun _ => True) P HG) in Ee.
        inv C. split; [|lia]. destruct A8 as [->|A8]; [|apply last_pos in A8; lia]. destruct more as [|recs more]; [cbn in A10; lia|].
        unfold tinv. cbn. split; [auto|]. split; [auto|]. eexists r2, _. split; [reflexivity|]. split; [exact U5|]. split; [exact U3|].
        unfold ifield. cbn. exists recs, more. unfold szrest. rewrite U2. split.
        { unfold follow, enc_segments, enc_body. cbn [enc_recs flat_map app]. rewrite <- app_assoc. apply dec_size_enc. lia. }
        assert (Hm : (g_index (i_seg s) - 1) * segment = g_index (i_seg s) * segment - segment) by ring.
        split; [lia|]. split; [lia|]. split; [lia|]. split; [|auto].
        replace (to_size - i_to_pos s) with (to_size - (g_to_offset (i_seg s) + g_to_size (i_seg s))) by lia. exact A10.
      * apply obind_ret in C. destruct C as (fo & _ & C). inv C. split; [|lia]. destruct rs as [|x rs]; [cbn in A7; lia|].
        eapply rec_next; cbn; eauto.
  - inv C. destruct (unpack_bound [] _ _ _ _ _ _ _ _ _ _ Hf J2 J3 A Hr) as [(X & _)|(_ & U1 & rest1 & U2 & U3)]; [lia|].
    split; [|intros ->; eapply unpack_left; exact A].
    apply wait_tinv with rest1; auto; try congruence. unfold ifield. cbn. rewrite Es. exists adj, rs, more. rewrite U2. split; [auto|]. fin.
Qed.

Lemma once_tinv : forall f s w res s1 w1, bytes_ok f -> tinv f s -> ip_process_once E s w = Ret (res, s1, w1) ->
  tinv f s1 /\ (res = 1 -> i_left s1 = []).
Proof.
  intros f s w res s1 w1 Hf Hi U. unfold ip_process_once in U. apply obind_ret in U. destruct U as ([[r0 s0] w0] & A & U).
  assert (K : (0 <= r0 -> tinv f s0 /\ (r0 = 1 -> i_left s0 = [])) -> i_state s <> SDone -> tinv f s1 /\ (res = 1 -> i_left s1 = [])).
  { intros K2 Hnd. assert (Hx : Ret (r0, if r0 <? 0 then iset_st s0 SFailed else s0, w0) = Ret (res, s1, w1)) by (destruct (i_state s); try exact U; congruence).
    inv Hx. destruct (Z.ltb_spec res 0); [split; [exact I|lia]|apply K2; lia]. }
  destruct (i_state s) eqn:Es.
  8:{ inv A. inv U. split; [exact Hi|codes; lia]. }
  all: apply K; [|discriminate]; clear K U; intros Hr.
  - eapply init_tinv; eauto.
  - eapply dfpatch_tinv; eauto.
  - apply obind_ret in A. destruct A as ([r2 s2] & A & A2). inv A2. eapply size_tinv; eauto.
  - eapply data_tinv; eauto.
  - apply obind_ret in A. destruct A as ([r2 s2] & A & A2). inv A2. eapply size_tinv; eauto.
  - eapply data_tinv; eauto.
  - eapply adjust_tinv; eauto.
  - inv A. codes. lia.
Qed.

Lemma tinv_stop : forall f s, (i_state s = SDone \/ i_state s = SFailed \/ i_left s = []) -> tinv f s -> tinv f (iset_chunk s []).
Proof.
  intros f s [Y|[Y|Y]] H; unfold tinv, head_ok, pend, ifield in *; cbn in *; rewrite Y in *; exact H.
Qed.

Lemma tinv_chunk : forall f s p, bytes_ok p -> tinv (p ++ f) (iset_chunk s []) -> tinv f (iset_chunk s p).
Proof.
  intros f s p Hp H. unfold tinv, head_ok, pend, ifield in *. cbn in *. destruct (i_state s); auto;
    try (destruct H as (A & D); split; [exact Hp|exact D]; fail); try (apply app_eq_nil in H; tauto);
    (destruct H as (H1 & H2 & r & rest & G1 & (G2 & G3 & G4) & G5 & G6); split; [auto|]; split; [auto|];
     exists r, rest; split; [auto|]; split; [split; [auto|split; auto]|auto]).
Qed.

Lemma iloop_tinv : forall fuel f res s w res1 s1 w1, bytes_ok f -> tinv f s ->
  (res < 0 -> i_state s = SDone \/ i_state s = SFailed) ->
  ip_process_loop E fuel res s w = Ret (res1, s1, w1) -> tinv f (iset_chunk s1 []).
Proof.
  induction fuel; intros f res s w res1 s1 w1 Hf Hi Hr X; cbn [ip_process_loop] in X.
  - destruct (i_left s) eqn:El; [inv X; apply tinv_stop; auto|].
    destruct (Z.ltb_spec res 0); [|discriminate]. inv X. apply tinv_stop; [|auto]. destruct (Hr H); auto.
  - destruct (i_left s) eqn:El; [inv X; apply tinv_stop; auto|].
    destruct (Z.ltb_spec res 0); [inv X; apply tinv_stop; [|auto]; destruct (Hr H); auto|].
    apply obind_ret in X. destruct X as ([[r2 s2] w2] & A & X).
    eapply IHfuel; [exact Hf|eapply once_tinv; eauto| |exact X].
    intros Y. apply (ionce_istep E (fun _ => True) P HG) in A. destruct A as [(A1 & A2 & A3 & A4)|[(A1 & A2 & A3 & A4)|(A1 & A2 & A3 & A4 & _)]]; subst; auto.
Qed.

Lemma ifinloop_tinv : forall fuel f s w res1 s1 w1, bytes_ok f -> tinv f s ->
  ip_finalize_loop E fuel s w = Ret (res1, s1, w1) -> tinv f (iset_chunk s1 []) /\ (res1 = - E_ALREADY_DONE -> f = []) /\ (res1 < 0 \/ res1 = 1).
Proof.
  induction fuel; intros f s w res1 s1 w1 Hf Hi X; cbn [ip_finalize_loop] in X; [discriminate|].
  apply obind_ret in X. destruct X as ([[r2 s2] w2] & A & X).
  destruct (once_tinv _ _ _ _ _ _ Hf Hi A) as [Hi2 Hl].
  destruct (Z.eqb_spec r2 0); [eapply IHfuel; eauto|]. inv X.
  apply (ionce_istep E (fun _ => True) P HG) in A. destruct A as [(A1 & A2 & A3 & A4)|[(A1 & A2 & A3 & A4)|(A1 & A2 & A3 & A4 & _)]].
  - subst. split; [apply tinv_stop; auto|]. split; [|codes; lia]. intros _. unfold tinv in Hi. rewrite A1 in Hi. exact Hi.
  - subst. split; [apply tinv_stop; auto|]. split; codes; lia.
  - assert (Hc : res1 <= 1 /\ res1 <> - E_ALREADY_DONE).
    { destruct A3 as [A3|A3]; [unfold code_ok in A3; codes; lia|]. apply (cb_neg E (fun _ => True) P HG) in A3. lia. }
    split; [|split; [tauto|lia]]. apply tinv_stop; [|exact Hi2].
    destruct (Z.eqb_spec res1 1) as [->|Hne]; [auto|]. right; left. apply A4. lia.
Qed.

Lemma ifinalize_tinv : forall fuel f s w v s1 w1, bytes_ok f -> f <> [] -> tinv f (iset_chunk s []) ->
  ip_finalize E fuel s w = Ret (v, s1, w1) -> v < 0 /\ tinv f (iset_chunk s1 []).
Proof.
  intros fuel f s w v s1 w1 Hf Hne Hi X. unfold ip_finalize in X.
  apply obind_ret in X. destruct X as ([[r2 s2] w2] & A & X). apply obind_ret in X. destruct X as (v' & B & X). inv X.
  destruct (ifinloop_tinv _ _ _ _ _ _ _ Hf Hi A) as (A1 & A2 & A3). split; [|auto].
  destruct A3 as [A3|A3]; [eapply icommon_told; [exact B|exact A3|auto]|].
  subst r2. change (common_finalize 1 (i_reader s1) (i_to_size s1)) with (common_finalize (- E_NOT_ENOUGH_PATCH_DATA) (i_reader s1) (i_to_size s1)) in B.
  eapply icommon_told; [exact B|codes; lia|codes; lia].
Qed.

Lemma ifeed_tinv : forall chunks f fuel s w v s1 w1, bytes_ok (concat chunks ++ f) -> f <> [] -> tinv (concat chunks ++ f) (iset_chunk s []) ->
  ip_feed E fuel s w chunks = Ret (v, s1, w1) -> v < 0.
Proof.
  induction chunks as [|p chunks IH]; intros f fuel s w v s1 w1 Hb Hne Hi X; cbn [ip_feed concat app] in *.
  - eapply ifinalize_tinv; eauto.
  - rewrite <- app_assoc in Hb, Hi. apply Forall_app in Hb. destruct Hb as [Hp Hb].
    apply obind_ret in X. destruct X as ([[r2 s2] w2] & A & X). assert (A' := A).
    unfold ip_process in A'. apply obind_ret in A'. destruct A' as ([[r3 s3] w3] & A2 & A3).
    assert (s3 = s2 /\ w3 = w2) as [-> ->] by (split; congruence). clear A3.
    assert (Hi2 : tinv (concat chunks ++ f) (iset_chunk s2 [])).
    { eapply iloop_tinv; [exact Hb| | |exact A2]; [|lia]. apply tinv_chunk in Hi; [exact Hi|auto]. }
    destruct (Z.eqb_spec r2 0) as [Hz|Hz].
    + eapply (IH f); [exact Hb|exact Hne|exact Hi2|exact X].
    + apply obind_ret in X. destruct X as ([[r4 s4] w4] & _ & X). inv X.
      apply (iprocess_result E (fun _ => True) P HG) in A; [lia|exact I].
Qed.

Lemma icalls_tinv : forall calls f fuel s w rs s1 w1, bytes_ok (concat (pieces_of calls) ++ f) -> f <> [] ->
  tinv (concat (pieces_of calls) ++ f) (iset_chunk s []) ->
  ip_run_calls E fuel s w calls = Ret (rs, s1, w1) -> Forall2 (fun cl r => match cl with CallProcess _ => r <= 0 | CallFinalize => r < 0 end) calls rs.
Proof.
  induction calls as [|cl cs IH]; intros f fuel s w rs s1 w1 Hb Hne Hi X; cbn [ip_run_calls] in X; [inv X; constructor|].
  unfold pieces_of in Hb, Hi. cbn [map concat] in Hb, Hi. rewrite <- app_assoc in Hb, Hi. apply Forall_app in Hb. destruct Hb as [Hp Hb].
  apply obind_ret in X. destruct X as ([[r2 s2] w2] & A & X).
  apply obind_ret in X. destruct X as ([[r3 s3] w3] & B & X). inv X.
  destruct cl as [p|].
  - assert (A' := A). unfold ip_process in A'. apply obind_ret in A'. destruct A' as ([[r4 s4] w4] & A2 & A3).
    assert (s4 = s2 /\ w4 = w2) as [-> ->] by (split; congruence). clear A3.
    constructor.
    + apply (iprocess_result E (fun _ => True) P HG) in A; [lia|exact I].
    + eapply (IH f); [exact Hb|exact Hne| |exact B]. eapply iloop_tinv; [exact Hb| | |exact A2]; [|lia]. apply tinv_chunk in Hi; [exact Hi|auto].
  - cbn [app] in Hi. assert (Hne2 : concat (pieces_of cs) ++ f <> []) by (intros X; apply app_eq_nil in X; tauto).
    destruct (ifinalize_tinv _ _ _ _ _ _ _ Hb Hne2 Hi A) as [F1 F2]. constructor; [auto|]. eapply (IH f); [exact Hb|exact Hne|exact F2|exact B].
Qed.

Lemma icallbacks_tinv : forall fuel pre f po s w v s1 w1, bytes_ok pre -> bytes_ok f -> f <> [] -> 0 <= po -> tinv (zdrop po pre ++ f) (iset_chunk s []) ->
  ip_callbacks_loop (ip_env_with E Z) fuel (patch_file pre) (zlen pre) po s (w, po) = Ret (v, s1, w1) -> v < 0.
Proof.
  assert (Fin : forall fuel pre f po s w v s1 w1, bytes_ok pre -> bytes_ok f -> f <> [] -> tinv (zdrop po pre ++ f) (iset_chunk s []) ->
    ip_finalize (ip_env_with E Z) fuel s (w, po) = Ret (v, s1, w1) -> v < 0).
  { intros fuel pre f po s w v s1 w1 Hp Hf Hne Hi X. rewrite ifinalize_hom in X. destruct (ip_finalize E fuel s w) as [[[r2 s2] w2]| |] eqn:A; cbn [iout3] in X; inv X.
    eapply ifinalize_tinv in A; [apply A| | |exact Hi].
    - apply Forall_app. split; [apply bytes_ok_zdrop|]; auto.
    - intros Y. apply app_eq_nil in Y. tauto. }
  induction fuel; intros pre f po s w v s1 w1 Hp Hf Hne Hpo Hi X; cbn [ip_callbacks_loop] in X.
  - destruct (negb _); [|discriminate]. eapply (Fin _ pre f po); [exact Hp|exact Hf|exact Hne|exact Hi|exact X].
  - destruct (Z.ltb_spec po (zlen pre)); cbn [negb] in X; [|eapply (Fin _ pre f po); [exact Hp|exact Hf|exact Hne|exact Hi|exact X]].
    cbv zeta in X. remember (Z.min (zlen pre - po) 512) as m eqn:Hm. unfold patch_file at 1 in X.
    destruct (Z.leb_spec (po + m) (zlen pre)); [|lia]. change (negb (0 =? 0)) with false in X. cbv iota in X.
    replace (zlen (ztake m (zdrop po pre))) with m in X by (rewrite zlen_ztake, zlen_zdrop by lia; lia). rewrite Z.eqb_refl in X. cbn [negb] in X.
    rewrite iprocess_hom in X. apply obind_ret in X. destruct X as ([[r2 s2] w2] & A & X). destruct (ip_process E _ s w _) as [[[r3 s3] w3]| |] eqn:A0; cbn [iout3] in A; [|discriminate|discriminate]. injection A as -> -> <-. rename A0 into A.
    assert (Hz : forall n, bytes_ok (zdrop n pre)) by (intros; apply bytes_ok_zdrop; exact Hp).
    destruct (Z.eqb_spec r2 0) as [->|Hr].
    + eapply IHfuel; [exact Hp|exact Hf|exact Hne| | |exact X]; [lia|].
      unfold ip_process in A. apply obind_ret in A. destruct A as ([[r4 s4] w4] & A2 & A3).
      assert (s4 = s2 /\ w4 = w3) as [-> ->] by (split; congruence). clear A3.
      eapply iloop_tinv; [apply Forall_app; split; [apply Hz|exact Hf]| | |exact A2]; [|lia].
      apply tinv_chunk; [apply bytes_ok_ztake; apply Hz|]. rewrite app_assoc.
      replace (zdrop (po + m) pre) with (zdrop m (zdrop po pre)) by (rewrite zdrop_zdrop by lia; f_equal; lia). rewrite ztake_zdrop. exact Hi.
    + apply obind_ret in X. destruct X as ([[r4 s4] w4] & _ & X). inv X.
      apply (iprocess_result E (fun _ => True) P HG) in A; [lia|exact I].
Qed.

Lemma init_is_tinv : forall junk ps, tinv iwhole (iset_chunk (ip_init junk ps) []).
Proof. intros junk ps. unfold tinv, head_ok. cbn. splits; auto. constructor. Qed.

End Trunc.

Lemma limits_adj : forall segment shift segs i, segments_in_limits segment shift i segs -> Forall (Forall adj_ok) segs.
Proof. induction segs as [|rs segs IH]; intros i H; [constructor|]. destruct H as (A & _ & B). constructor; [exact A|eauto]. Qed.

Section Results.
Context {WBits : WordBits}.
Hypothesis Hword : 32 <= word_bits.
Context {W : Type} (E : ip_env W).
Hypothesis Hcodes : mem_codes (fun r => r <= 0 /\ r <> -11) E.

Lemma trunc_good : callbacks_good E (fun _ => True) (fun r => r <= 0 /\ r <> -11).
Proof. apply plain_hyps; auto. Qed.

Theorem ip_truncated_feed : forall junk c memory segment shift from_size to_size segs patch pre rest ps chunks,
  in_place_patch c memory segment shift from_size to_size segs patch -> sizes_ok memory segment shift from_size to_size ->
  segments_in_limits segment shift 0 segs -> bytes_ok patch ->
  patch = pre ++ rest -> rest <> [] -> concat chunks = pre ->
  forall fuel w v s w1, ip_feed E fuel (ip_init junk ps) w chunks = Ret (v, s, w1) -> v < 0.
Proof.
  intros junk c memory segment shift from_size to_size segs patch pre rest ps chunks (Hok & stream & Ep & Hbody) Hs Hl Hb E2 Hne Ec fuel w v s w1 X.
  destruct Hs as (S1 & S2 & S3 & S4 & S5 & S6 & S7). unfold size_limit in *. pose proof (Z.divide_pos_le).
  assert (Hsz : 0 < segment < 2 ^ 27 /\ 0 <= memory < 2 ^ 27 /\ 0 <= shift < 2 ^ 27 /\ 0 <= from_size < 2 ^ 27 /\ 0 <= to_size < 2 ^ 27) by lia.
  change (patch = iwhole c memory segment shift from_size to_size stream) in Ep. rewrite Ep in *. subst pre.
  eapply (ifeed_tinv Hword E _ trunc_good c memory segment shift from_size to_size segs stream Hb Hsz Hok (limits_adj _ _ _ _ Hl) Hbody chunks rest); [| | |exact X]; auto; rewrite <- E2; [exact Hb|apply init_is_tinv].
Qed.

Theorem ip_truncated_calls : forall junk c memory segment shift from_size to_size segs patch pre rest ps calls,
  in_place_patch c memory segment shift from_size to_size segs patch -> sizes_ok memory segment shift from_size to_size ->
  segments_in_limits segment shift 0 segs -> bytes_ok patch ->
  patch = pre ++ rest -> rest <> [] -> concat (pieces_of calls) = pre ->
  forall fuel w rs s w1, ip_run_calls E fuel (ip_init junk ps) w calls = Ret (rs, s, w1) ->
  Forall2 (fun cl r => match cl with CallProcess _ => r <= 0 | CallFinalize => r < 0 end) calls rs.
Proof.
  intros junk c memory segment shift from_size to_size segs patch pre rest ps calls (Hok & stream & Ep & Hbody) Hs Hl Hb E2 Hne Ec fuel w rs s w1 X.
  destruct Hs as (S1 & S2 & S3 & S4 & S5 & S6 & S7). unfold size_limit in *.
  assert (Hsz : 0 < segment < 2 ^ 27 /\ 0 <= memory < 2 ^ 27 /\ 0 <= shift < 2 ^ 27 /\ 0 <= from_size < 2 ^ 27 /\ 0 <= to_size < 2 ^ 27) by lia.
  change (patch = iwhole c memory segment shift from_size to_size stream) in Ep. rewrite Ep in *. subst pre.
  eapply (icalls_tinv Hword E _ trunc_good c memory segment shift from_size to_size segs stream Hb Hsz Hok (limits_adj _ _ _ _ Hl) Hbody calls rest); [| | |exact X]; auto; rewrite <- E2; [exact Hb|apply init_is_tinv].
Qed.

Theorem ip_truncated_callbacks : forall junk c memory segment shift from_size to_size segs patch pre rest,
  in_place_patch c memory segment shift from_size to_size segs patch -> sizes_ok memory segment shift from_size to_size ->
  segments_in_limits segment shift 0 segs -> bytes_ok patch ->
  patch = pre ++ rest -> rest <> [] ->
  forall fuel w v s w1, apply_patch_in_place_callbacks (ip_env_with E Z) fuel junk (patch_file pre) (zlen pre) (w, 0) = Ret (v, s, w1) -> v < 0.
Proof.
  intros junk c memory segment shift from_size to_size segs patch pre rest (Hok & stream & Ep & Hbody) Hs Hl Hb E2 Hne fuel w v s w1 X.
  destruct Hs as (S1 & S2 & S3 & S4 & S5 & S6 & S7). unfold size_limit in *.
  assert (Hsz : 0 < segment < 2 ^ 27 /\ 0 <= memory < 2 ^ 27 /\ 0 <= shift < 2 ^ 27 /\ 0 <= from_size < 2 ^ 27 /\ 0 <= to_size < 2 ^ 27) by lia.
  change (patch = iwhole c memory segment shift from_size to_size stream) in Ep. rewrite Ep in *. assert (Hb2 := Hb). rewrite E2 in Hb2. apply Forall_app in Hb2.
  eapply (icallbacks_tinv Hword E _ trunc_good c memory segment shift from_size to_size segs stream Hb Hsz Hok (limits_adj _ _ _ _ Hl) Hbody fuel pre rest 0); [| | | | |exact X]; try tauto; [lia|].
  change (zdrop 0 pre) with pre. rewrite <- E2. apply init_is_tinv.
Qed.

End Results.
