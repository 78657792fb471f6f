(** A sequential patch that the C applier accepts describes what was written (C73). *)

From Coq Require Import ZArith List Bool Lia ZifyBool ZifyNat ZifyN.
From Verif Require Import Prelude Lib Heatshrink HsProofs CReader ReaderProofs SizeProofs CSeq Spec SeqSim SeqRun SeqTerm SeqMeaning SeqApply SeqSpec SeqInv SeqCount ReaderSpec ReaderDrive SeqBound BodySpec BodyProofs.
Import ListNotations.
Open Scope Z_scope.

Section Accepted.
Context {WBits : WordBits}.
Hypothesis Hword : 32 <= word_bits.
Variable from : list Z.
Variable patch body : list Z.
Variable c : comp.
Hypothesis Hpatch : bytes_ok patch.
Hypothesis Hlong : zlen patch < 2 ^ word_bits.
Hypothesis Hcomp : announced_comp patch = comp_number c.
Hypothesis Hbody : compressed c body (body_of patch).
Hypothesis Hbytes : bytes_ok body.
Hypothesis Hsmall : zlen body < 2 ^ 31.

(** ** The reader of uncompressed patches counts *)

Definition none_ok (f : list Z) (r : reader) (left : list Z) : Prop :=
  match r with
  | RNone ps po => 0 <= po /\ po + zlen left + zlen f <= ps /\ ps < 2 ^ word_bits
  | _ => c <> CompNone
  end.

Lemma none_dec : forall f r left n res out r1 l1, none_ok f r left -> 0 <= n ->
  decompress r left n = Ret (res, out, r1, l1) -> none_ok f r1 l1.
Proof using .
  clear. intros f r left n res out r1 l1 H Hn E. destruct r as [ps po|s|h]; cbn [decompress] in E.
  - unfold none_decompress in E. pose proof (zlen_nonneg f). pose proof (zlen_nonneg left).
    destruct (_ <? _); [inv E; exact H|]. destruct left as [|x left]; [inv E; exact H|]. cbv zeta in E.
    inv E. cbn [none_ok] in *. set (l := x :: left) in *. rewrite zlen_zdrop by lia.
    rewrite wrap_small by lia. lia.
  - apply obind_ret in E. destruct E as ([[[a b] d] e] & _ & E). inv E. exact H.
  - apply obind_ret in E. destruct E as ([[[a b] d] e] & _ & E). inv E. exact H.
Qed.

Lemma none_unpack : forall K f z r left byte n res v z1 r1 l1, none_ok f r left -> 0 <= n ->
  unpack_size_loop K z r left byte n = Ret (res, v, z1, r1, l1) -> none_ok f r1 l1.
Proof using .
  clear. induction K; intros f z r left byte n res v z1 r1 l1 H Hn E; cbn [unpack_size_loop] in E; [discriminate|].
  apply obind_ret in E. destruct E as ([[[r0 o0] r2] l2] & A & E).
  pose proof (none_dec f _ _ _ _ _ _ _ H Hn A) as H2.
  destruct (negb _); [inv E; auto|]. 
  destruct (match o0 with [] => byte | x :: _ => Some x end); [|discriminate].
  apply obind_ret in E. destruct E as ([z2|] & B & E); [|inv E; auto].
  destruct (Z.land z0 128 =? 0); [inv E; auto|].
  eapply IHK; [exact H2|exact (zlen_nonneg o0)|exact E].
Qed.

Lemma szrest_len : forall z rest v rest1, szrest z rest = Some (v, rest1) -> (length rest1 <= length rest)%nat.
Proof using .
  clear. intros z rest v rest1 H. unfold szrest in H. destruct (z_cons z).
  - destruct (dec_usize rest) as [[y l]|] eqn:D; [|discriminate]. inv H. apply dec_usize_len in D. lia.
  - apply dec_size_len in H. lia.
Qed.

(** One size field, or a part of one. *)
Lemma unpack_any : forall f z r left rest res v z1 r1 l1, bytes_ok f -> gives f r left rest -> none_ok f r left -> zok z ->
  zlen rest < 2 ^ 31 -> unpack_size z r left = Ret (res, v, z1, r1, l1) -> 0 <= res ->
  exists rest1, gives f r1 l1 rest1 /\ none_ok f r1 l1 /\ zok z1 /\ zlen rest1 < 2 ^ 31 /\
    (res = 0 /\ - 2 ^ 27 < v < 2 ^ 27 /\ z_cons z1 = false /\ szrest z rest = Some (v, rest1) \/
     res = 1 /\ szrest z1 rest1 = szrest z rest).
Proof using .
  clear. intros f z r left rest res v z1 r1 l1 Hf Hg Hn Hz Hl U Hr. pose proof (unpack_code 6 z r left None 1) as C. unfold unpack_size in U.
  specialize (C _ _ _ _ _ U). destruct (gives_unpack _ _ _ _ _ _ _ _ _ _ _ _ Hf Hg Hz U) as [A B].
  assert (H01 : 0 <= 1) by lia. pose proof (none_unpack _ _ _ _ _ _ _ _ _ _ _ _ Hn H01 U) as Hn1.
  destruct C as [->|[->|C]]; [| |lia].
  - destruct (A eq_refl) as (A1 & A2 & rest1 & A3 & A4). exists rest1. splits; auto.
    + intros X. congruence.
    + apply szrest_len in A3. unfold zlen in *. lia.
  - destruct (B eq_refl) as (B1 & rest1 & B2 & B3 & B4). exists rest1. splits; auto. unfold zlen in *. lia.
Qed.

(** ** The invariant *)

Definition rem (s : ap) (pos : Z) (rest : list Z) : option (list Z * list Z) :=
  let left := a_to_size s - a_to_offset s in
  match a_state s with
  | SDfpatchSize =>
      match szrest (a_rsize s) rest with
      | None => None
      | Some (d, l) => if 0 <? d then None else bm from pos left l
      end
  | SDiffSize => at_dsize from pos left (szrest (a_rsize s) rest)
  | SDiffData => diff_data from pos left (a_chunk_size s) rest
  | SExtraSize => at_esize from pos left (szrest (a_rsize s) rest)
  | SExtraData => extra_data from pos left (a_chunk_size s) rest
  | SAdjustment => at_adj from pos left (szrest (a_rsize s) rest)
  | _ => None
  end.

Definition is_data (st : pstate) : bool := match st with SDiffData | SExtraData => true | _ => false end.

Definition on_way (s : ap) (w : files) (rest : list Z) : Prop :=
  0 <= a_to_offset s <= a_to_size s /\ 0 <= f_pos w /\
  described from (a_to_size s) body = prefix (f_to w) (rem s (f_pos w) rest) /\
  match a_state s with
  | SDfpatchSize | SDiffSize => a_to_offset s < a_to_size s
  | SDiffData | SExtraData => z_cons (a_rsize s) = false /\ 0 <= a_chunk_size s /\ a_to_offset s + a_chunk_size s <= a_to_size s
  | _ => True
  end.

Definition doomed (s : ap) (rest : list Z) : Prop :=
  is_data (a_state s) = true /\ zlen rest < a_chunk_size s < 2 ^ word_bits.

Definition minv (f : list Z) (s : ap) (w : files) : Prop :=
  f_from w = from /\
  match a_state s with
  | SInit => f_pos w = 0 /\ f_to w = [] /\ a_to_offset s = 0 /\ a_patch_size s = zlen patch /\ bytes_ok (a_left s) /\
      zlen (a_left s) <= a_csize s /\ a_csize s + zlen f <= zlen patch /\
      if a_to_init s then
        zok (a_size s) /\ a_compression s = comp_number c /\
        forall v z1 l1, unpack_header_size (a_left s ++ f) (a_size s) = Ret (0, v, z1, l1) ->
          announced_size patch = Some v /\ l1 = body_of patch
      else a_left s ++ f = patch
  | SFailed => True
  | SDone => announced_size patch = Some (a_to_size s) /\ 0 <= a_to_size s < 2 ^ 27 /\
      exists rest, described from (a_to_size s) body = Some (f_to w, rest) /\
        match a_reader s with Some (RNone ps po) => po + zlen rest <= ps | _ => c <> CompNone end
  | _ => announced_size patch = Some (a_to_size s) /\ 0 <= a_to_size s < 2 ^ 27 /\
      exists r rest, a_reader s = Some r /\ gives f r (a_left s) rest /\ none_ok f r (a_left s) /\
        zok (a_rsize s) /\ zlen rest < 2 ^ 31 /\ (doomed s rest \/ on_way s w rest)
  end.

(** ** One step *)

Lemma init_gives_any : forall f l1 r ps, bytes_ok f -> l1 ++ f = body_of patch -> bytes_ok l1 -> reader_init ps (comp_number c) = Some r ->
  gives f r l1 body.
Proof.
  intros f l1 r ps Hf El Hl Hr. split; [auto|]. split; [auto|].
  assert (Hs : bytes_ok (body_of patch)) by (rewrite <- El; apply Forall_app; auto).
  destruct (reader_init_comp (zlen (body_of patch)) c) as (r' & R1 & _).
  assert (Hc : c = CompNone \/ c <> CompNone) by (destruct c; auto; right; discriminate). destruct Hc as [Ec|Hc].
  - rewrite Ec in Hr, Hbody. inv Hr. inv Hbody. congruence.
  - destruct (stream_will _ _ _ _ Hc Hbody Hs R1) as (A & B & D).
    assert (r' = r) by (clear - Hc R1 Hr; destruct c; cbn in *; congruence). subst r'. rewrite El.
    destruct r; [destruct A|auto|auto].
Qed.

Lemma init_reader : forall ps r, reader_init ps (comp_number c) = Some r -> c = CompNone -> r = RNone ps 0.
Proof using . clear. intros ps r H ->. inv H. reflexivity. Qed.

Lemma init_min : forall f s w res s1, bytes_ok f -> a_state s = SInit -> minv f s w -> process_init s = Ret (res, s1) -> 0 <= res -> minv f s1 w.
Proof.
  intros f s w res s1 Hf Es [Hfr Hi] H Hr. rewrite Es in Hi. destruct Hi as (Hp & Ht & Ho & Hps & Hb & Hc1 & Hc2 & Hi). unfold process_init in H.
  pose proof (pow2_32_le word_bits Hword).
  destruct (a_to_init s) eqn:Et.
  - destruct Hi as (Hz & Hc & Hi). unfold process_init_to_size in H.
    destruct (uhs_app (a_left s) (a_size s) f Hz)
      as [(z1 & P & Q & R)|[(v & z1 & l1 & used & P & Q & R & S)|(z1 & l1 & P & R)]]; rewrite P in H; cbn [obind] in H; cbv zeta in H.
    + inv H. split; [auto|]. cbn. rewrite Es, Et. pose proof (zlen_nonneg (a_left s)). change (zlen (@nil Z)) with 0.
      splits; auto; try lia; [constructor|]. intros v z2 l2 U. apply (Hi v z2 l2). rewrite R. exact U.
    + change (negb (0 =? 0)) with false in H. cbv iota in H.
      assert (Hl1 : bytes_ok l1) by (rewrite R in Hb; apply Forall_app in Hb; tauto).
      assert (Hl2 : zlen (a_left s) = zlen used + zlen l1) by (rewrite R, zlen_app; reflexivity).
      destruct (Hi _ _ _ S) as [I1 I2].
      destruct (reader_init _ _) as [r|] eqn:Er; [|inv H; unfold E_BAD_COMPRESSION in Hr; lia].
      cbn [a_compression set_header] in Er. rewrite Hc in Er.
      pose proof (init_gives_any f l1 r _ Hf I2 Hl1 Er) as G. pose proof (init_reader _ _ Er) as Er2.
      unfold chunk_offset in Er, Er2. cbn [set_header a_csize a_left a_patch_size] in Er, Er2. rewrite Hps in Er, Er2.
      pose proof (zlen_nonneg used). pose proof (zlen_nonneg l1). pose proof (zlen_nonneg f).
      rewrite wrap_small in Er, Er2 by lia.
      destruct (Z.ltb_spec v 0); [lia|]. inv H.
      assert (N : none_ok f r l1).
      { unfold none_ok. destruct r as [ps po|x|h]; [|intros Ec; specialize (Er2 Ec); discriminate|intros Ec; specialize (Er2 Ec); discriminate]. assert (Ec : c = CompNone).
        { clear - Er. destruct c; [auto|inv Er|inv Er]. }
        specialize (Er2 Ec). inv Er2. lia. }
      split; [exact Hfr|]. cbn -[Z.pow wrap Z.ltb Z.lt Z.le described]. rewrite ?(wrap_small v) by lia. destruct (Z.ltb_spec 0 v).
      * splits; auto; try lia. exists r, body. splits; auto.
        { intros X; discriminate. }
        right. unfold on_way. cbn -[Z.pow wrap Z.ltb Z.lt Z.le described rem]. rewrite ?(wrap_small v) by lia. splits; auto; try lia.
        rewrite Ht, prefix_nil, Hp. unfold rem. cbn -[Z.pow wrap Z.ltb Z.lt Z.le described bm]. rewrite ?(wrap_small v) by lia.
        unfold szrest. cbn [z_cons]. unfold described. destruct (Z.eqb_spec v 0); [lia|]. rewrite Ho, Z.sub_0_r. reflexivity.
      * splits; auto; try lia. exists body. rewrite Ht. assert (v = 0) by lia. subst v. split; [reflexivity|].
        assert (Hcc : c = CompNone \/ c <> CompNone) by (destruct c; auto; right; discriminate).
        destruct Hcc as [Ec|Ec].
        { rewrite (Er2 Ec). destruct G as (_ & _ & G). rewrite (Er2 Ec) in G. rewrite G, zlen_app. lia. }
        { destruct r as [ps po|x|h]; auto. exfalso. apply Ec. clear - Er. destruct c; [auto|inv Er|inv Er]. }
    + inv H. unfold E_CORRUPT_PATCH_OVERFLOW in Hr. lia.
  - unfold process_init_fixed_header in H. destruct (a_left s) as [|b l] eqn:El; [inv H; unfold E_SHORT_HEADER in Hr; lia|].
    cbv zeta in H. destruct (negb _); inv H; [unfold E_BAD_PATCH_TYPE in Hr; lia|].
    inv Hb. rewrite zlen_cons in Hc1. split; [exact Hfr|]. cbn. rewrite Es. splits; auto; try lia.
    + intros X; discriminate.
    + rewrite <- Hi in Hcomp. exact Hcomp.
    + intros v z1 l1 U. rewrite <- Hi. cbn [app]. eapply announced_body; [| |exact U]; [apply Forall_app; auto|reflexivity].
Qed.

Ltac ann := split; [assumption|]; split; [lia|].

Lemma size_min : forall f s w res s1 st next, bytes_ok f -> minv f s w ->
  st = SDiffSize /\ next = SDiffData \/ st = SExtraSize /\ next = SExtraData -> a_state s = st ->
  process_size s next = Ret (res, s1) -> 0 <= res -> minv f s1 w.
Proof.
  intros f s w res s1 st next Hf [Hfr Hi] Hst Es A Hr. subst st. pose proof (pow2_32_le word_bits Hword).
  assert (Hi' : announced_size patch = Some (a_to_size s) /\ 0 <= a_to_size s < 2 ^ 27 /\
      exists r rest, a_reader s = Some r /\ gives f r (a_left s) rest /\ none_ok f r (a_left s) /\
        zok (a_rsize s) /\ zlen rest < 2 ^ 31 /\ (doomed s rest \/ on_way s w rest)).
  { destruct Hst as [[Es ->]|[Es ->]]; rewrite Es in Hi; exact Hi. }
  clear Hi. destruct Hi' as (I1 & I2 & r & rest & J1 & J2 & J3 & J5 & J6 & J7).
  destruct J7 as [[X _]|J7]; [destruct Hst as [[Es ->]|[Es ->]]; rewrite Es in X; discriminate|].
  destruct J7 as (W1 & W2 & W3 & W4).
  unfold process_size, common_process_size in A. rewrite J1 in A.
  apply obind_ret in A. destruct A as ([[[[r1 v] z1] r2] l1] & A & C). cbv zeta in C.
  apply obind_ret in A. destruct A as ([[[[r1' v'] z1'] r2'] l1'] & A & D).
  destruct (Z.eqb_spec r1' 0) as [->|Hne]; cbn [negb] in D.
  - destruct (unpack_any _ _ _ _ _ _ _ _ _ _ Hf J2 J3 J5 J6 A (Z.le_refl 0)) as (rest1 & U1 & U2 & U3 & U4 & [(_ & U5 & U6 & U7)|(X & _)]); [|lia].
    destruct (Z.ltb_spec (a_to_size s) (wrap (a_to_offset s + wrap v'))) as [L|L]; inv D;
      [change (negb (- E_CORRUPT_PATCH =? 0)) with true in C; inv C; unfold E_CORRUPT_PATCH in Hr; lia|].
    change (negb (0 =? 0)) with false in C. cbv iota in C. inv C.
    assert (K : announced_size patch = Some (a_to_size s) /\ 0 <= a_to_size s < 2 ^ 27 /\
      exists r rest, Some r2 = Some r /\ gives f r l1 rest /\ none_ok f r l1 /\ zok z1 /\ zlen rest < 2 ^ 31 /\
        (doomed (set_chunk_size (set_st (set_reader s (Some r2) z1 l1) next) (wrap v)) rest \/
         on_way (set_chunk_size (set_st (set_reader s (Some r2) z1 l1) next) (wrap v)) w rest)).
    { ann. exists r2, rest1. splits; auto. destruct (Z.lt_ge_cases v 0) as [Hv|Hv].
      - left. split; [cbn; destruct Hst as [[Es ->]|[Es ->]]; reflexivity|]. cbn [set_chunk_size a_chunk_size].
        assert (Ew : wrap v = v + 2 ^ word_bits).
        { unfold wrap. rewrite <- (Z_mod_plus_full v 1 (2 ^ word_bits)), Z.mul_1_l. apply Z.mod_small. lia. }
        rewrite Ew. change (2 ^ 31) with 2147483648 in *. change (2 ^ 27) with 134217728 in *. change (2 ^ 32) with 4294967296 in *. lia.
      - right. rewrite (wrap_small v) in * by lia. rewrite wrap_small in L by lia.
        unfold on_way. cbn -[Z.pow Z.lt Z.le described rem]. splits; auto; try lia.
        + rewrite W3. unfold rem. cbn -[Z.pow Z.lt Z.le described szrest at_dsize at_esize diff_data extra_data].
          destruct Hst as [[Es ->]|[Es ->]]; rewrite Es, U7; f_equal; unfold at_dsize, at_esize;
            (destruct (Z.ltb_spec v 0); [lia|]); (destruct (Z.ltb_spec (a_to_size s - a_to_offset s) v); [lia|reflexivity]).
        + destruct Hst as [[Es ->]|[Es ->]]; splits; auto; lia. }
    split; [exact Hfr|]. cbn -[Z.pow]. destruct Hst as [[Es ->]|[Es ->]]; exact K.
  - inv D. destruct (Z.eqb_spec r1 0); [congruence|]. cbn [negb] in C. inv C.
    destruct (unpack_any _ _ _ _ _ _ _ _ _ _ Hf J2 J3 J5 J6 A Hr) as (rest1 & U1 & U2 & U3 & U4 & [(X & _)|(_ & U5)]); [lia|].
    assert (K : announced_size patch = Some (a_to_size s) /\ 0 <= a_to_size s < 2 ^ 27 /\
      exists r rest, Some r2 = Some r /\ gives f r l1 rest /\ none_ok f r l1 /\ zok z1 /\ zlen rest < 2 ^ 31 /\
        (doomed (set_reader s (Some r2) z1 l1) rest \/ on_way (set_reader s (Some r2) z1 l1) w rest)).
    { ann. exists r2, rest1. splits; auto. right. unfold on_way. cbn -[Z.pow Z.lt Z.le described rem]. splits; auto; try lia.
      - rewrite W3. unfold rem. cbn -[Z.pow Z.lt Z.le described szrest at_dsize at_esize diff_data extra_data].
        destruct Hst as [[Es ->]|[Es ->]]; rewrite Es, U5; reflexivity.
      - destruct Hst as [[Es ->]|[Es ->]]; rewrite Es in *; auto. }
    split; [exact Hfr|]. cbn -[Z.pow]. destruct Hst as [[Es ->]|[Es ->]]; rewrite Es; exact K.
Qed.

Lemma mid_inv : forall f s w, minv f s w -> a_state s <> SInit -> a_state s <> SDone -> a_state s <> SFailed ->
  announced_size patch = Some (a_to_size s) /\ 0 <= a_to_size s < 2 ^ 27 /\
  exists r rest, a_reader s = Some r /\ gives f r (a_left s) rest /\ none_ok f r (a_left s) /\
    zok (a_rsize s) /\ zlen rest < 2 ^ 31 /\ (doomed s rest \/ on_way s w rest).
Proof. intros f s w [_ H] A B C. destruct (a_state s); try congruence; exact H. Qed.

Lemma inv_mid : forall f s w, f_from w = from -> a_state s <> SInit -> a_state s <> SDone -> a_state s <> SFailed ->
  announced_size patch = Some (a_to_size s) /\ 0 <= a_to_size s < 2 ^ 27 /\
  (exists r rest, a_reader s = Some r /\ gives f r (a_left s) rest /\ none_ok f r (a_left s) /\
    zok (a_rsize s) /\ zlen rest < 2 ^ 31 /\ (doomed s rest \/ on_way s w rest)) -> minv f s w.
Proof. intros f s w F A B C H. split; [exact F|]. destruct (a_state s); try congruence; exact H. Qed.

Lemma dfpatch_min : forall f s w res s1, bytes_ok f -> minv f s w -> a_state s = SDfpatchSize ->
  process_dfpatch_size s = Ret (res, s1) -> 0 <= res -> minv f s1 w.
Proof.
  intros f s w res s1 Hf Hm Es A Hr. pose proof (proj1 Hm) as Hfr.
  apply mid_inv in Hm; try (rewrite Es; discriminate). destruct Hm as (I1 & I2 & r & rest & J1 & J2 & J3 & J5 & J6 & J7).
  destruct J7 as [[X _]|J7]; [rewrite Es in X; discriminate|]. destruct J7 as (W1 & W2 & W3 & W4). rewrite Es in W4.
  unfold process_dfpatch_size in A. rewrite J1 in A.
  apply obind_ret in A. destruct A as ([[[[r1 v] z1] r2] l1] & A & C). cbv zeta in C.
  destruct (Z.eqb_spec r1 0) as [->|Hne]; cbn [negb] in C.
  - destruct (unpack_any _ _ _ _ _ _ _ _ _ _ Hf J2 J3 J5 J6 A (Z.le_refl 0)) as (rest1 & U1 & U2 & U3 & U4 & [(_ & U5 & U6 & U7)|(X & _)]); [|lia].
    destruct (Z.ltb_spec 0 v); inv C; [unfold E_NOT_IMPLEMENTED in Hr; lia|].
    apply inv_mid; try (cbn; discriminate); auto. cbn -[Z.pow]. ann. exists r2, rest1. splits; auto. right.
    unfold on_way. cbn -[Z.pow Z.lt Z.le described rem]. splits; auto; try lia. rewrite W3. f_equal. unfold rem. cbn -[Z.pow Z.lt Z.le described szrest at_dsize bm].
    rewrite Es, U7. destruct (Z.ltb_spec 0 v); [lia|]. rewrite bm_unfold by lia. unfold szrest. rewrite U6. reflexivity.
  - inv C. destruct (unpack_any _ _ _ _ _ _ _ _ _ _ Hf J2 J3 J5 J6 A Hr) as (rest1 & U1 & U2 & U3 & U4 & [(X & _)|(_ & U5)]); [lia|].
    apply inv_mid; try (cbn; rewrite Es; discriminate); auto. cbn -[Z.pow]. ann. exists r2, rest1. splits; auto. right.
    unfold on_way. cbn -[Z.pow Z.lt Z.le described rem]. rewrite Es. splits; auto; try lia. rewrite W3. f_equal. unfold rem. cbn -[Z.pow Z.lt Z.le described szrest at_dsize bm].
    rewrite Es, U5. reflexivity.
Qed.

Lemma adjust_min : forall f s w res s1 w1, bytes_ok f -> minv f s w -> a_state s = SAdjustment ->
  process_adjustment file_env s w = Ret (res, s1, w1) -> f_from w1 = from /\ (0 <= res -> minv f s1 w1).
Proof.
  intros f s w res s1 w1 Hf Hm Es A. pose proof (proj1 Hm) as Hfr.
  apply mid_inv in Hm; try (rewrite Es; discriminate). destruct Hm as (I1 & I2 & r & rest & J1 & J2 & J3 & J5 & J6 & J7).
  destruct J7 as [[X _]|J7]; [rewrite Es in X; discriminate|]. destruct J7 as (W1 & W2 & W3 & W4). clear W4.
  unfold process_adjustment in A. rewrite J1 in A.
  apply obind_ret in A. destruct A as ([[[[r1 v] z1] r2] l1] & A & C). cbv zeta in C.
  destruct (Z.eqb_spec r1 0) as [->|Hne]; cbn [negb] in C.
  - destruct (unpack_any _ _ _ _ _ _ _ _ _ _ Hf J2 J3 J5 J6 A (Z.le_refl 0)) as (rest1 & U1 & U2 & U3 & U4 & [(_ & U5 & U6 & U7)|(X & _)]); [|lia].
    cbn [from_seek file_env] in C. unfold file_seek in C. destruct (Z.ltb_spec (f_pos w + v) 0) as [L|L].
    { change (negb (-16 =? 0)) with true in C. cbv iota in C. inv C. split; [auto|]. unfold E_IO_FAILED. lia. }
    change (negb (0 =? 0)) with false in C. cbv iota in C. apply obind_ret in C. destruct C as (fo & _ & C). inv C.
    split; [auto|]. intros _.
    assert (W5 : described from (a_to_size s) body = prefix (f_to w) (bm from (f_pos w + v) (a_to_size s - a_to_offset s) rest1)).
    { rewrite W3. f_equal. unfold rem. rewrite Es, U7. cbn [at_adj]. destruct (Z.ltb_spec (f_pos w + v) 0); [lia|reflexivity]. }
    cbn [set_from_offset set_reader a_to_offset a_to_size]. destruct (Z.eqb_spec (a_to_offset s) (a_to_size s)) as [Ee|Ne].
    + split; [exact Hfr|]. cbn -[Z.pow described]. split; [auto|]. split; [auto|]. exists rest1. split.
      * rewrite W5. replace (a_to_size s - a_to_offset s) with 0 by lia. rewrite bm_done. cbn [prefix]. rewrite app_nil_r. reflexivity.
      * destruct r2 as [ps po|x|h]; auto. destruct U2 as (V1 & V2 & V3). destruct U1 as (_ & _ & ->). rewrite zlen_app. lia.
    + apply inv_mid; try (cbn; discriminate); auto. cbn -[Z.pow]. ann. exists r2, rest1. splits; auto. right.
      unfold on_way. cbn -[Z.pow Z.lt Z.le described rem]. splits; auto; try lia. rewrite W5. f_equal. unfold rem. cbn -[Z.pow Z.lt Z.le described szrest at_dsize bm].
      rewrite bm_unfold by lia. unfold szrest. rewrite U6. reflexivity.
  - inv C. split; [auto|]. intros Hr.
    destruct (unpack_any _ _ _ _ _ _ _ _ _ _ Hf J2 J3 J5 J6 A Hr) as (rest1 & U1 & U2 & U3 & U4 & [(X & _)|(_ & U5)]); [lia|].
    apply inv_mid; try (cbn; rewrite Es; discriminate); auto. cbn -[Z.pow]. ann. exists r2, rest1. splits; auto. right.
    unfold on_way. cbn -[Z.pow Z.lt Z.le described rem]. rewrite Es. splits; auto; try lia. rewrite W3. f_equal. unfold rem. cbn -[Z.pow Z.lt Z.le described szrest at_adj].
    rewrite Es, U5. reflexivity.
Qed.

Lemma data_min : forall f s w res s1 w1 next, bytes_ok f -> minv f s w -> data_next (a_state s) = Some next ->
  process_data file_env 128 s w next = Ret (res, s1, w1) -> f_from w1 = from /\ (0 <= res -> minv f s1 w1).
Proof.
  intros f s w res s1 w1 next Hf Hm Hn A. pose proof (proj1 Hm) as Hfr.
  assert (Hst : a_state s = SDiffData /\ next = SExtraSize \/ a_state s = SExtraData /\ next = SAdjustment).
  { destruct (a_state s); inv Hn; auto. }
  clear Hn. apply mid_inv in Hm; try (destruct Hst as [[-> _]|[-> _]]; discriminate).
  destruct Hm as (I1 & I2 & r & rest & J1 & J2 & J3 & J5 & J6 & J7).
  pose proof (pow2_32_le word_bits Hword). pose proof (zlen_nonneg rest).
  unfold process_data in A. cbv zeta in A. destruct (Z.eqb_spec (Z.min 128 (a_chunk_size s)) 0) as [Ez|Nz].
  - inv A. split; [auto|]. intros _.
    destruct J7 as [[_ J7]|(W1 & W2 & W3 & W4)]; [lia|].
    assert (W5 : z_cons (a_rsize s) = false /\ a_chunk_size s = 0) by (destruct Hst as [[E _]|[E _]]; rewrite E in W4; split; [tauto|lia|tauto|lia]).
    destruct W5 as [W5 W6].
    apply inv_mid; auto; try (cbn; destruct Hst as [[_ ->]|[_ ->]]; discriminate). cbn -[Z.pow]. ann. exists r, rest. splits; auto. right.
    unfold on_way. cbn -[Z.pow Z.lt Z.le described rem]. splits; auto; try lia.
    + rewrite W3. f_equal. unfold rem. cbn -[Z.pow Z.lt Z.le described szrest at_esize at_adj diff_data extra_data].
      destruct Hst as [[-> ->]|[-> ->]]; rewrite W6; [rewrite diff_none|rewrite extra_none]; unfold szrest; rewrite W5; reflexivity.
    + destruct Hst as [[_ ->]|[_ ->]]; exact I.
  - rewrite J1 in A. apply obind_ret in A. destruct A as ([[[r1 o] r2] l1] & A & C).
    assert (Hmin : 1 <= Z.min 128 (a_chunk_size s)).
    { destruct J7 as [[_ J7]|(W1 & W2 & W3 & W4)]; [lia|]. destruct Hst as [[E _]|[E _]]; rewrite E in W4; lia. }
    destruct (gives_dec _ _ _ _ _ _ _ _ _ Hf J2 Hmin A) as [G1 G2].
    assert (H0min : 0 <= Z.min 128 (a_chunk_size s)) by lia.
    pose proof (none_dec _ _ _ _ _ _ _ _ J3 H0min A) as N1.
    assert (Ho : r1 = 0 -> zlen o <= a_chunk_size s).
    { intros ->. pose proof (gives_len _ _ _ _ _ _ _ _ J2 Hmin A). lia. }
    destruct (Z.eqb_spec r1 0) as [->|Hne]; cbn [negb] in C.
    2:{ inv C. split; [auto|]. intros Hr. apply decompress_code in A. assert (res = 1) by (destruct A as [|[|]]; lia). subst res.
        apply inv_mid; auto; try (cbn; destruct Hst as [[-> _]|[-> _]]; discriminate). cbn -[Z.pow]. ann. exists r2, rest. splits; auto. }
    destruct (G1 eq_refl) as (G3 & rest1 & -> & G4). specialize (Ho eq_refl). rewrite zlen_app in *.
    assert (Hzo : 0 < zlen o).
    { destruct o; [congruence|]. rewrite zlen_cons. pose proof (zlen_nonneg o). lia. }
    pose proof (zlen_nonneg rest1).
    apply obind_ret in C. destruct C as ([[[io data] s2] w2] & C & F).
    assert (Hs2 : io = false -> f_from w2 = from /\ a_state s2 = a_state s /\ a_reader s2 = Some r2 /\ a_left s2 = l1 /\ a_rsize s2 = a_rsize s /\
       a_to_offset s2 = a_to_offset s /\ a_to_size s2 = a_to_size s /\ a_chunk_size s2 = a_chunk_size s /\ f_to w2 = f_to w /\
       (next = SExtraSize /\ 0 <= f_pos w /\ f_pos w + zlen o <= zlen from /\ f_pos w2 = f_pos w + zlen o /\ data = add_mod o (ztake (zlen o) (zdrop (f_pos w) from)) \/
        next = SAdjustment /\ f_pos w2 = f_pos w /\ data = o)).
    { intros ->. destruct Hst as [[E ->]|[E ->]].
      - cbn [from_read file_env] in C. unfold file_read in C. destruct (Z.eqb_spec (zlen o) 0); [lia|]. rewrite Hfr in C.
        destruct ((0 <=? f_pos w) && (f_pos w + zlen o <=? zlen from)) eqn:X; [|discriminate].
        change (negb (0 =? 0)) with false in C. cbv iota in C. apply obind_ret in C. destruct C as (d & C1 & C).
        rewrite add_data_mod in C1 by (rewrite zlen_ztake, zlen_zdrop by lia; lia). inv C1. inv C. cbn. splits; auto. left. splits; auto; lia.
      - inv C. cbn. splits; auto. }
    destruct io.
    { assert (Hw2 : f_from w2 = from).
      { destruct Hst as [[E ->]|[E ->]]; [|inv C].
        cbn [from_read file_env] in C. unfold file_read in C. destruct (Z.eqb_spec (zlen o) 0); [lia|].
        destruct (_ && _); [|inv C; assumption]. change (negb (0 =? 0)) with false in C. cbv iota in C. apply obind_ret in C. destruct C as (d & _ & C). discriminate. }
      inv F. split; [exact Hw2|]. unfold E_IO_FAILED. lia. }
    destruct (Hs2 eq_refl) as (K1 & K2 & K3 & K4 & K5 & K6 & K7 & K8 & K9 & K10). clear Hs2 C.
    cbn [to_write file_env] in F. unfold file_write in F. change (negb (0 =? 0)) with false in F. cbv iota zeta in F. rewrite K6, K8 in F.
    inv F. split; [exact K1|]. intros _.
    apply inv_mid; auto; try (cbn; rewrite K2; destruct Hst as [[-> _]|[-> _]]; discriminate).
    cbn -[Z.pow wrap]. rewrite K3, K5, K7. ann. exists r2, rest1. splits; auto; try lia.
    destruct J7 as [[J7 J8]|(W1 & W2 & W3 & W4)].
    + left. unfold doomed. cbn -[Z.pow wrap Z.lt]. rewrite K2. split; [exact J7|]. rewrite zlen_app in J8. rewrite wrap_small by lia. lia.
    + assert (W5 : z_cons (a_rsize s) = false /\ 0 <= a_chunk_size s /\ a_to_offset s + a_chunk_size s <= a_to_size s)
        by (destruct Hst as [[E _]|[E _]]; rewrite E in W4; exact W4).
      destruct W5 as (W5 & W6 & W7).
      right. unfold on_way. cbn -[Z.pow Z.lt Z.le described rem wrap]. rewrite K2, K5, K7. rewrite !wrap_small by lia. splits; try lia.
      * rewrite W3, K9. rewrite <- prefix_app. f_equal. unfold rem. cbn -[Z.pow Z.lt Z.le described szrest at_esize at_adj diff_data extra_data wrap].
        rewrite K2, K7. rewrite ?wrap_small by lia.
        destruct K10 as [(-> & P1 & P2 & P3 & ->)|(-> & P1 & ->)]; (destruct Hst as [[-> Q]|[-> Q]]; [|]; try discriminate).
        -- rewrite diff_split by lia. rewrite P3. f_equal. f_equal. lia.
        -- rewrite extra_split by lia. rewrite P1. f_equal. f_equal. lia.
      * destruct Hst as [[-> _]|[-> _]]; splits; auto; lia.
Qed.

Lemma once_min : forall f s w res s1 w1, bytes_ok f -> minv f s w ->
  process_once file_env 128 s w = Ret (res, s1, w1) -> minv f s1 w1.
Proof.
  intros f s w res s1 w1 Hf Hi H. pose proof (proj1 Hi) as Hfr.
  unfold process_once in H. apply obind_ret in H. destruct H as ([[r0 s0] w0] & A & H).
  assert (K : f_from w0 = from /\ (0 <= r0 -> minv f s0 w0) -> a_state s <> SDone -> minv f s1 w1).
  { intros [K1 K2] Hnd. assert (Hx : Ret (r0, if r0 <? 0 then set_st s0 SFailed else s0, w0) = Ret (res, s1, w1)) by (destruct (a_state s); try exact H; congruence).
    inv Hx. destruct (Z.ltb_spec res 0); [split; [exact K1|exact I]|apply K2; lia]. }
  assert (Kd : a_state s = SDone -> minv f s1 w1).
  { intros Es. rewrite Es in A, H. inv A. inv H. exact Hi. }
  destruct (a_state s) eqn:Es; try (apply K; [|discriminate]); try (apply Kd; reflexivity); clear K Kd H;
    try (apply obind_ret in A; destruct A as ([r2 s2] & A & A2); inv A2).
  - split; [auto|]. intros Hr. eapply init_min; eauto.
  - split; [auto|]. intros Hr. eapply dfpatch_min; eauto.
  - split; [auto|]. intros Hr. eapply size_min; [exact Hf|exact Hi|left; split; reflexivity|exact Es|exact A|exact Hr].
  - eapply data_min; eauto. rewrite Es. reflexivity.
  - split; [auto|]. intros Hr. eapply size_min; [exact Hf|exact Hi|right; split; reflexivity|exact Es|exact A|exact Hr].
  - eapply data_min; eauto. rewrite Es. reflexivity.
  - eapply adjust_min; eauto.
  - inv A. split; [auto|]. unfold E_ALREADY_FAILED. lia.
Qed.

(** ** The calls *)

Lemma minv_left : forall f s w, (a_left s = [] \/ a_state s = SDone \/ a_state s = SFailed) -> minv f s w -> minv f (set_chunk s []) w.
Proof.
  intros f s w Hl [H1 H2]. split; [exact H1|]. unfold doomed, on_way, rem in *. cbn [set_chunk a_state a_left a_csize a_to_init a_compression a_size a_patch_size a_to_offset a_to_size a_reader a_rsize a_chunk_size].
  destruct (a_state s); try exact H2; (destruct Hl as [El|[X|X]]; [|discriminate|discriminate]); rewrite El in H2; try exact H2.
  destruct H2 as (A1 & A2 & A3 & A4 & A5 & A6 & A7 & A8). pose proof (zlen_nonneg (a_left s)). change (zlen (@nil Z)) with 0 in *. splits; auto; lia.
Qed.

Lemma minv_chunk : forall f s w p x, bytes_ok p -> minv (p ++ f) (set_chunk s []) w -> minv f (set_chunk (set_patch_offset s x) p) w.
Proof.
  intros f s w p x Hp [H1 H2]. split; [exact H1|]. unfold doomed, on_way, rem in *.
  cbn [set_chunk set_patch_offset a_state a_left a_csize a_to_init a_compression a_size a_patch_size a_to_offset a_to_size a_reader a_rsize a_chunk_size] in *.
  destruct (a_state s); try exact H2.
  - destruct H2 as (A1 & A2 & A3 & A4 & A5 & A6 & A7 & A8). rewrite zlen_app in A7. change (zlen (@nil Z)) with 0 in *. splits; auto; lia.
  - destruct H2 as (A1 & A2 & r & rest & B1 & (B2 & B3 & B4) & B5 & B6). ann. exists r, rest. split; [exact B1|]. split; [split; [auto|split; auto]|].
    split; [|exact B6]. unfold none_ok in *. destruct r; auto. rewrite zlen_app in B5. change (zlen (@nil Z)) with 0 in *. lia.
  - destruct H2 as (A1 & A2 & r & rest & B1 & (B2 & B3 & B4) & B5 & B6). ann. exists r, rest. split; [exact B1|]. split; [split; [auto|split; auto]|].
    split; [|exact B6]. unfold none_ok in *. destruct r; auto. rewrite zlen_app in B5. change (zlen (@nil Z)) with 0 in *. lia.
  - destruct H2 as (A1 & A2 & r & rest & B1 & (B2 & B3 & B4) & B5 & B6). ann. exists r, rest. split; [exact B1|]. split; [split; [auto|split; auto]|].
    split; [|exact B6]. unfold none_ok in *. destruct r; auto. rewrite zlen_app in B5. change (zlen (@nil Z)) with 0 in *. lia.
  - destruct H2 as (A1 & A2 & r & rest & B1 & (B2 & B3 & B4) & B5 & B6). ann. exists r, rest. split; [exact B1|]. split; [split; [auto|split; auto]|].
    split; [|exact B6]. unfold none_ok in *. destruct r; auto. rewrite zlen_app in B5. change (zlen (@nil Z)) with 0 in *. lia.
  - destruct H2 as (A1 & A2 & r & rest & B1 & (B2 & B3 & B4) & B5 & B6). ann. exists r, rest. split; [exact B1|]. split; [split; [auto|split; auto]|].
    split; [|exact B6]. unfold none_ok in *. destruct r; auto. rewrite zlen_app in B5. change (zlen (@nil Z)) with 0 in *. lia.
  - destruct H2 as (A1 & A2 & r & rest & B1 & (B2 & B3 & B4) & B5 & B6). ann. exists r, rest. split; [exact B1|]. split; [split; [auto|split; auto]|].
    split; [|exact B6]. unfold none_ok in *. destruct r; auto. rewrite zlen_app in B5. change (zlen (@nil Z)) with 0 in *. lia.
Qed.

Lemma loop_stop : forall fuel res s w res1 s1 w1, (res < 0 -> a_state s = SDone \/ a_state s = SFailed) ->
  process_loop file_env fuel 128 res s w = Ret (res1, s1, w1) -> a_left s1 = [] \/ a_state s1 = SDone \/ a_state s1 = SFailed.
Proof using .
  clear. induction fuel; intros res s w res1 s1 w1 Hs X; cbn [process_loop] in X.
  - destruct (a_left s) eqn:El; [inv X; auto|]. destruct (Z.ltb_spec res 0); inv X; auto.
  - destruct (a_left s) eqn:El; [inv X; auto|]. destruct (Z.ltb_spec res 0); [inv X; auto|].
    apply obind_ret in X. destruct X as ([[r2 s2] w2] & A & X). eapply IHfuel; [|exact X].
    intros Y. apply once_code in A. destruct A as [(A1 & A2 & A3 & A4)|[(A1 & A2 & A3 & A4)|(A1 & A2 & A3 & A4)]]; subst; auto.
Qed.

Lemma finloop_stop : forall fuel s w res1 s1 w1, finalize_loop file_env fuel 128 s w = Ret (res1, s1, w1) ->
  res1 <> 0 /\ res1 <= 1 /\ (res1 = - E_ALREADY_DONE -> a_state s1 = SDone).
Proof using .
  clear. induction fuel; intros s w res1 s1 w1 X; cbn [finalize_loop] in X; [discriminate|].
  apply obind_ret in X. destruct X as ([[r2 s2] w2] & A & X). destruct (Z.eqb_spec r2 0); [eauto|]. inv X.
  split; [auto|]. apply once_code in A. destruct A as [(A & B & C & D)|[(A & B & C & D)|(A & B & C & D)]]; subst; (split; [code|intros; try congruence; code]).
Qed.

Lemma feed_min : forall chunks fuel s w v s1 w1, bytes_ok (concat chunks) -> minv (concat chunks) (set_chunk s []) w ->
  feed file_env fuel 128 s w chunks = Ret (v, s1, w1) -> 0 <= v ->
  announced_size patch = Some v /\ exists rest, described from v body = Some (f_to w1, rest) /\ (c = CompNone -> rest = []).
Proof.
  induction chunks as [|p cs IH]; intros fuel s w v s1 w1 Hb Hm X Hv; cbn [feed] in X.
  - unfold finalize in X. cbv zeta in X. apply obind_ret in X. destruct X as ([[r2 s2] w2] & A & X).
    apply obind_ret in X. destruct X as (r3 & B & X). inv X.
    destruct (finloop_stop _ _ _ _ _ _ A) as (L1 & L2 & L3).
    assert (K : minv [] s1 w1).
    { eapply (finloop_inv file_env (minv [])); [|exact Hm|exact A]. intros s' w' res' s'' w'' P Q. eapply once_min; [constructor|exact P|exact Q]. }
    assert (r2 = - E_ALREADY_DONE).
    { unfold common_finalize in B. destruct (Z.eqb_spec r2 (- E_ALREADY_DONE)); [auto|exfalso].
      set (res1 := if r2 =? 1 then - E_NOT_ENOUGH_PATCH_DATA else r2) in B. cbv zeta in B.
      assert (R1 : res1 < 0 /\ res1 <> - E_ALREADY_DONE) by (unfold res1; destruct (Z.eqb_spec r2 1); code).
      destruct (Z.eqb_spec res1 (- E_ALREADY_DONE)); [lia|].
      destruct (a_reader s1); [|cbn [obind] in B; destruct (Z.eqb_spec res1 0); inv B; lia].
      apply obind_ret in B. destruct B as (y & B1 & B2). apply obind_ret in B1. destruct B1 as (d & B0 & B1).
      destruct (Z.eqb_spec res1 0); [lia|]. inv B1. destruct (Z.eqb_spec res1 0); inv B2; lia. }
    subst r2. specialize (L3 eq_refl). destruct K as [_ K]. rewrite L3 in K. destruct K as (K1 & K0 & rest & K2 & K3).
    assert (Ev : v = a_to_size s1).
    { unfold common_finalize in B. change (- E_ALREADY_DONE =? 1) with false in B. cbv iota zeta in B. rewrite Z.eqb_refl in B.
      change (0 =? 0) with true in B. cbv iota in B.
      assert (T : to_int (a_to_size s1) = a_to_size s1) by (apply to_int_small; unfold INT_MIN, INT_MAX; lia).
      rewrite T in B. clear - B Hv. destruct (a_reader s1) as [r|]; [|inv B; reflexivity].
      destruct (destroy r) as [d| |] eqn:D; cbn [obind] in B; try discriminate. destruct (Z.eqb_spec d 0); [inv B; reflexivity|]. inv B. exfalso.
      destruct r as [ps po|x|h]; cbn [destroy] in D; [|inv D; lia|].
      - destruct (po =? ps); inv D; [lia|]. unfold E_CORRUPT_PATCH in Hv. lia.
      - destruct (hr_ptr h); [|inv D; lia]. destruct (hr_dec h); [|discriminate]. destruct (hs_finish h0); inv D; [lia|]. unfold E_CORRUPT_PATCH in Hv. lia. }
    subst v. split; [exact K1|]. exists rest. split; [exact K2|]. intros Ec.
    destruct (a_reader s1) as [[ps po|x|h]|]; try (exfalso; apply K3; exact Ec).
    unfold common_finalize in B. change (- E_ALREADY_DONE =? 1) with false in B. cbv iota zeta in B. rewrite Z.eqb_refl in B.
    change (0 =? 0) with true in B. cbv iota in B. cbn [destroy obind] in B.
    destruct (Z.eqb_spec po ps).
    + apply zlen_0_nil. pose proof (zlen_nonneg rest). lia.
    + exfalso. inv B. destruct (Z.eqb_spec (- E_CORRUPT_PATCH) 0) as [Y|Y]; [discriminate|]. change (- E_CORRUPT_PATCH =? 0) with false in Hv. unfold E_CORRUPT_PATCH in Hv. lia.
  - cbn [concat] in Hb, Hm. apply Forall_app in Hb. destruct Hb as [Hp Hb].
    apply obind_ret in X. destruct X as ([[res s2] w2] & A & X).
    destruct (Z.eqb_spec res 0) as [->|Hres].
    + unfold process in A. cbv zeta in A. apply obind_ret in A. destruct A as ([[r3 s3] w3] & A & A2).
      apply (minv_chunk _ _ _ _ (wrap (a_patch_offset s + zlen p)) Hp) in Hm.
      assert (K : minv (concat cs) s3 w3).
      { eapply (loop_inv file_env (minv (concat cs))); [|exact Hm|exact A]. intros s' w' res' s'' w'' P Q. eapply once_min; [exact Hb|exact P|exact Q]. }
      apply loop_stop in A; [|lia].
      assert (s3 = s2 /\ w3 = w2) as [-> ->] by (split; congruence).
      eapply IH; [exact Hb|apply minv_left; [exact A|exact K]|exact X|exact Hv].
    + apply process_failed in A; [|auto]. apply obind_ret in X. destruct X as ([[r4 s4] w4] & _ & X). inv X. lia.
Qed.

End Accepted.

Lemma accepted : forall (wb : WordBits), 32 <= word_bits ->
  forall fuel junk from patch body c chunks v s w,
  bytes_ok patch -> zlen patch < 2 ^ word_bits -> announced_comp patch = comp_number c -> compressed c body (body_of patch) ->
  bytes_ok body -> zlen body < 2 ^ 31 -> concat chunks = patch ->
  c_apply fuel junk (zlen patch) from chunks = Ret (v, s, w) -> 0 <= v ->
  announced_size patch = Some v /\ exists rest, described from v body = Some (f_to w, rest) /\ (c = CompNone -> rest = []).
Proof.
  intros wb Hw fuel junk from patch body c chunks v s w Hp Hl Hc Hb Hbb Hs Hch X Hv. subst patch. unfold c_apply in X.
  eapply (@feed_min wb Hw from (concat chunks) body c); eauto.
  unfold minv. cbn -[Z.pow]. change (zlen (@nil Z)) with 0. splits; auto; try lia; constructor.
Qed.
