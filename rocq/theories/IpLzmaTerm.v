(** In-place LZMA patches of any content, with any library that keeps to its buffers and
    any outcome of the allocations: the calls end and leave nothing allocated. *)

From Coq Require Import ZArith List Bool Lia ZifyBool ZifyNat ZifyN.
From Verif Require Import Prelude Lib Heatshrink HsProofs CReader ReaderProofs SizeProofs CSeq CInPlace Spec SeqSim SeqRun SeqTerm SeqSpec CodesSpec IpTerm CLzma CSeqLzma LzmaSpec LzmaProofs LzmaSafe LzmaTerm LzmaReads
  CIpLzma IpLzmaSim IpLzmaCallback.
Import ListNotations.
Open Scope Z_scope.

Lemma uhs_shorter : forall l z v z1 l1, unpack_header_size l z = Ret (0, v, z1, l1) -> zlen l1 < zlen l.
Proof.
  assert (X : forall l z e v z1 l1, unpack_header_size l z = Ret (e, v, z1, l1) -> e = 0 -> zlen l1 < zlen l).
  { induction l as [|b l IH]; intros z e v' z1' l1' H He; cbn [unpack_header_size] in H; [injection H as <- _ _ _; discriminate|]. rewrite zlen_cons.
    apply obind_ret in H. destruct H as ([z2|] & _ & H); [|injection H as <- _ _ _; discriminate]. destruct (_ =? 0); [injection H as _ _ _ <-; lia|]. apply IH in H; auto. lia. }
  intros. eapply X; eauto.
Qed.

Section Term.
Context {WBits : WordBits}.
Hypothesis Hword : 32 <= word_bits.
Context {D : Type} (L : lzma_lib D).
Hypothesis Hlib : lib_ok L.
Variable most : Z.
Variable store : D -> Z.
Hypothesis Hmost : 0 <= most.
Hypothesis Hstore : forall d, 0 <= store d.
Hypothesis Hcode : forall d input n ret k out d', input <> [] -> 0 < n -> lz_code L d input n = (ret, k, out, d') ->
    zlen out + store d' <= store d + most * k.
Context {W : Type} (E : ip_env W).
Hypothesis Hcodes : mem_codes (fun r => r <= 0 /\ r <> -11) E.

Notation wt := (wt most store).

Definition ytm (y : xip D) : Z :=
  let s := y_ip y in
  match i_state s with
  | SInit => 2 * (match lz_start L with Some d => store d | None => 0 end + (most + 1) * zlen (i_left s))
  | SDone | SFailed => 0
  | _ => match y_reader y with
         | Some (XLzma r) => 2 * wt r (i_left s) + match i_state s with SDiffData | SExtraData => 1 | _ => 0 end
         | _ => 0
         end
  end.

Definition ifinal (s : ip) : Prop := i_state s = SDone \/ i_state s = SFailed.

Definition yti (f : list Z) (y : xip D) : Prop :=
  let s := y_ip y in
  match i_state s with
  | SInit =>
      y_reader y = None /\ zlen (i_left s) + zlen f < 2 ^ word_bits /\
      match i_init s with
      | IFixed => i_left s ++ f = [] \/ announced_comp (i_left s ++ f) = 1
      | _ => zok (i_size s) /\ i_compression s = 1
      end
  | SDone | SFailed => rdone (y_reader y)
  | _ => zok (i_rsize s) /\
      (exists r, y_reader y = Some (XLzma r) /\ lsrc f r (i_left s)) /\
      (match i_state s with SDiffData | SExtraData => 0 <= i_chunk_size s | _ => True end)
  end.

Definition ygood (f : list Z) (y : xip D) (res : Z) (y1 : xip D) : Prop :=
  res <= 1 /\ rdone (y_reader y1) /\ (0 <= res -> yti f y1) /\ (res = 0 -> ytm y1 < ytm y) /\ (res = 1 -> i_left (y_ip y1) = []).

Definition yfine (f : list Z) (y : xip D) (out : outcome (Z * xip D * W)) : Prop :=
  out = Undef \/ exists res y1 w1, out = Ret (res, y1, w1) /\ ygood f y res y1.

(** A field of the header that is not the last one. *)
Lemma field_good : forall f s k next sto, i_state s = SInit -> i_init s = k -> k <> IFixed -> next <> IFixed ->
  (forall s v, i_state (sto s v) = i_state s /\ i_init (sto s v) = i_init s /\ i_compression (sto s v) = i_compression s /\ i_size (sto s v) = i_size s /\ i_left (sto s v) = i_left s) ->
  yti f (mkxip s None) ->
  exists res s1, ip_init_size s next sto = Ret (res, s1) /\ ygood f (mkxip s None) res (mkxip s1 None).
Proof.
  intros f s k next sto Es Ek Hk Hn Hsto Hi. unfold yti in Hi. cbn [y_ip y_reader] in Hi. rewrite Es in Hi. destruct Hi as (_ & Hw & Hi).
  assert (Hz : zok (i_size s) /\ i_compression s = 1) by (rewrite Ek in Hi; destruct k; auto; congruence). clear Hi. destruct Hz as [Hz Hc].
  assert (Hm : forall n m, n < m -> most * n <= most * m) by (intros n m X; apply Z.mul_le_mono_nonneg_l; lia).
  unfold ip_init_size, ygood. destruct (uhs_app (i_left s) (i_size s) f Hz)
      as [(z1 & P & Q & R)|[(v & z1 & l1 & used & P & Q & R & S)|(z1 & l1 & P & R)]]; rewrite P; cbn [obind]; cbv zeta.
  - change (negb (1 =? 0)) with true. cbv iota. do 2 eexists. split; [reflexivity|]. cbn [y_reader]. splits; try lia; [exact I| |reflexivity].
    intros _. unfold yti. cbn. rewrite Es, Ek. pose proof (zlen_nonneg (i_left s)). change (zlen (@nil Z)) with 0. splits; auto; [lia|]. destruct k; auto; congruence.
  - change (negb (0 =? 0)) with false. cbv iota. do 2 eexists. split; [reflexivity|]. cbn [y_reader]. pose proof (uhs_shorter _ _ _ _ _ P) as Hu. pose proof (zlen_nonneg l1).
    destruct (Hsto (iset_header s next (i_compression s) (z_first z1) l1) (wrap v)) as (S1 & S2 & S3 & S4 & S5). splits; try lia; [exact I| |].
    + intros _. unfold yti. cbn [y_ip y_reader]. rewrite S1, S2, S3, S4, S5. cbn. rewrite Es, Hc. splits; auto; [lia|].
      assert (K : zok (z_first z1)) by (intros X; discriminate). destruct next; auto; congruence.
    + intros _. unfold ytm. cbn [y_ip y_reader]. rewrite S1, S5. cbn [iset_header i_state i_left]. rewrite Es. pose proof (Hm _ _ Hu). rewrite !Z.mul_add_distr_r. lia.
  - change (negb (- E_CORRUPT_PATCH_OVERFLOW =? 0)) with true. cbv iota. do 2 eexists. split; [reflexivity|]. cbn [y_reader]. splits; try neg. exact I.
Qed.

Lemma yinit_term : forall f y w, i_state (y_ip y) = SInit -> yti f y -> yfine f y (y_init L E y w).
Proof.
  intros f [s rd] w Es Hi. assert (Hi0 := Hi). unfold yti in Hi. cbn [y_ip y_reader] in *. rewrite Es in Hi. destruct Hi as (-> & Hw & Hi). unfold y_init. cbn [y_ip y_reader].
  assert (Hm : forall n m, n < m -> most * n <= most * m) by (intros n m X; apply Z.mul_le_mono_nonneg_l; lia).
  assert (H0 : 0 <= match lz_start L with Some d => store d | None => 0 end) by (destruct (lz_start L); [apply Hstore|lia]).
  destruct (i_init s) eqn:Ei.
  2-5: right; unfold ip_process_init; rewrite Ei;
    match goal with |- context [ip_init_size ?q ?next ?sto] =>
      destruct (field_good f q _ next sto Es Ei) as (res & s1 & A & B); [discriminate|discriminate|intros; cbn; auto 10|exact Hi0|] end;
    rewrite A; cbn [obind]; do 3 eexists; (split; [reflexivity|exact B]).
  - right. unfold ip_process_init. rewrite Ei. unfold ip_init_fixed_header, ygood. destruct (i_left s) as [|b l] eqn:El.
    { cbn [obind]. do 3 eexists. split; [reflexivity|]. cbn [y_reader]. splits; try neg. exact I. }
    cbv zeta. destruct (negb _); cbn [obind].
    { do 3 eexists. split; [reflexivity|]. cbn [y_reader]. splits; try neg. exact I. }
    do 3 eexists. split; [reflexivity|]. cbn [y_reader]. splits; [lia|exact I| | |intros X; discriminate].
    + intros _. unfold yti. cbn. rewrite Es. rewrite zlen_cons in Hw. splits; auto; try lia; [intros X; discriminate|].
      destruct Hi as [Hi|Hi]; [discriminate|]. exact Hi.
    + intros _. unfold ytm. cbn [y_ip y_reader i_state i_left iset_header]. rewrite Es, El. pose proof (zlen_nonneg l). rewrite zlen_cons, !Z.mul_add_distr_r, Z.mul_add_distr_l. lia.
  - destruct Hi as [Hz Hc]. unfold y_init_to_size, ygood. cbn [y_ip y_reader]. cbv zeta.
    destruct (uhs_app (i_left s) (i_size s) f Hz)
      as [(z1 & P & Q & R)|[(v & z1 & l1 & used & P & Q & R & S)|(z1 & l1 & P & R)]]; rewrite P; cbn [obind]; cbv zeta.
    + right. change (negb (1 =? 0)) with true. cbv iota. do 3 eexists. split; [reflexivity|]. unfold ygood. cbn [y_reader]. splits; try lia; [exact I| |reflexivity].
      intros _. unfold yti. cbn. rewrite Es, Ei. pose proof (zlen_nonneg (i_left s)). change (zlen (@nil Z)) with 0. splits; auto. lia.
    + change (negb (0 =? 0)) with false. cbv iota. cbn [i_compression iset_header]. rewrite Hc. unfold xreader_init. change (1 =? 1) with true. cbv iota.
      destruct (lz_start L) as [d|] eqn:Ed.
      2:{ right. do 3 eexists. split; [reflexivity|]. unfold ygood. cbn [y_reader]. splits; try neg. exact I. }
      assert (Hl : lsrc f (mklz d None None (mkheap [] 0)) l1).
      { split; [apply owned_start|]. split; [apply Forall_nil|]. unfold ins. cbn. change (zlen (@nil Z)) with 0. rewrite R, zlen_app in Hw. pose proof (zlen_nonneg used). lia. }
      pose proof (uhs_shorter _ _ _ _ _ P) as Hu. pose proof (zlen_nonneg l1).
      assert (0 <= most * zlen l1) by (apply Z.mul_nonneg_nonneg; lia). pose proof (Hm _ _ Hu). pose proof (Hstore d).
      destruct (Z.ltb_spec v 0); [lia|]. destruct (Z.ltb_spec 0 v).
      * destruct (shift_memory E _ w _ _ _ _) as [[[res1 step1] w1]| |] eqn:Sh; cbn [obind]; [|left; reflexivity|].
        2:{ exfalso. unfold shift_memory in Sh. destruct (_ =? 0); [discriminate|]. cbv zeta in Sh. eapply shift_term; eauto. }
        right. apply (shift_neg' E Hcodes) in Sh. destruct Sh as [Sh1 Sh2].
        destruct (Z.eqb_spec res1 0); cbn [negb].
        2:{ do 3 eexists. split; [reflexivity|]. unfold ygood. cbn [y_reader]. splits; try lia. exact (lsrc_owned _ _ _ Hl). }
        do 3 eexists. split; [reflexivity|]. unfold ygood. cbn [y_reader]. splits; [lia|exact (lsrc_owned _ _ _ Hl)| | |intros X; discriminate].
        -- intros _. unfold yti. cbn. splits; auto; [intros X; discriminate|eauto].
        -- intros _. unfold ytm. cbn [y_ip y_reader i_state i_left iset_st iset_step iset_seg iset_to iset_size_left iset_reader iset_header]. rewrite Es, Ed.
           rewrite Z.mul_add_distr_r. unfold LzmaTerm.wt. cbn [l_dec l_in l_out held]. change (zlen (@nil Z)) with 0. rewrite Z.add_0_l. lia.
      * right. do 3 eexists. split; [reflexivity|]. unfold ygood. cbn [y_reader]. splits; [lia|exact (lsrc_owned _ _ _ Hl)| | |intros X; discriminate].
        -- intros _. unfold yti. cbn. exact (lsrc_owned _ _ _ Hl).
        -- intros _. unfold ytm. cbn [y_ip y_reader i_state i_left iset_st iset_step iset_seg iset_to iset_size_left iset_reader iset_header]. rewrite Es, Ed, Z.mul_add_distr_r. lia.
    + right. change (negb (- E_CORRUPT_PATCH_OVERFLOW =? 0)) with true. cbv iota. do 3 eexists. split; [reflexivity|]. unfold ygood. cbn [y_reader]. splits; try neg. exact I.
Qed.

(** The invariant while the body is read. *)
Lemma yti_body : forall f s r1 st, i_state s = st -> st <> SInit -> st <> SDone -> st <> SFailed -> zok (i_rsize s) -> lsrc f r1 (i_left s) ->
  (st = SDiffData \/ st = SExtraData -> 0 <= i_chunk_size s) -> yti f (mkxip s (Some (XLzma r1))).
Proof.
  intros f s r1 st Es N1 N2 N3 Hz Hs Hc. unfold yti. cbn [y_ip y_reader]. rewrite Es. destruct st; try congruence; (split; [auto|split; [eauto|auto]]).
Qed.

Lemma ytm_body : forall s r1 st, i_state s = st -> st <> SInit -> st <> SDone -> st <> SFailed ->
  ytm (mkxip s (Some (XLzma r1))) = 2 * wt r1 (i_left s) + match st with SDiffData | SExtraData => 1 | _ => 0 end.
Proof. intros s r1 st Es N1 N2 N3. unfold ytm. cbn [y_ip y_reader]. rewrite Es. destruct st; try congruence; reflexivity. Qed.

Lemma yti_open : forall f s rd, i_state s <> SInit -> ~ ifinal s -> yti f (mkxip s rd) -> zok (i_rsize s) /\
  (exists r, rd = Some (XLzma r) /\ lsrc f r (i_left s)) /\ (i_state s = SDiffData \/ i_state s = SExtraData -> 0 <= i_chunk_size s).
Proof.
  intros f s rd N1 N2 Hi. unfold ifinal in N2. unfold yti in Hi. cbn [y_ip y_reader] in Hi.
  destruct (i_state s); try congruence; try tauto; destruct Hi as (A & B & C); (split; [exact A|]; split; [exact B|]); intros X; try exact C; destruct X; discriminate.
Qed.

Ltac opened Hi := apply yti_open in Hi; [|congruence|unfold ifinal; intros [X|X]; congruence]; destruct Hi as (Hz & (r & -> & Hs) & Hchunk).

Lemma ydata_term : forall f y w next, data_next (i_state (y_ip y)) = Some next -> yti f y -> yfine f y (y_data L E y w next).
Proof.
  intros f [s rd] w next Hn Hi. cbn [y_ip y_reader] in *. destruct (data_next_cases _ _ Hn) as (Hx & Hnd & Hni).
  assert (Es : i_state s = SDiffData \/ i_state s = SExtraData) by (destruct (i_state s); try discriminate Hn; auto).
  apply yti_open in Hi; [|destruct Es; congruence|unfold ifinal; intros [X|X]; destruct Es; congruence]. destruct Hi as (Hz & (r & -> & Hs) & Hc). specialize (Hc Es).
  assert (Htm : ytm (mkxip s (Some (XLzma r))) = 2 * wt r (i_left s) + 1) by (destruct Es as [Es|Es]; rewrite (ytm_body _ _ _ Es) by discriminate; reflexivity).
  unfold y_data. cbn [y_ip y_reader]. cbv zeta. destruct (Z.eqb_spec (Z.min 128 (i_chunk_size s)) 0).
  { right. do 3 eexists. split; [reflexivity|]. split; [lia|]. split; [exact (lsrc_owned _ _ _ Hs)|]. splits; [| |intros X; discriminate].
    - intros _. apply yti_body with (st := next); auto; try (destruct Hx; subst; discriminate). all: intros X; destruct Hx, X; congruence.
    - intros _. rewrite Htm. rewrite (ytm_body _ _ next) by (auto; destruct Hx; subst; discriminate). cbn [i_left iset_st]. destruct Hx; subst next; lia. }
  cbn [xdecompress].
  destruct (lsrc_dec Hword L Hlib f r (i_left s) (Z.min 128 (i_chunk_size s)) Hs) as (res & out & r1 & l1 & Ed & P1 & P2 & P3); [lia|].
  assert (Hpos : 0 < Z.min 128 (i_chunk_size s)) by lia. assert (Hw := dec_wt L Hlib most store Hstore Hcode _ _ _ _ _ _ _ Hpos Ed). pose proof (zlen_nonneg out).
  rewrite Ed. cbn [obind]. assert (Ho := lsrc_owned _ _ _ P2).
  assert (Hok : forall s1, i_state s1 = i_state s -> i_rsize s1 = i_rsize s -> i_left s1 = l1 -> 0 <= i_chunk_size s1 -> yti f (mkxip s1 (Some (XLzma r1)))).
  { intros s1 K1 K4 K6 K7. apply yti_body with (st := i_state s1); auto; try (rewrite K1; destruct Es as [Es|Es]; rewrite Es; discriminate); [rewrite K4; exact Hz|rewrite K6; exact P2]. }
  destruct (Z.eqb_spec res 0) as [->|Hne]; cbn [negb].
  2:{ right. do 3 eexists. split; [reflexivity|]. split; [lia|]. split; [exact Ho|]. splits; [|lia|]. { intros X. apply Hok; auto. } intros ->. eapply dec_more; eauto. }
  specialize (P3 eq_refl). specialize (Hw ltac:(lia)).
  assert (Hlt : forall s1, i_state s1 = i_state s -> i_left s1 = l1 -> ytm (mkxip s1 (Some (XLzma r1))) < ytm (mkxip s (Some (XLzma r)))).
  { intros s1 K1 K2. rewrite Htm. destruct Es as [Es|Es]; rewrite Es in K1; rewrite (ytm_body _ _ _ K1) by discriminate; rewrite K2; lia. }
  assert (Hwr : forall s2 w2 g data, i_state s2 = i_state s -> i_rsize s2 = i_rsize s -> i_left s2 = l1 -> 
    yfine f (mkxip s (Some (XLzma r))) (let '(rw, w3) := ip_mem_write E (i_step s2) w2 (wrap (g_to_pos g + g_to_offset g)) data in
            if negb (rw =? 0) then Ret (- E_IO_FAILED, mkxip s2 (Some (XLzma r1)), w3)
            else
              Ret (0,
                   mkxip
                     (iset_chunk_size
                        (iset_seg (iset_to s2 (wrap (i_to_pos s2 + zlen out)) (i_to_size s2))
                           (mksegst (g_index g) (g_from_offset g) (g_to_offset g) (g_to_size g)
                                  (wrap (g_to_pos g + zlen out))))
                        (wrap (i_chunk_size s2 - zlen out))) (Some (XLzma r1)), w3))).
  { intros s2 w2 g data K1 K2 K3. right. destruct (ip_mem_write E _ w2 _ data) as [rw w3]. destruct (Z.eqb_spec rw 0); cbn [negb].
    2:{ do 3 eexists. split; [reflexivity|]. split; [neg|]. split; [exact Ho|]. splits; neg. }
    do 3 eexists. split; [reflexivity|]. split; [lia|]. split; [exact Ho|]. splits; [intros _|intros _|intros X; discriminate].
    + apply Hok; auto. apply wrap_range; auto.
    + apply Hlt; auto. }
  destruct Hx as [-> | ->].
  - destruct (ip_mem_read E _ w _ (zlen out)) as [[rr from] w2] eqn:Er. destruct (Z.eqb_spec rr 0); cbn [negb obind].
    2:{ right. do 3 eexists. split; [reflexivity|]. split; [neg|]. split; [exact Ho|]. splits; neg. }
    unfold int_add. destruct (in_int _); cbn [obind]; [|left; reflexivity].
    destruct (add_data out from) as [dd| |] eqn:Ea; cbn [obind]; [|left; reflexivity|].
    2:{ exfalso. revert Ea. clear. revert from. induction out as [|b q IH0]; intros from; destruct from as [|c0 from]; cbn [add_data]; try discriminate. destruct (add_data q from) eqn:Eq; cbn [obind]; try discriminate. intros _. eapply IH0; eauto. }
    apply Hwr; reflexivity.
  - cbn [obind]. apply Hwr; reflexivity.
Qed.

Lemma unpack_wt2 : forall f z r left, lsrc f r left -> zok z ->
  exists res v z1 r1 l1, xunpack_size L z (XLzma r) left = Ret (res, v, z1, XLzma r1, l1) /\
    res <= 1 /\ zok z1 /\ lsrc f r1 l1 /\ (res = 0 -> wt r1 l1 < wt r left) /\ (res = 1 -> l1 = []).
Proof. exact (unpack_wt' Hword L Hlib most store Hstore Hcode). Qed.

Lemma ysize_term : forall f y w next, next = SDiffData \/ next = SExtraData ->
  i_state (y_ip y) = SDiffSize \/ i_state (y_ip y) = SExtraSize -> yti f y ->
  yfine f y (letm (r, y1) := y_size L y next in Ret (r, y1, w)).
Proof.
  intros f [s rd] w next Hn Hst Hi. cbn [y_ip y_reader] in *.
  apply yti_open in Hi; [|destruct Hst; congruence|unfold ifinal; intros [X|X]; destruct Hst; congruence]. destruct Hi as (Hz & (r & -> & Hs) & _).
  assert (Htm : ytm (mkxip s (Some (XLzma r))) = 2 * wt r (i_left s)) by (destruct Hst as [X|X]; rewrite (ytm_body _ _ _ X) by discriminate; lia).
  unfold y_size, xcommon_process_size. cbn [y_ip y_reader]. cbv zeta. right.
  destruct (unpack_wt2 f _ _ _ Hs Hz) as (res & v & z1 & r1 & l1 & -> & P1 & P2 & P3 & P4 & P5). cbn [obind]. assert (Ho := lsrc_owned _ _ _ P3).
  destruct (Z.eqb_spec res 0); cbn [negb obind].
  - subst res. destruct (_ <? _); cbn [obind].
    + do 3 eexists. split; [reflexivity|]. split; [neg|]. split; [exact Ho|]. splits; neg.
    + do 3 eexists. split; [reflexivity|]. split; [lia|]. split; [exact Ho|]. splits; [intros _|intros _|intros X; discriminate].
      * apply yti_body with (st := next); auto; try (destruct Hn; subst; discriminate). intros _. apply wrap_range; auto.
      * specialize (P4 eq_refl). rewrite Htm, (ytm_body _ _ next) by (auto; destruct Hn; subst; discriminate). cbn [i_left iset_chunk_size iset_st iset_size_left iset_reader]. destruct Hn as [-> | ->]; lia.
  - destruct (Z.eqb_spec res 0); [congruence|]. cbn [negb obind]. do 3 eexists. split; [reflexivity|]. split; [lia|]. split; [exact Ho|]. splits; [|lia|exact P5]. intros X.
    apply yti_body with (st := i_state s); auto; try (destruct Hst as [Y|Y]; rewrite Y; discriminate). intros Y. destruct Hst, Y; congruence.
Qed.

Lemma ydf_term : forall f y w, i_state (y_ip y) = SDfpatchSize -> yti f y -> yfine f y (y_dfpatch_size L E y w).
Proof.
  intros f [s rd] w Es Hi. cbn [y_ip y_reader] in *. opened Hi.
  assert (Htm : ytm (mkxip s (Some (XLzma r))) = 2 * wt r (i_left s)) by (rewrite (ytm_body _ _ _ Es) by discriminate; lia).
  unfold y_dfpatch_size. cbn [y_ip y_reader]. cbv zeta. right.
  destruct (unpack_wt2 f _ _ _ Hs Hz) as (res & v & z1 & r1 & l1 & -> & P1 & P2 & P3 & P4 & P5). cbn [obind]. assert (Ho := lsrc_owned _ _ _ P3).
  destruct (Z.eqb_spec res 0); cbn [negb].
  - subst res. specialize (P4 eq_refl). destruct (0 <? v).
    + do 3 eexists. split; [reflexivity|]. split; [neg|]. split; [exact Ho|]. splits; neg.
    + destruct (ip_mem_erase E _ w _ _) as [res1 w1] eqn:Er. apply (erase_neg E Hcodes) in Er. destruct Er as [E1 E2].
      do 3 eexists. split; [reflexivity|]. split; [lia|]. split; [exact Ho|]. splits; [intros X|intros X|lia].
      * apply yti_body with (st := SDiffSize); auto; try discriminate. intros Y; destruct Y; discriminate.
      * rewrite Htm, (ytm_body _ _ SDiffSize) by (auto; discriminate). cbn [i_left iset_seg iset_st iset_size_left iset_reader]. lia.
  - do 3 eexists. split; [reflexivity|]. split; [lia|]. split; [exact Ho|]. splits; [intros X|lia|exact P5].
    apply yti_body with (st := SDfpatchSize); auto; try discriminate. intros Y; destruct Y; discriminate.
Qed.

Lemma yadj_term : forall f y w, i_state (y_ip y) = SAdjustment -> yti f y -> yfine f y (y_adjustment L E y w).
Proof.
  intros f [s rd] w Es Hi. cbn [y_ip y_reader] in *. opened Hi.
  assert (Htm : ytm (mkxip s (Some (XLzma r))) = 2 * wt r (i_left s)) by (rewrite (ytm_body _ _ _ Es) by discriminate; lia).
  unfold y_adjustment. cbn [y_ip y_reader]. cbv zeta.
  destruct (unpack_wt2 f _ _ _ Hs Hz) as (res & v & z1 & r1 & l1 & -> & P1 & P2 & P3 & P4 & P5). cbn [obind]. assert (Ho := lsrc_owned _ _ _ P3).
  pose proof (wt_nonneg L most store Hmost Hstore Hcode r1 l1).
  destruct (Z.eqb_spec res 0); cbn [negb].
  - subst res. specialize (P4 eq_refl). destruct (i_to_pos _ =? i_to_size _).
    + right. destruct (all_steps_completed E w) as [res1 w1] eqn:Er. apply (steps_neg E Hcodes) in Er. destruct Er as [E1 E2].
      do 3 eexists. split; [reflexivity|]. split; [lia|]. split; [exact Ho|]. splits; [intros X|intros X|lia].
      * unfold yti. cbn. exact Ho.
      * rewrite Htm. unfold ytm. cbn [y_ip y_reader i_state iset_st]. lia.
    + destruct (g_to_pos _ =? g_to_size _).
      * destruct (next_step E _ w) as [[[res1 step1] w1]| |] eqn:Er; cbn [obind]; [right|left; reflexivity|exfalso; eapply next_step_term; eauto].
        apply (next_neg E Hcodes) in Er. destruct Er as [E1 E2].
        do 3 eexists. split; [reflexivity|]. split; [lia|]. split; [exact Ho|]. splits; [intros X|intros X|lia].
        -- apply yti_body with (st := SDfpatchSize); auto; try discriminate. intros Y; destruct Y; discriminate.
        -- rewrite Htm, (ytm_body _ _ SDfpatchSize) by (auto; discriminate). cbn [i_left iset_step iset_st iset_size_left iset_reader]. lia.
      * unfold int_add. destruct (in_int _); cbn [obind]; [right|left; reflexivity].
        do 3 eexists. split; [reflexivity|]. split; [lia|]. split; [exact Ho|]. splits; [intros X|intros X|lia].
        -- apply yti_body with (st := SDiffSize); auto; try discriminate. intros Y; destruct Y; discriminate.
        -- rewrite Htm, (ytm_body _ _ SDiffSize) by (auto; discriminate). cbn [i_left iset_seg iset_st iset_size_left iset_reader]. lia.
  - right. do 3 eexists. split; [reflexivity|]. split; [lia|]. split; [exact Ho|]. splits; [intros X|lia|exact P5].
    apply yti_body with (st := SAdjustment); auto; try discriminate. intros Y; destruct Y; discriminate.
Qed.

Lemma yonce_term : forall f y w, yti f y ->
  y_once L E y w = Undef \/
  exists res y1 w1, y_once L E y w = Ret (res, y1, w1) /\ yti f y1 /\ res <= 1 /\ (res < 0 -> ifinal (y_ip y1)) /\ (res = 0 -> ytm y1 < ytm y) /\ (res = 1 -> i_left (y_ip y1) = []).
Proof.
  intros f y w Hi.
  assert (K : forall out, ~ ifinal (y_ip y) -> yfine f y out ->
    let o := (letm (res, y1, w1) := out in
      match i_state (y_ip y) with SDone => Ret (res, y1, w1) | _ => Ret (res, if res <? 0 then mkxip (iset_st (y_ip y1) SFailed) (y_reader y1) else y1, w1) end) in
    o = Undef \/ exists res y1 w1, o = Ret (res, y1, w1) /\
      yti f y1 /\ res <= 1 /\ (res < 0 -> ifinal (y_ip y1)) /\ (res = 0 -> ytm y1 < ytm y) /\ (res = 1 -> i_left (y_ip y1) = [])).
  { intros out N1 [-> | (res & y1 & w1 & -> & C0 & C1 & C2 & C3 & C4)] o; [left; reflexivity|]. right. subst o. cbn [obind].
    exists res, (if res <? 0 then mkxip (iset_st (y_ip y1) SFailed) (y_reader y1) else y1), w1. unfold ifinal in *.
    split; [destruct (i_state (y_ip y)); tauto|]. destruct (Z.ltb_spec res 0).
    - splits; auto; try lia; tauto.
    - splits; auto; try tauto; try lia. }
  cbv zeta in K. unfold y_once.
  destruct (i_state (y_ip y)) eqn:Es; try (apply K; [unfold ifinal; rewrite Es; intros [X|X]; discriminate|]).
  - apply yinit_term; auto.
  - apply ydf_term; auto.
  - apply ysize_term; auto.
  - apply ydata_term; auto. rewrite Es. reflexivity.
  - apply ysize_term; auto.
  - apply ydata_term; auto. rewrite Es. reflexivity.
  - apply yadj_term; auto.
  - right. cbn [obind]. do 3 eexists. split; [reflexivity|]. splits; auto; try (intros; neg); [intros _; left; exact Es|intros X; discriminate|intros X; discriminate].
  - right. cbn [obind]. change (- E_ALREADY_FAILED <? 0) with true. cbv iota. do 3 eexists. split; [reflexivity|]. unfold yti in Hi. rewrite Es in Hi. splits; try (intros X; discriminate X).
    + exact Hi.
    + intros _. right. reflexivity.
Qed.

Lemma ytm_nonneg : forall y, 0 <= ytm y.
Proof.
  intros y. unfold ytm. cbv zeta. assert (0 <= match lz_start L with Some d => store d | None => 0 end) by (destruct (lz_start L); [apply Hstore|lia]).
  pose proof (zlen_nonneg (i_left (y_ip y))). assert (0 <= (most + 1) * zlen (i_left (y_ip y))) by (apply Z.mul_nonneg_nonneg; lia).
  destruct (i_state (y_ip y)); try lia; destruct (y_reader y) as [[p|r|h]|]; try lia; pose proof (wt_nonneg L most store Hmost Hstore Hcode r (i_left (y_ip y))); lia.
Qed.

Lemma yloop_term : forall m f res y w, ytm y < Z.of_nat m -> yti f y -> (res < 0 -> ifinal (y_ip y)) -> res <= 1 -> (res = 1 -> i_left (y_ip y) = []) ->
  exists n o, (forall fuel, (n <= fuel)%nat -> y_process_loop L E fuel res y w = o) /\
    (o = Undef \/ exists r1 y1 w1, o = Ret (r1, y1, w1) /\ yti f y1 /\ (i_left (y_ip y1) = [] \/ ifinal (y_ip y1))).
Proof.
  induction m as [m IH] using (well_founded_induction lt_wf). intros f res y w Hm Hi Hf Hr H1.
  assert (Stop : i_left (y_ip y) = [] \/ res < 0 -> forall fuel, y_process_loop L E fuel res y w = Ret (res, y, w)).
  { intros X fuel. destruct fuel; cbn [y_process_loop]; destruct (i_left (y_ip y)); try reflexivity; destruct X as [X|X]; try discriminate; destruct (Z.ltb_spec res 0); try lia; reflexivity. }
  destruct (i_left (y_ip y)) eqn:El.
  { exists 0%nat, (Ret (res, y, w)). split; [intros; apply Stop; auto|]. right. exists res, y, w. auto. }
  destruct (Z_lt_dec res 0).
  { exists 0%nat, (Ret (res, y, w)). split; [intros; apply Stop; auto|]. right. exists res, y, w. auto. }
  assert (res = 0) as -> by (destruct (Z.eq_dec res 1) as [->|]; [specialize (H1 eq_refl); discriminate|lia]).
  destruct (yonce_term f y w Hi) as [A|(r1 & y1 & w1 & A & B & C & F & G & I1)].
  { exists 1%nat, Undef. split; [|auto]. intros fuel Hfu. destruct fuel; [lia|]. cbn [y_process_loop]. rewrite El. change (0 <? 0) with false. cbv iota. rewrite A. reflexivity. }
  assert (Hs : forall fuel, y_process_loop L E (S fuel) 0 y w = y_process_loop L E fuel r1 y1 w1).
  { intros fuel. cbn [y_process_loop]. rewrite El. change (0 <? 0) with false. cbv iota. rewrite A. reflexivity. }
  destruct (Z.eq_dec r1 0) as [->|].
  - specialize (G eq_refl). pose proof (ytm_nonneg y1). destruct (IH (Z.to_nat (ytm y1 + 1)) ltac:(lia) f 0 y1 w1) as (n1 & o & Hn & Ho); auto; try lia.
    exists (S n1), o. split; [|exact Ho]. intros fuel Hfu. destruct fuel; [lia|]. rewrite Hs. apply Hn. lia.
  - assert (Q : i_left (y_ip y1) = [] \/ r1 < 0) by (destruct (Z.eq_dec r1 1); [left; auto|right; lia]).
    exists 1%nat, (Ret (r1, y1, w1)). split.
    + intros fuel Hfu. destruct fuel; [lia|]. rewrite Hs.
      destruct fuel; cbn [y_process_loop]; destruct (i_left (y_ip y1)); try reflexivity; destruct Q as [X|X]; try discriminate; destruct (Z.ltb_spec r1 0); try lia; reflexivity.
    + right. exists r1, y1, w1. splits; auto. destruct Q; auto.
Qed.

Lemma yfinloop_term : forall m f y w, ytm y < Z.of_nat m -> yti f y ->
  exists n o, (forall fuel, (n <= fuel)%nat -> y_finalize_loop L E fuel y w = o) /\
  (o = Undef \/ exists r1 y1 w1, o = Ret (r1, y1, w1) /\ yti f y1).
Proof.
  induction m as [m IH] using (well_founded_induction lt_wf). intros f y w Hm Hi.
  destruct (yonce_term f y w Hi) as [A|(r1 & y1 & w1 & A & B & C & F & G & I1)].
  { exists 1%nat, Undef. split; [|auto]. intros fuel Hfu. destruct fuel; [lia|]. cbn [y_finalize_loop]. rewrite A. reflexivity. }
  destruct (Z.eq_dec r1 0) as [->|].
  - specialize (G eq_refl). pose proof (ytm_nonneg y1). destruct (IH (Z.to_nat (ytm y1 + 1)) ltac:(lia) f y1 w1) as (n & o & Hn & Ho); auto; try lia.
    exists (S n), o. split; [|exact Ho]. intros fuel Hfu. destruct fuel; [lia|]. cbn [y_finalize_loop]. rewrite A. cbn [obind]. change (0 =? 0) with true. cbv iota. apply Hn. lia.
  - exists 1%nat, (Ret (r1, y1, w1)). split; [|right; exists r1, y1, w1; auto]. intros fuel Hfu. destruct fuel; [lia|]. cbn [y_finalize_loop]. rewrite A. cbn [obind].
    destruct (Z.eqb_spec r1 0); [congruence|reflexivity].
Qed.

Lemma yti_rdone : forall f y, yti f y -> rdone (y_reader y).
Proof.
  intros f y Hi. unfold yti in Hi. destruct (i_state (y_ip y)); try exact Hi; try (destruct Hi as (_ & (r & Hr & Hs) & _); rewrite Hr; exact (lsrc_owned _ _ _ Hs)).
  destruct Hi as (-> & _). exact I.
Qed.

Lemma yti_chunk : forall f c y, yti (c ++ f) y -> i_left (y_ip y) = [] \/ ifinal (y_ip y) -> yti f (mkxip (iset_chunk (y_ip y) c) (y_reader y)).
Proof.
  intros f c [s rd] Hi Hl. unfold yti in *. cbn [y_ip y_reader] in *. cbn [iset_chunk i_state i_left i_init i_size i_compression i_rsize i_chunk_size]. unfold ifinal in Hl.
  destruct (i_state s); try exact Hi; (destruct Hl as [Hl|[Hl|Hl]]; [|discriminate|discriminate]); rewrite Hl in Hi;
    try (destruct Hi as (A & (r & G1 & G2 & G3 & G4) & G5); splits; auto; try lia; exists r; rewrite zlen_app in G4; change (zlen (@nil Z)) with 0 in G4;
         split; [auto|]; split; [auto|]; split; [auto|lia]).
  cbn [app] in Hi. change (zlen (@nil Z)) with 0 in Hi. rewrite zlen_app in Hi. destruct Hi as (A & B & C). splits; auto; lia.
Qed.

(** Ends, and leaves nothing allocated. *)
Definition clean_end (call : nat -> outcome (Z * xip D * W)) : Prop :=
  exists n o, (forall fuel, (n <= fuel)%nat -> call fuel = o) /\
    (o = Undef \/ exists v y w, o = Ret (v, y, w) /\ nothing_allocated (y_reader y)).

Lemma yfinalize_term : forall f y w, yti f y -> i_left (y_ip y) = [] \/ ifinal (y_ip y) -> clean_end (fun fuel => y_finalize L E fuel y w).
Proof.
  intros f y w Hi Hl.
  assert (Hi' : yti f (mkxip (iset_chunk (y_ip y) []) (y_reader y))) by (apply yti_chunk with (c := []); auto).
  pose proof (ytm_nonneg (mkxip (iset_chunk (y_ip y) []) (y_reader y))).
  destruct (yfinloop_term (Z.to_nat (ytm (mkxip (iset_chunk (y_ip y) []) (y_reader y)) + 1)) f (mkxip (iset_chunk (y_ip y) []) (y_reader y)) w ltac:(lia) Hi') as (n & o & Hn & [-> | (r1 & y1 & w1 & -> & B)]).
  - exists n, Undef. split; [|auto]. intros fuel Hfu. unfold y_finalize. rewrite Hn by auto. reflexivity.
  - destruct (common_safe r1 _ (i_to_size (y_ip y1)) (yti_rdone _ _ B)) as (v & rd & C1 & C2).
    exists n, (Ret (v, mkxip (y_ip y1) rd, w1)). split; [|right; do 3 eexists; split; [reflexivity|exact C2]]. intros fuel Hfu. unfold y_finalize. rewrite Hn by auto. cbn [obind]. rewrite C1. reflexivity.
Qed.

Lemma yfeed_term : forall cs y w, yti (concat cs) y -> i_left (y_ip y) = [] \/ ifinal (y_ip y) -> clean_end (fun fuel => y_feed L E fuel y w cs).
Proof.
  induction cs as [|c cs IH]; intros x w Hi Hl; cbn [y_feed]; [eapply yfinalize_term; eauto|].
  cbn [concat] in Hi. unfold y_process. cbv zeta.
  set (y := mkxip (iset_chunk (y_ip x) c) (y_reader x)).
  assert (Hi' : yti (concat cs) y) by (apply yti_chunk; auto). pose proof (ytm_nonneg y) as Hy.
  destruct (yloop_term (Z.to_nat (ytm y + 1)) (concat cs) 0 y w) as (n1 & o1 & H1 & [-> | (r1 & x1 & w1 & -> & B & C)]);
    [lia|exact Hi'|lia|lia|intros X; discriminate| |].
  { exists n1, Undef. split; [|auto]. intros fuel Hfu. rewrite H1 by auto. reflexivity. }
  destruct ((if (r1 =? 1) || (r1 =? - E_ALREADY_DONE) then 0 else r1) =? 0) eqn:Eq.
  - destruct (IH x1 w1 B C) as (n2 & o2 & H2 & N2). exists (max n1 n2), o2. split; [|exact N2]. intros fuel Hfu. rewrite H1 by lia. cbn [obind]. rewrite Eq. apply H2. lia.
  - destruct (yfinalize_term _ x1 w1 B C) as (n2 & o2 & H2 & N2).
    exists (max n1 n2), (letm (r2, x2, w2) := o2 in Ret ((if (r1 =? 1) || (r1 =? - E_ALREADY_DONE) then 0 else r1), x2, w2)). split.
    + intros fuel Hfu. rewrite H1 by lia. cbn [obind]. rewrite Eq, H2 by lia. reflexivity.
    + destruct N2 as [-> | (v & y2 & w2 & -> & N)]; [left; reflexivity|right]. cbn [obind]. do 3 eexists. split; [reflexivity|exact N].
Qed.

Variable patch_read : W -> Z -> Z * list Z * W.

Lemma yti_known : forall n f y, 0 <= n -> zlen f = n -> i_left (y_ip y) = [] \/ ifinal (y_ip y) -> yti (zeros n) y -> yti f y.
Proof.
  intros n f y Hn Hf Hl Hi. unfold yti in *. unfold ifinal in Hl.
  destruct (i_state (y_ip y)); auto; (destruct Hl as [Hl|[Hl|Hl]]; [|discriminate|discriminate]); rewrite Hl in *; unfold lsrc in *; rewrite ?zeros_len, Hf in * by lia; auto.
  destruct Hi as (A & F & G). splits; auto. destruct (i_init (y_ip y)); auto. cbn [app] in *. apply zeros_comp in G; [|lia]. left. apply zlen_0_nil. lia.
Qed.

Lemma yround_term : forall ps po y w, 0 <= po < ps -> i_left (y_ip y) = [] \/ ifinal (y_ip y) ->
  let n := Z.min (ps - po) 512 in
  (forall y' w', yti (zeros (ps - (po + n))) y' -> i_left (y_ip y') = [] \/ ifinal (y_ip y') ->
     clean_end (fun fuel => y_callbacks_loop L E fuel patch_read ps (po + n) y' w')) ->
  (forall rr buf w1, patch_read w n = (rr, buf, w1) -> exists f, yti f y /\ (rr = 0 -> zlen buf = n -> f = buf ++ zeros (ps - (po + n)))) ->
  clean_end (fun fuel => y_callbacks_loop L E fuel patch_read ps po y w).
Proof.
  intros ps po y w Hp Hl n IH Hn. destruct (patch_read w n) as [[rr buf] w1] eqn:R. destruct (Hn _ _ _ eq_refl) as (f & Hf & Hb).
  assert (Un : forall fuel, y_callbacks_loop L E (S fuel) patch_read ps po y w =
    if negb (rr =? 0) then letm (r2, y2, w2) := y_finalize L E (S fuel) y w1 in Ret (- E_IO_FAILED, y2, w2)
    else if negb (zlen buf =? n) then Undef
    else letm (res, y1, w2) := y_process L E (S fuel) y w1 buf in
         if res =? 0 then y_callbacks_loop L E fuel patch_read ps (po + n) y1 w2
         else letm (r2, y2, w3) := y_finalize L E (S fuel) y1 w2 in Ret (res, y2, w3)).
  { intros fuel. cbn [y_callbacks_loop]. destruct (Z.ltb_spec po ps); [|lia]. cbn [negb]. cbv zeta. fold n. rewrite R. reflexivity. }
  destruct (Z.eqb_spec rr 0); cbn [negb] in Un.
  2:{ destruct (yfinalize_term f y w1 Hf Hl) as (n1 & o & N & No).
      exists (S n1), (letm (r2, y2, w2) := o in Ret (- E_IO_FAILED, y2, w2)). split.
      - intros fuel Hfu. destruct fuel; [lia|]. rewrite Un, N by lia. reflexivity.
      - destruct No as [-> | (v & y2 & w2 & -> & No)]; [left; reflexivity|right]. cbn [obind]. do 3 eexists. split; [reflexivity|exact No]. }
  destruct (Z.eqb_spec (zlen buf) n) as [Hz|]; cbn [negb] in Un.
  2:{ exists 1%nat, Undef. split; [|auto]. intros fuel Hfu. destruct fuel; [lia|]. apply Un. }
  rewrite (Hb e Hz) in Hf. unfold y_process in Un. cbv zeta in Un.
  set (x := mkxip (iset_chunk (y_ip y) buf) (y_reader y)) in *.
  assert (Hi' : yti (zeros (ps - (po + n))) x) by (apply yti_chunk; auto). pose proof (ytm_nonneg x) as Hy.
  destruct (yloop_term (Z.to_nat (ytm x + 1)) _ 0 x w1 ltac:(lia) Hi') as (n1 & o1 & H1 & [-> | (r1 & x1 & w2 & -> & B & C)]);
    [lia|lia|intros X; discriminate| |].
  { exists (S n1), Undef. split; [|auto]. intros fuel Hfu. destruct fuel; [lia|]. rewrite Un, H1 by lia. reflexivity. }
  destruct ((if (r1 =? 1) || (r1 =? - E_ALREADY_DONE) then 0 else r1) =? 0) eqn:Eq.
  - destruct (IH x1 w2 B C) as (n2 & o2 & H2 & N2). exists (S (max n1 n2)), o2. split; [|exact N2]. intros fuel Hfu. destruct fuel; [lia|]. rewrite Un, H1 by lia. cbn [obind]. rewrite Eq. apply H2. lia.
  - destruct (yfinalize_term _ x1 w2 B C) as (n2 & o2 & H2 & N2).
    exists (S (max n1 n2)), (letm (r2, x2, w3) := o2 in Ret ((if (r1 =? 1) || (r1 =? - E_ALREADY_DONE) then 0 else r1), x2, w3)). split.
    + intros fuel Hfu. destruct fuel; [lia|]. rewrite Un, H1 by lia. cbn [obind]. rewrite Eq, H2 by lia. reflexivity.
    + destruct N2 as [-> | (v & y2 & w3 & -> & N2)]; [left; reflexivity|right]. cbn [obind]. do 3 eexists. split; [reflexivity|exact N2].
Qed.

Lemma ycallbacks_term : forall k ps po y w, 0 <= po <= ps -> ps - po <= Z.of_nat k -> yti (zeros (ps - po)) y -> i_left (y_ip y) = [] \/ ifinal (y_ip y) ->
  clean_end (fun fuel => y_callbacks_loop L E fuel patch_read ps po y w).
Proof.
  induction k; intros ps po y w Hp Hk Hi Hl; (destruct (Z.eq_dec po ps) as [->|];
    [destruct (yfinalize_term _ y w Hi Hl) as (n1 & o & N & No); exists n1, o; split; [|exact No];
     intros fuel Hf; rewrite <- (N fuel Hf); destruct fuel; cbn [y_callbacks_loop]; (destruct (Z.ltb_spec ps ps); [lia|reflexivity])|]).
  - lia.
  - apply yround_term; auto; [lia|intros; apply IHk; auto; lia|]. intros rr buf w1 R.
    destruct (Z.eq_dec (zlen buf) (Z.min (ps - po) 512)) as [Q|Q].
    + exists (buf ++ zeros (ps - (po + Z.min (ps - po) 512))). split; [|auto]. apply (yti_known (ps - po)); auto; try lia. rewrite zlen_app, zeros_len, Q by lia. lia.
    + exists (zeros (ps - po)). split; [exact Hi|]. intros; contradiction.
Qed.

Lemma ip_reads_term : forall junk ps w, 0 < ps < 2 ^ word_bits ->
  (forall buf w1, patch_read w (Z.min ps 512) = (0, buf, w1) -> announced_comp buf = 1) ->
  clean_end (fun fuel => y_apply_patch_in_place_callbacks L E fuel junk patch_read ps w).
Proof.
  intros junk ps w Hps Ha.
  assert (K : clean_end (fun fuel => y_callbacks_loop L E fuel patch_read ps 0 (xip_init (iset_chunk junk []) ps) w)).
  2:{ destruct K as (n & o & N & No). exists n, o. split; [|exact No]. intros fuel Hf. rewrite <- (N fuel Hf).
      unfold y_apply_patch_in_place_callbacks. destruct fuel; cbn [y_callbacks_loop]; (destruct (Z.ltb_spec 0 ps); [|lia]); [reflexivity|]. cbn [negb]. cbv zeta.
      destruct (patch_read w _) as [[rr buf] w1]. reflexivity. }
  apply yround_term; [lia|left; reflexivity| |].
  - intros x' w' Hi Hl. apply (ycallbacks_term (Z.to_nat ps)); auto; lia.
  - rewrite Z.sub_0_r. intros rr buf w1 R.
    destruct (Z.eq_dec rr 0) as [->|]; [destruct (Z.eq_dec (zlen buf) (Z.min ps 512)) as [Q|Q]|].
    + exists (buf ++ zeros (ps - (0 + Z.min ps 512))). split; [|auto]. unfold yti. cbn [xip_init ip_init iset_chunk y_ip y_reader i_state i_left i_init].
      change (zlen (@nil Z)) with 0. rewrite zlen_app, Q, zeros_len by lia. splits; auto; [lia|]. right. specialize (Ha _ _ R). cbn [app].
      destruct buf; [change (zlen (@nil Z)) with 0 in Q; lia|exact Ha].
    + exists []. split; [|intros; contradiction]. unfold yti. cbn. change (zlen (@nil Z)) with 0. splits; auto. lia.
    + exists []. split; [|intros; lia]. unfold yti. cbn. change (zlen (@nil Z)) with 0. splits; auto. lia.
Qed.

End Term.

Lemma clean_ends : forall (D W : Type) (call : nat -> outcome (Z * xip D * W)), clean_end call ->
  exists n, forall fuel, (n <= fuel)%nat -> call fuel <> OutOfFuel /\ forall v y w1, call fuel = Ret (v, y, w1) -> nothing_allocated (y_reader y).
Proof.
  intros D W call (n & o & A & B). exists n. intros fuel Hf. rewrite A by auto. destruct B as [-> | (v & y & w & -> & B)]; (split; [discriminate|]); intros v' y' w' Q; [discriminate|].
  injection Q as <- <- <-. exact B.
Qed.

Theorem ip_lzma_clean : forall (wb : WordBits), 32 <= word_bits ->
  forall (D : Type) (L : lzma_lib D) (W : Type) (E : ip_env W), lib_ok L -> bounded_output L -> mem_codes (fun r => r <= 0 /\ r <> -11) E ->
  forall junk ps w chunks, announced_comp (concat chunks) = 1 -> zlen (concat chunks) < 2 ^ word_bits ->
  exists n, forall fuel, (n <= fuel)%nat -> y_apply L E fuel junk ps w chunks <> OutOfFuel /\
    forall v y w1, y_apply L E fuel junk ps w chunks = Ret (v, y, w1) -> nothing_allocated (y_reader y).
Proof.
  intros wb Hw D L W E Hl (most & store & H1 & H2 & H3) Hc junk ps w chunks Ha Hz.
  apply (clean_ends D W (fun fuel => y_apply L E fuel junk ps w chunks)).
  assert (J : forall fuel, y_apply L E fuel junk ps w chunks = y_feed L E fuel (xip_init (iset_chunk junk []) ps) w chunks).
  { intros fuel. unfold y_apply. destruct chunks; [discriminate|reflexivity]. }
  destruct (yfeed_term Hw L Hl most store H1 H2 H3 E Hc chunks (xip_init (iset_chunk junk []) ps) w) as (n & o & A & B).
  - unfold yti. cbn. change (zlen (@nil Z)) with 0. splits; auto; lia.
  - left. reflexivity.
  - exists n, o. split; [|exact B]. intros fuel Hf. rewrite J. auto.
Qed.

Theorem ip_lzma_reads_clean : forall (wb : WordBits), 32 <= word_bits ->
  forall (D : Type) (L : lzma_lib D) (W : Type) (E : ip_env W), lib_ok L -> bounded_output L -> mem_codes (fun r => r <= 0 /\ r <> -11) E ->
  forall (patch_read : W -> Z -> Z * list Z * W) junk ps w, 0 < ps < 2 ^ word_bits ->
  (forall buf w1, patch_read w (Z.min ps 512) = (0, buf, w1) -> announced_comp buf = 1) ->
  exists n, forall fuel, (n <= fuel)%nat -> y_apply_patch_in_place_callbacks L E fuel junk patch_read ps w <> OutOfFuel /\
    forall v y w1, y_apply_patch_in_place_callbacks L E fuel junk patch_read ps w = Ret (v, y, w1) -> nothing_allocated (y_reader y).
Proof.
  intros wb Hw D L W E Hl (most & store & H1 & H2 & H3) Hc pr junk ps w Hp Ha.
  apply (clean_ends D W (fun fuel => y_apply_patch_in_place_callbacks L E fuel junk pr ps w)).
  exact (ip_reads_term Hw L Hl most store H1 H2 H3 E Hc pr junk ps w Hp Ha).
Qed.
