(** LZMA patches of any content, with any callbacks: the calls end if the library
    does not make output out of nothing. *)

From Coq Require Import ZArith List Bool Lia ZifyBool ZifyNat ZifyN.
From Verif Require Import Prelude Lib Heatshrink HsProofs CReader ReaderProofs SizeProofs CSeq Spec SeqSim SeqRun SeqTerm SeqMeaning SeqApply SeqSpec SeqInv SeqCount CallbackSpec CallbackProofs CLzma CSeqLzma LzmaSpec LzmaProofs LzmaSafe.
Import ListNotations.
Open Scope Z_scope.

Section Term.
Context {WBits : WordBits}.
Hypothesis Hword : 32 <= word_bits.
Context {D : Type} (L : lzma_lib D).
Hypothesis Hlib : lib_ok L.
Variable most : Z.
Variable store : D -> Z.
Hypothesis Hmost : 0 <= most.
Hypothesis Hstore : forall d, 0 <= store d.
Hypothesis Hcode : forall d input n ret k out d', input <> [] -> 0 < n -> lz_code L d input n = (ret, k, out, d') ->
    zlen out + store d' <= store d + most * k.

(** What may still come out. *)
Definition wt (r : lzma_reader D) (left : list Z) : Z :=
  zlen (held (l_out r)) + store (l_dec r) + most * (zlen (held (l_in r)) + zlen left).

Lemma wt_nonneg : forall r l, 0 <= wt r l.
Proof.
  intros r l. unfold wt. pose proof (Hstore (l_dec r)). pose proof (zlen_nonneg (held (l_out r))). pose proof (zlen_nonneg (held (l_in r))). pose proof (zlen_nonneg l).
  assert (0 <= most * (zlen (held (l_in r)) + zlen l)) by (apply Z.mul_nonneg_nonneg; lia). lia.
Qed.

Lemma loop_wt : forall K left r n res out r1 l1, 0 < n -> zlen (held (l_out r)) < n -> lzma_loop L K r left n = Ret (res, out, r1, l1) -> 0 <= res ->
  zlen out + wt r1 l1 <= wt r left.
Proof.
  induction K; intros left r n res out r1 l1 Hn Hs H Hres; cbn [lzma_loop] in H; [discriminate|].
  apply obind_ret in H. destruct H as ([re r2] & A & H).
  destruct (Z.eqb_spec re 0) as [->|Hne]; cbn [negb] in H.
  2:{ injection H as <- <- <- <-. exfalso. destruct (held (l_in r)); [injection A as <- <-; congruence|].
      apply obind_ret in A. destruct A as ([re3 r3] & A & B). destruct (Z.eqb_spec re3 0) as [->|Hne3]; cbn [negb] in B.
      - unfold run_decoder in B. destruct (lz_code _ _ _ _) as [[[ret k] o] d]. destruct (_ || _); [discriminate|]. destruct ret; inv B; try congruence. unfold E_LZMA_DECODE in Hres. lia.
      - inv B. unfold prepare_output_buffer in A. destruct (h_alloc _ _) as [[b|] h1]; [|inv A; unfold E_OUT_OF_MEMORY in Hres; lia].
        destruct (_ <? _); [discriminate|]. apply obind_ret in A. destruct A as (h2 & _ & A). inv A. congruence. }
  assert (W1 : wt r2 left <= wt r left).
  { destruct (held (l_in r)) as [|x inp] eqn:Ei; [inv A; lia|].
    apply obind_ret in A. destruct A as ([re3 r3] & A & B). destruct (Z.eqb_spec re3 0) as [->|Hne3]; cbn [negb] in B; [|inv B; congruence].
    assert (A' : l_dec r3 = l_dec r /\ l_in r3 = l_in r /\ exists b, l_out r3 = Some (b, held (l_out r))).
    { unfold prepare_output_buffer in A. destruct (h_alloc _ _) as [[b|] h1]; [|inv A].
      destruct (_ <? _); [discriminate|]. apply obind_ret in A. destruct A as (h2 & _ & A). inv A. cbn. splits; auto. eauto. }
    destruct A' as (A1 & A2 & b & A3). unfold run_decoder in B. rewrite A1, A2, A3, Ei in B. cbn [held] in B.
    destruct (lz_code L (l_dec r) (x :: inp) (n - zlen (held (l_out r)))) as [[[ret k] o] d] eqn:Ec.
    assert (Hroom : 0 < n - zlen (held (l_out r))) by lia. assert (Hnn : x :: inp <> []) by discriminate.
    pose proof (Hcode _ _ _ _ _ _ _ Hnn Hroom Ec) as HC. destruct (Hlib _ _ _ _ _ _ _ Hnn Hroom Ec) as (K1 & K2 & K3).
    destruct (_ || _); [discriminate|].
    assert (Hw : wt (mklz d (option_map (fun bl => (fst bl, zdrop k (snd bl))) (l_in r)) (Some (b, held (l_out r) ++ o)) (l_heap r3)) left <= wt r left).
    { unfold wt. cbn [l_dec l_in l_out held]. rewrite (held_map (zdrop k)) by (unfold zdrop; apply skipn_nil). rewrite Ei. rewrite zlen_app, zlen_zdrop by lia.
      replace (Z.max 0 (zlen (x :: inp) - k)) with (zlen (x :: inp) - k) by lia.
      replace (most * (zlen (x :: inp) - k + zlen left)) with (most * (zlen (x :: inp) + zlen left) - most * k) by (rewrite <- Z.mul_sub_distr_l; f_equal; lia). lia. }
    destruct ret; inv B; exact Hw. }
  destruct (get_decompressed_data r2 n) as [[o r3]|] eqn:G.
  - inv H. apply get_some in G; [|auto]. destruct G as (G1 & G2 & G3 & G4 & G5 & G6). revert W1. unfold wt. rewrite G3, G4, G5. rewrite G2 at 1. rewrite zlen_zdrop, zlen_ztake by lia. lia.
  - apply get_none in G; [|auto]. apply obind_ret in H. destruct H as ([[re3 r3] l3] & I1 & H). unfold prepare_input_buffer in I1. destruct left as [|y left].
    + inv I1. change (negb (1 =? 0)) with true in H. cbv iota in H. inv H. change (zlen (@nil Z)) with 0. lia.
    + destruct (h_alloc _ _) as [[b|] h1]; [|inv I1; change (negb (- E_OUT_OF_MEMORY =? 0)) with true in H; cbv iota in H; inv H; unfold E_OUT_OF_MEMORY in Hres; lia].
      destruct (_ <? _); [discriminate|]. apply obind_ret in I1. destruct I1 as (h2 & _ & I1). inv I1. change (negb (0 =? 0)) with false in H. cbv iota in H.
      apply IHK in H; auto. assert (X : wt (mklz (l_dec r2) (Some (b, held (l_in r2) ++ y :: left)) (l_out r2) h2) [] = wt r2 (y :: left)).
      { unfold wt. cbn [l_dec l_in l_out held]. rewrite zlen_app. change (zlen (@nil Z)) with 0. do 2 f_equal. lia. }
      lia.
Qed.

Lemma dec_wt : forall r left n res out r1 l1, 0 < n -> lzma_decompress L r left n = Ret (res, out, r1, l1) -> 0 <= res ->
  zlen out + wt r1 l1 <= wt r left.
Proof.
  intros r left n res out r1 l1 Hn H Hres. unfold lzma_decompress in H. destruct (get_decompressed_data r n) as [[o r2]|] eqn:G.
  - inv H. apply get_some in G; [|auto]. destruct G as (G1 & G2 & G3 & G4 & G5 & G6). unfold wt. rewrite G3, G4, G5. rewrite G2 at 1. rewrite zlen_zdrop, zlen_ztake by lia. lia.
  - apply get_none in G; [|auto]. eapply loop_wt; eauto.
Qed.

Lemma dec_more : forall r left n out r1 l1, lzma_decompress L r left n = Ret (1, out, r1, l1) -> l1 = [].
Proof.
  intros r left n out r1 l1 H. unfold lzma_decompress in H. destruct (get_decompressed_data r n) as [[o r2]|]; [inv H|].
  revert H. generalize 3%nat as K. intros K H. revert r left H.
  induction K as [|K IH]; intros r left H; cbn [lzma_loop] in H; [discriminate|].
  apply obind_ret in H. destruct H as ([re r2] & A & H).
  destruct (Z.eqb_spec re 0) as [->|Hne]; cbn [negb] in H.
  - destruct (get_decompressed_data r2 n) as [[o r3]|]; [inv H|]. apply obind_ret in H. destruct H as ([[re3 r3] l3] & I1 & H).
    destruct (Z.eqb_spec re3 0) as [->|Hne3]; cbn [negb] in H; [eauto|]. inv H. unfold prepare_input_buffer in I1. destruct left; [inv I1; reflexivity|].
    destruct (h_alloc _ _) as [[b|] h1]; [|inv I1]. destruct (_ <? _); [discriminate|]. apply obind_ret in I1. destruct I1 as (h2 & _ & I1). inv I1.
  - inv H. exfalso. destruct (held (l_in r)); [inv A|]. apply obind_ret in A. destruct A as ([re3 r3] & A & B). destruct (Z.eqb_spec re3 0) as [->|Hne3]; cbn [negb] in B.
    + unfold run_decoder in B. destruct (lz_code _ _ _ _) as [[[ret k] o] d]. destruct (_ || _); [discriminate|]. destruct ret; inv B.
    + inv B. unfold prepare_output_buffer in A. destruct (h_alloc _ _) as [[b|] h1]; [|inv A].
      destruct (_ <? _); [discriminate|]. apply obind_ret in A. destruct A as (h2 & _ & A). inv A.
Qed.

Lemma unpack_wt : forall K f z r left byte, lsrc f r left -> zok z -> (zneed z <= K)%nat ->
  exists res v z1 r1 l1, xunpack_size_loop L K z (XLzma r) left byte 1 = Ret (res, v, z1, XLzma r1, l1) /\
    res <= 1 /\ zok z1 /\ lsrc f r1 l1 /\ (0 <= res -> wt r1 l1 <= wt r left) /\ (res = 0 -> wt r1 l1 < wt r left) /\ (res = 1 -> l1 = []).
Proof.
  induction K; intros f z r left byte Hs Hz HK.
  { unfold zneed in HK; destruct (z_cons z); lia. }
  cbn [xunpack_size_loop xdecompress].
  destruct (lsrc_dec Hword L Hlib f r left 1 Hs) as (res & out & r1 & l1 & E & P1 & P2 & P3); [lia|].
  assert (Hw := dec_wt r left 1 res out r1 l1 ltac:(lia) E). pose proof (zlen_nonneg out).
  rewrite E. cbn [obind]. destruct (Z.eqb_spec res 0); cbn [negb].
  2:{ exists res, 0, z, r1, l1. splits; auto; try lia. intros ->. eapply dec_more; eauto. }
  subst res. cbv zeta. specialize (P3 eq_refl). specialize (Hw ltac:(lia)). destruct out as [|b out]; [discriminate|].
  assert (out = []) as -> by (apply zlen_0_nil; rewrite zlen_cons in P3; lia).
  destruct (size_byte_spec z b Hz) as [(_ & _ & S)|(z1 & S & Ec & Hz1 & Hnd & Hv & _)]; rewrite S; cbn [obind].
  { do 5 eexists. split; [reflexivity|]. splits; auto; neg. }
  change (zlen [b]) with 1 in Hw.
  destruct (Z.land b 128 =? 0).
  { do 5 eexists. split; [reflexivity|]. splits; auto; try lia. intros X; discriminate. }
  change (zlen [b]) with 1. destruct (IHK f z1 r1 l1 (Some b)) as (res & v & z2 & r2 & l2 & A1 & A2 & A3 & A4 & A5 & A6 & A7); auto; [lia|].
  exists res, v, z2, r2, l2. splits; auto; lia.
Qed.

Context {W : Type} (E : seq_env W).

Definition tm (x : xap D) : Z :=
  let s := x_ap x in
  match a_state s with
  | SInit => 2 * (match lz_start L with Some d => store d | None => 0 end + (most + 1) * zlen (a_left s))
  | SDone | SFailed => 0
  | _ => match x_reader x with
         | Some (XLzma r) => 2 * wt r (a_left s) + match a_state s with SDiffData | SExtraData => 1 | _ => 0 end
         | _ => 0
         end
  end.

Definition xti (f : list Z) (x : xap D) : Prop :=
  let s := x_ap x in
  match a_state s with
  | SInit =>
      x_reader x = None /\ zlen (a_left s) + zlen f < 2 ^ word_bits /\
      if a_to_init s then zok (a_size s) /\ a_compression s = 1
      else a_left s ++ f = [] \/ announced_comp (a_left s ++ f) = 1
  | SDone | SFailed => rdone (x_reader x)
  | _ => zok (a_rsize s) /\
      (exists r, x_reader x = Some (XLzma r) /\ lsrc f r (a_left s)) /\
      (match a_state s with SDiffData | SExtraData => 0 <= a_chunk_size s | _ => True end)
  end.

Definition tfine (f : list Z) (x : xap D) (out : outcome (Z * xap D * W)) : Prop :=
  out = Undef \/
  exists res x1 w1, out = Ret (res, x1, w1) /\ res <= 1 /\ rdone (x_reader x1) /\ (0 <= res -> xti f x1) /\
    (res = 0 -> tm x1 < tm x) /\ (res = 1 -> a_left (x_ap x1) = []).

Lemma xinit_term : forall f x, a_state (x_ap x) = SInit -> xti f x ->
  exists res x1, x_init L x = Ret (res, x1) /\ res <= 1 /\ rdone (x_reader x1) /\ (0 <= res -> xti f x1) /\ (res = 0 -> tm x1 < tm x) /\ (res = 1 -> a_left (x_ap x1) = []).
Proof.
  intros f x Es Hi. unfold xti in Hi. rewrite Es in Hi. destruct Hi as (Hr & Hw & Hi). unfold x_init.
  assert (Hm : forall n m, n < m -> most * n <= most * m) by (intros n m X; apply Z.mul_le_mono_nonneg_l; lia).
  assert (H0 : 0 <= match lz_start L with Some d => store d | None => 0 end) by (destruct (lz_start L); [apply Hstore|lia]).
  destruct (a_to_init (x_ap x)) eqn:Et.
  - destruct Hi as [Hz Hc]. unfold x_init_to_size. cbv zeta.
    destruct (uhs_app (a_left (x_ap x)) (a_size (x_ap x)) f Hz)
      as [(z1 & P & Q & R)|[(v & z1 & l1 & used & P & Q & R & S)|(z1 & l1 & P & R)]]; rewrite P; cbn [obind]; cbv zeta.
    + change (negb (1 =? 0)) with true. cbv iota. do 2 eexists. split; [reflexivity|]. cbn [x_reader]. rewrite Hr. splits; try lia; [exact I| |reflexivity].
      intros _. unfold xti. cbn. rewrite Es, Et. pose proof (zlen_nonneg (a_left (x_ap x))). change (zlen (@nil Z)) with 0. splits; auto. lia.
    + change (negb (0 =? 0)) with false. cbv iota. cbn [a_compression set_header]. rewrite Hc. unfold xreader_init. change (1 =? 1) with true. cbv iota.
      destruct (lz_start L) as [d|] eqn:Ed.
      2:{ do 2 eexists. split; [reflexivity|]. cbn [x_reader]. rewrite Hr. splits; try neg. exact I. }
      assert (Hl : lsrc f (mklz d None None (mkheap [] 0)) l1).
      { split; [apply owned_start|]. split; [apply Forall_nil|]. unfold ins. cbn. change (zlen (@nil Z)) with 0. rewrite R, zlen_app in Hw. pose proof (zlen_nonneg used). lia. }
      assert (Hu : zlen l1 < zlen (a_left (x_ap x))).
      { rewrite R, zlen_app. destruct used as [|u used]; [|rewrite zlen_cons; pose proof (zlen_nonneg used); lia]. exfalso. cbn [app] in R. rewrite R in P.
        clear - P. assert (X : forall l z e v z1 l1, unpack_header_size l z = Ret (e, v, z1, l1) -> e = 0 -> zlen l1 < zlen l).
        { induction l as [|b l IH]; intros z e v' z1' l1' H He; cbn [unpack_header_size] in H; [injection H as <- _ _ _; discriminate|]. rewrite zlen_cons.
          apply obind_ret in H. destruct H as ([z2|] & _ & H); [|injection H as <- _ _ _; discriminate]. destruct (_ =? 0); [injection H as _ _ _ <-; lia|]. apply IH in H; auto. lia. }
        apply X in P; [lia|reflexivity]. }
      destruct (Z.ltb_spec v 0); [lia|].
      do 2 eexists. split; [reflexivity|]. cbn [x_reader]. splits; [lia|exact (lsrc_owned _ _ _ Hl)| | |intros X; discriminate].
      * intros _. unfold xti. cbn. destruct (0 <? v); [|exact (lsrc_owned _ _ _ Hl)]. splits; auto; [intros X; discriminate|eauto].
      * intros _. pose proof (zlen_nonneg l1). unfold tm. cbn [x_ap x_reader a_state a_left set_st set_to_size set_size_left set_reader set_header]. rewrite Es, Ed.
        assert (0 <= most * zlen l1) by (apply Z.mul_nonneg_nonneg; lia). pose proof (Hm _ _ Hu). pose proof (Hstore d).
        rewrite Z.mul_add_distr_r. destruct (0 <? v); [|lia].
        unfold wt. cbn [l_dec l_in l_out held]. change (zlen (@nil Z)) with 0. rewrite Z.add_0_l. lia.
    + change (negb (- E_CORRUPT_PATCH_OVERFLOW =? 0)) with true. cbv iota. do 2 eexists. split; [reflexivity|]. cbn [x_reader]. rewrite Hr. splits; try neg. exact I.
  - unfold process_init_fixed_header. destruct (a_left (x_ap x)) as [|b l] eqn:El.
    { cbn [obind]. do 2 eexists. split; [reflexivity|]. cbn [x_reader]. rewrite Hr. splits; try neg. exact I. }
    cbv zeta. destruct (negb _); cbn [obind].
    { do 2 eexists. split; [reflexivity|]. cbn [x_reader]. rewrite Hr. splits; try neg. exact I. }
    do 2 eexists. split; [reflexivity|]. cbn [x_reader]. rewrite Hr. splits; [lia|exact I| | |intros X; discriminate].
    + intros _. unfold xti. cbn. rewrite Es. rewrite zlen_cons in Hw. splits; auto; try lia; [intros X; discriminate|].
      destruct Hi as [Hi|Hi]; [discriminate|]. exact Hi.
    + intros _. unfold tm. cbn [x_ap x_reader a_state a_left set_header]. rewrite Es, El. pose proof (zlen_nonneg l). rewrite zlen_cons, !Z.mul_add_distr_r, Z.mul_add_distr_l. lia.
Qed.

Lemma xdata_term : forall f x w next, data_next (a_state (x_ap x)) = Some next -> xti f x -> tfine f x (x_data L E x w next).
Proof.
  intros f x w next Hn Hi. unfold xti in Hi. cbv zeta in Hi.
  assert (Hi' : zok (a_rsize (x_ap x)) /\
      (exists r, x_reader x = Some (XLzma r) /\ lsrc f r (a_left (x_ap x))) /\ 0 <= a_chunk_size (x_ap x)).
  { destruct (a_state (x_ap x)); try discriminate Hn; auto. }
  clear Hi. destruct Hi' as (Hz & (r & Hr & Hs) & Hc).
  destruct (data_next_cases _ _ Hn) as (Hx & Hnd & Hni).
  assert (Htm : tm x = 2 * wt r (a_left (x_ap x)) + 1).
  { unfold tm. cbv zeta. rewrite Hr. destruct (a_state (x_ap x)); try discriminate Hn; reflexivity. }
  unfold x_data. cbv zeta. destruct (Z.eqb_spec (Z.min 128 (a_chunk_size (x_ap x))) 0).
  { right. do 3 eexists. split; [reflexivity|]. cbn [x_reader]. rewrite Hr. split; [lia|]. split; [exact (lsrc_owned _ _ _ Hs)|]. splits; [| |intros X; discriminate].
    - intros _. unfold xti. cbn. destruct Hx; subst next; splits; auto; lia || eauto.
    - intros _. rewrite Htm. unfold tm. cbn [x_ap x_reader a_state a_left set_st]. destruct Hx; subst next; lia. }
  rewrite Hr. cbn [xdecompress].
  destruct (lsrc_dec Hword L Hlib f r (a_left (x_ap x)) (Z.min 128 (a_chunk_size (x_ap x))) Hs) as (res & out & r1 & l1 & Ed & P1 & P2 & P3); [lia|].
  assert (Hpos : 0 < Z.min 128 (a_chunk_size (x_ap x))) by lia. assert (Hw := dec_wt _ _ _ _ _ _ _ Hpos Ed). pose proof (zlen_nonneg out).
  rewrite Ed. cbn [obind]. assert (Ho := lsrc_owned _ _ _ P2).
  assert (Hok : forall s1, a_state s1 = a_state (x_ap x) -> a_rsize s1 = a_rsize (x_ap x) ->
     a_left s1 = l1 -> 0 <= a_chunk_size s1 -> xti f (mkxap s1 (Some (XLzma r1)))).
  { intros s1 K1 K4 K6 K7. unfold xti. cbn [x_ap x_reader].
    rewrite K1, K4, K6. destruct (a_state (x_ap x)); try discriminate Hn; splits; auto; try lia; eauto. }
  destruct (Z.eqb_spec res 0) as [->|Hne]; cbn [negb].
  2:{ right. do 3 eexists. split; [reflexivity|]. split; [lia|]. split; [exact Ho|]. splits; [|lia|]. { intros X. apply Hok; auto. } intros ->. eapply dec_more; eauto. }
  specialize (P3 eq_refl). specialize (Hw ltac:(lia)).
  assert (Hlt : forall s1, a_state s1 = a_state (x_ap x) -> a_left s1 = l1 -> tm (mkxap s1 (Some (XLzma r1))) < tm x).
  { intros s1 K1 K2. rewrite Htm. unfold tm. cbn [x_ap x_reader]. rewrite K1, K2. destruct (a_state (x_ap x)); try discriminate Hn; lia. }
  destruct Hx as [-> | ->].
  - change (a_from_offset (set_size_left (x_ap x) (a_rsize (x_ap x)) l1)) with (a_from_offset (x_ap x)).
    destruct (from_read E w (zlen out)) as [[rr from] w2] eqn:Er. destruct (Z.eqb_spec rr 0); cbn [negb obind].
    2:{ right. do 3 eexists. split; [reflexivity|]. split; [neg|]. split; [exact Ho|]. splits; neg. }
    destruct (add_data out from) as [dd| |] eqn:Ea; cbn [obind]; [|left; reflexivity|].
    2:{ exfalso. revert Ea. clear. revert from. induction out as [|b q IH0]; intros from; destruct from as [|c0 from]; cbn [add_data]; try discriminate. destruct (add_data q from) eqn:Eq; cbn [obind]; try discriminate. intros _. eapply IH0; eauto. }
    right. destruct (to_write E w2 dd) as [rw w3] eqn:Ew. destruct (Z.eqb_spec rw 0); cbn [negb].
    2:{ do 3 eexists. split; [reflexivity|]. split; [neg|]. split; [exact Ho|]. splits; neg. }
    do 3 eexists. split; [reflexivity|]. split; [lia|]. split; [exact Ho|]. splits; [intros _|intros _|intros X; discriminate].
    + apply Hok; auto; cbn; try lia. apply wrap_range; auto.
    + apply Hlt; reflexivity.
  - cbn [obind]. right.
    destruct (to_write E w out) as [rw w3] eqn:Ew. destruct (Z.eqb_spec rw 0); cbn [negb].
    2:{ do 3 eexists. split; [reflexivity|]. split; [neg|]. split; [exact Ho|]. splits; neg. }
    do 3 eexists. split; [reflexivity|]. split; [lia|]. split; [exact Ho|]. splits; [intros _|intros _|intros X; discriminate].
    + apply Hok; auto; cbn; try lia. apply wrap_range; auto.
    + apply Hlt; reflexivity.
Qed.

Lemma unpack_wt' : forall f z r left, lsrc f r left -> zok z ->
  exists res v z1 r1 l1, xunpack_size L z (XLzma r) left = Ret (res, v, z1, XLzma r1, l1) /\
    res <= 1 /\ zok z1 /\ lsrc f r1 l1 /\ (res = 0 -> wt r1 l1 < wt r left) /\ (res = 1 -> l1 = []).
Proof.
  intros f z r left Hs Hz. unfold xunpack_size. pose proof (zneed_le z Hz).
  destruct (unpack_wt 6 f z r left None Hs Hz) as (res & v & z1 & r1 & l1 & A & B & C & F & _ & G & G'); [lia|]. exists res, v, z1, r1, l1. splits; auto.
Qed.

Lemma xsize_term : forall f x next, next = SDiffData \/ next = SExtraData ->
  a_state (x_ap x) = SDiffSize \/ a_state (x_ap x) = SExtraSize -> xti f x ->
  exists res x1, x_size L x next = Ret (res, x1) /\ res <= 1 /\ rdone (x_reader x1) /\ (0 <= res -> xti f x1) /\ (res = 0 -> tm x1 < tm x) /\ (res = 1 -> a_left (x_ap x1) = []).
Proof.
  intros f x next Hn Hst Hi. unfold xti in Hi. cbv zeta in Hi.
  assert (Hi' : zok (a_rsize (x_ap x)) /\
      (exists r, x_reader x = Some (XLzma r) /\ lsrc f r (a_left (x_ap x)))) by (destruct Hst as [X|X]; rewrite X in Hi; tauto).
  clear Hi. destruct Hi' as (Hz & (r & Hr & Hs)).
  assert (Htm : tm x = 2 * wt r (a_left (x_ap x))) by (unfold tm; cbv zeta; rewrite Hr; destruct Hst as [X|X]; rewrite X; lia).
  unfold x_size, xcommon_process_size. rewrite Hr. cbv zeta.
  destruct (unpack_wt' f _ _ _ Hs Hz) as (res & v & z1 & r1 & l1 & -> & P1 & P2 & P3 & P4 & P5). cbn [obind]. assert (Ho := lsrc_owned _ _ _ P3).
  destruct (Z.eqb_spec res 0); cbn [negb obind].
  - subst res. destruct (_ <? _); cbn [obind].
    + do 2 eexists. split; [reflexivity|]. split; [neg|]. split; [exact Ho|]. splits; neg.
    + do 2 eexists. split; [reflexivity|]. split; [lia|]. split; [exact Ho|]. splits; [intros _|intros _|intros X; discriminate].
      * unfold xti. cbn. pose proof (wrap_range v Hword). destruct Hn as [-> | ->]; splits; auto; try lia; eauto.
      * specialize (P4 eq_refl). rewrite Htm. unfold tm. cbn [x_ap x_reader a_state a_left set_st set_chunk_size set_size_left set_reader]. destruct Hn as [-> | ->]; lia.
  - destruct (Z.eqb_spec res 0); [congruence|]. cbn [negb]. do 2 eexists. split; [reflexivity|]. split; [lia|]. split; [exact Ho|]. splits; [|lia|exact P5]. intros X.
    unfold xti. cbn. destruct Hst as [Y|Y]; rewrite Y; splits; auto; try lia; eauto.
Qed.

Lemma xonce_term : forall f x w, xti f x ->
  x_once L E x w = Undef \/
  exists res x1 w1, x_once L E x w = Ret (res, x1, w1) /\ xti f x1 /\ res <= 1 /\ (res < 0 -> final (x_ap x1)) /\ (res = 0 -> tm x1 < tm x) /\ (res = 1 -> a_left (x_ap x1) = []).
Proof.
  intros f x w Hi.
  assert (K : forall out, ~ final (x_ap x) -> tfine f x out ->
    let o := (letm (res, x1, w1) := out in
      match a_state (x_ap x) with SDone => Ret (res, x1, w1) | _ => Ret (res, if res <? 0 then mkxap (set_st (x_ap x1) SFailed) (x_reader x1) else x1, w1) end) in
    o = Undef \/ exists res x1 w1, o = Ret (res, x1, w1) /\
      xti f x1 /\ res <= 1 /\ (res < 0 -> final (x_ap x1)) /\ (res = 0 -> tm x1 < tm x) /\ (res = 1 -> a_left (x_ap x1) = [])).
  { intros out N1 [-> | (res & x1 & w1 & -> & C0 & C1 & C2 & C3 & C4)] o; [left; reflexivity|]. right. subst o. cbn [obind].
    exists res, (if res <? 0 then mkxap (set_st (x_ap x1) SFailed) (x_reader x1) else x1), w1. unfold final in *.
    split; [destruct (a_state (x_ap x)); tauto|]. destruct (Z.ltb_spec res 0).
    - splits; auto; try lia; tauto.
    - splits; auto; try tauto; try lia. }
  cbv zeta in K. unfold x_once.
  destruct (a_state (x_ap x)) eqn:Es; try (apply K; [unfold final; rewrite Es; intros [X|X]; discriminate|]).
  - right. destruct (xinit_term f x Es Hi) as (res & x1 & -> & A). cbn [obind]. do 3 eexists. split; [reflexivity|]. exact A.
  - right. unfold xti in Hi. rewrite Es in Hi. destruct Hi as (Hz & (r & Hr & Hs) & _). unfold x_dfpatch_size. rewrite Hr.
    assert (Htm : tm x = 2 * wt r (a_left (x_ap x))) by (unfold tm; cbv zeta; rewrite Hr, Es; lia).
    destruct (unpack_wt' f _ _ _ Hs Hz) as (res & v & z1 & r1 & l1 & -> & P1 & P2 & P3 & P4 & P5). cbn [obind]. cbv zeta. assert (Ho := lsrc_owned _ _ _ P3).
    destruct (Z.eqb_spec res 0); cbn [negb].
    + subst res. specialize (P4 eq_refl). destruct (0 <? v); cbn [obind].
      * do 3 eexists. split; [reflexivity|]. split; [neg|]. split; [exact Ho|]. splits; neg.
      * do 3 eexists. split; [reflexivity|]. split; [lia|]. split; [exact Ho|]. splits; [intros _|intros _|lia].
        -- unfold xti. cbn. splits; auto; try lia. eauto.
        -- rewrite Htm. unfold tm. cbn [x_ap x_reader a_state a_left set_st set_size_left set_reader]. lia.
    + cbn [obind]. do 3 eexists. split; [reflexivity|]. split; [lia|]. split; [exact Ho|]. splits; [intros X|lia|exact P5].
      unfold xti. cbn. rewrite Es. splits; auto; try lia. eauto.
  - right. destruct (xsize_term f x SDiffData) as (res & x1 & -> & A); auto. cbn [obind]. do 3 eexists. split; [reflexivity|]. exact A.
  - apply xdata_term; auto. rewrite Es. reflexivity.
  - right. destruct (xsize_term f x SExtraData) as (res & x1 & -> & A); auto. cbn [obind]. do 3 eexists. split; [reflexivity|]. exact A.
  - apply xdata_term; auto. rewrite Es. reflexivity.
  - unfold xti in Hi. rewrite Es in Hi. destruct Hi as (Hz & (r & Hr & Hs) & _). unfold x_adjustment. rewrite Hr. cbv zeta.
    assert (Htm : tm x = 2 * wt r (a_left (x_ap x))) by (unfold tm; cbv zeta; rewrite Hr, Es; lia).
    destruct (unpack_wt' f _ _ _ Hs Hz) as (res & v & z1 & r1 & l1 & -> & P1 & P2 & P3 & P4 & P5). cbn [obind]. assert (Ho := lsrc_owned _ _ _ P3).
    destruct (Z.eqb_spec res 0); cbn [negb].
    + subst res. specialize (P4 eq_refl). destruct (from_seek E w v) as [rs w1] eqn:Ek. destruct (Z.eqb_spec rs 0); cbn [negb].
      2:{ right. do 3 eexists. split; [reflexivity|]. split; [neg|]. split; [exact Ho|]. splits; neg. }
      unfold int_add. destruct (in_int _); cbn [obind]; [right|left; reflexivity].
      do 3 eexists. split; [reflexivity|]. split; [lia|]. split; [exact Ho|].
      pose proof (wt_nonneg r1 l1). splits; [intros _|intros _|lia].
      * unfold xti. cbn. destruct (_ =? _); [exact Ho|]. splits; auto; try lia. eauto.
      * rewrite Htm. unfold tm. cbn [x_ap x_reader a_state a_left set_st set_from_offset set_size_left set_reader]. destruct (_ =? _); lia.
    + right. do 3 eexists. split; [reflexivity|]. split; [lia|]. split; [exact Ho|]. splits; [intros X|lia|exact P5]. unfold xti. cbn. rewrite Es. splits; auto; try lia. eauto.
  - right. cbn [obind]. do 3 eexists. split; [reflexivity|]. splits; auto; try (intros; neg); [intros _; left; exact Es|intros X; discriminate|intros X; discriminate].
  - right. cbn [obind]. change (- E_ALREADY_FAILED <? 0) with true. cbv iota. do 3 eexists. split; [reflexivity|]. unfold xti in Hi. rewrite Es in Hi. splits; try (intros X; discriminate X).
    + exact Hi.
    + intros _. right. reflexivity.
Qed.

Lemma tm_nonneg : forall x, 0 <= tm x.
Proof.
  intros x. unfold tm. cbv zeta. assert (0 <= match lz_start L with Some d => store d | None => 0 end) by (destruct (lz_start L); [apply Hstore|lia]).
  pose proof (zlen_nonneg (a_left (x_ap x))). assert (0 <= (most + 1) * zlen (a_left (x_ap x))) by (apply Z.mul_nonneg_nonneg; lia).
  destruct (a_state (x_ap x)); try lia; destruct (x_reader x) as [[p|r|h]|]; try lia; pose proof (wt_nonneg r (a_left (x_ap x))); lia.
Qed.

Lemma xloop_term : forall m f res x w, tm x < Z.of_nat m -> xti f x -> (res < 0 -> final (x_ap x)) -> res <= 1 -> (res = 1 -> a_left (x_ap x) = []) ->
  exists n o, (forall fuel, (n <= fuel)%nat -> x_process_loop L E fuel res x w = o) /\
    (o = Undef \/ exists r1 x1 w1, o = Ret (r1, x1, w1) /\ xti f x1 /\ (a_left (x_ap x1) = [] \/ final (x_ap x1))).
Proof.
  induction m as [m IH] using (well_founded_induction lt_wf). intros f res x w Hm Hi Hf Hr H1.
  assert (Stop : a_left (x_ap x) = [] \/ res < 0 -> forall fuel, x_process_loop L E fuel res x w = Ret (res, x, w)).
  { intros X fuel. destruct fuel; cbn [x_process_loop]; destruct (a_left (x_ap x)); try reflexivity; destruct X as [X|X]; try discriminate; destruct (Z.ltb_spec res 0); try lia; reflexivity. }
  destruct (a_left (x_ap x)) eqn:El.
  { exists 0%nat, (Ret (res, x, w)). split; [intros; apply Stop; auto|]. right. exists res, x, w. auto. }
  destruct (Z_lt_dec res 0).
  { exists 0%nat, (Ret (res, x, w)). split; [intros; apply Stop; auto|]. right. exists res, x, w. auto. }
  assert (res = 0) as -> by (destruct (Z.eq_dec res 1) as [->|]; [specialize (H1 eq_refl); discriminate|lia]).
  destruct (xonce_term f x w Hi) as [A|(r1 & x1 & w1 & A & B & C & F & G & I1)].
  { exists 1%nat, Undef. split; [|auto]. intros fuel Hfu. destruct fuel; [lia|]. cbn [x_process_loop]. rewrite El. change (0 <? 0) with false. cbv iota. rewrite A. reflexivity. }
  assert (Hs : forall fuel, x_process_loop L E (S fuel) 0 x w = x_process_loop L E fuel r1 x1 w1).
  { intros fuel. cbn [x_process_loop]. rewrite El. change (0 <? 0) with false. cbv iota. rewrite A. reflexivity. }
  destruct (Z.eq_dec r1 0) as [->|].
  - specialize (G eq_refl). pose proof (tm_nonneg x1). destruct (IH (Z.to_nat (tm x1 + 1)) ltac:(lia) f 0 x1 w1) as (n1 & o & Hn & Ho); auto; try lia.
    exists (S n1), o. split; [|exact Ho]. intros fuel Hfu. destruct fuel; [lia|]. rewrite Hs. apply Hn. lia.
  - assert (Q : a_left (x_ap x1) = [] \/ r1 < 0) by (destruct (Z.eq_dec r1 1); [left; auto|right; lia]).
    exists 1%nat, (Ret (r1, x1, w1)). split.
    + intros fuel Hfu. destruct fuel; [lia|]. rewrite Hs.
      destruct fuel; cbn [x_process_loop]; destruct (a_left (x_ap x1)); try reflexivity; destruct Q as [X|X]; try discriminate; destruct (Z.ltb_spec r1 0); try lia; reflexivity.
    + right. exists r1, x1, w1. splits; auto. destruct Q; auto.
Qed.

Lemma xfinloop_term : forall m f x w, tm x < Z.of_nat m -> xti f x ->
  exists n o, (forall fuel, (n <= fuel)%nat -> x_finalize_loop L E fuel x w = o) /\
  (o = Undef \/ exists r1 x1 w1, o = Ret (r1, x1, w1) /\ xti f x1).
Proof.
  induction m as [m IH] using (well_founded_induction lt_wf). intros f x w Hm Hi.
  destruct (xonce_term f x w Hi) as [A|(r1 & x1 & w1 & A & B & C & F & G & I1)].
  { exists 1%nat, Undef. split; [|auto]. intros fuel Hfu. destruct fuel; [lia|]. cbn [x_finalize_loop]. rewrite A. reflexivity. }
  destruct (Z.eq_dec r1 0) as [->|].
  - specialize (G eq_refl). pose proof (tm_nonneg x1). destruct (IH (Z.to_nat (tm x1 + 1)) ltac:(lia) f x1 w1) as (n & o & Hn & Ho); auto; try lia.
    exists (S n), o. split; [|exact Ho]. intros fuel Hfu. destruct fuel; [lia|]. cbn [x_finalize_loop]. rewrite A. cbn [obind]. change (0 =? 0) with true. cbv iota. apply Hn. lia.
  - exists 1%nat, (Ret (r1, x1, w1)). split; [|right; exists r1, x1, w1; auto]. intros fuel Hfu. destruct fuel; [lia|]. cbn [x_finalize_loop]. rewrite A. cbn [obind].
    destruct (Z.eqb_spec r1 0); [congruence|reflexivity].
Qed.

Lemma xti_rdone : forall f x, xti f x -> rdone (x_reader x).
Proof.
  intros f x Hi. unfold xti in Hi. destruct (a_state (x_ap x)); try exact Hi; try (destruct Hi as (_ & (r & Hr & Hs) & _); rewrite Hr; exact (lsrc_owned _ _ _ Hs)).
  destruct Hi as (-> & _). exact I.
Qed.

Lemma xti_chunk : forall f c x s', xti (c ++ f) x -> a_left (x_ap x) = [] \/ final (x_ap x) ->
  a_state s' = a_state (x_ap x) -> a_to_init s' = a_to_init (x_ap x) -> a_size s' = a_size (x_ap x) ->
  a_compression s' = a_compression (x_ap x) -> a_rsize s' = a_rsize (x_ap x) -> a_chunk_size s' = a_chunk_size (x_ap x) -> a_left s' = c ->
  xti f (mkxap s' (x_reader x)).
Proof.
  intros f c x s' Hi Hl H1 H3 H4 H5 H6 H7 H8. unfold xti in *. cbn [x_ap x_reader]. rewrite H1, H3, H4, H5, H6, H7, H8. unfold final in Hl.
  destruct (a_state (x_ap x)); try exact Hi; (destruct Hl as [Hl|[Hl|Hl]]; [|discriminate|discriminate]); rewrite Hl in Hi;
    try (destruct Hi as (A & (r & G1 & G2 & G3 & G4) & G5); splits; auto; try lia; exists r; rewrite zlen_app in G4; change (zlen (@nil Z)) with 0 in G4;
         split; [auto|]; split; [auto|]; split; [auto|lia]).
  cbn [app] in Hi. change (zlen (@nil Z)) with 0 in Hi. rewrite zlen_app in Hi. destruct Hi as (A & B & C). splits; auto; lia.
Qed.

Lemma xfinalize_term : forall f x w, xti f x -> a_left (x_ap x) = [] \/ final (x_ap x) ->
  exists n o, (forall fuel, (n <= fuel)%nat -> x_finalize L E fuel x w = o) /\ o <> OutOfFuel.
Proof.
  intros f x w Hi Hl.
  assert (Hi' : xti f (mkxap (set_chunk (x_ap x) []) (x_reader x))) by (apply xti_chunk with (c := []); auto).
  pose proof (tm_nonneg (mkxap (set_chunk (x_ap x) []) (x_reader x))).
  destruct (xfinloop_term (Z.to_nat (tm (mkxap (set_chunk (x_ap x) []) (x_reader x)) + 1)) f (mkxap (set_chunk (x_ap x) []) (x_reader x)) w ltac:(lia) Hi') as (n & o & Hn & [-> | (r1 & x1 & w1 & -> & B)]).
  - exists n, Undef. split; [|discriminate]. intros fuel Hfu. unfold x_finalize. rewrite Hn by auto. reflexivity.
  - destruct (common_safe r1 _ (a_to_size (x_ap x1)) (xti_rdone _ _ B)) as (v & rd & C1 & C2).
    exists n, (Ret (v, mkxap (x_ap x1) rd, w1)). split; [|discriminate]. intros fuel Hfu. unfold x_finalize. rewrite Hn by auto. cbn [obind]. rewrite C1. reflexivity.
Qed.

Lemma xfeed_term : forall cs x w, xti (concat cs) x -> a_left (x_ap x) = [] \/ final (x_ap x) ->
  exists n o, (forall fuel, (n <= fuel)%nat -> x_feed L E fuel x w cs = o) /\ o <> OutOfFuel.
Proof.
  induction cs as [|c cs IH]; intros x w Hi Hl; cbn [x_feed]; [eapply xfinalize_term; eauto|].
  cbn [concat] in Hi. unfold x_process. cbv zeta.
  set (y := mkxap (set_chunk (set_patch_offset (x_ap x) (wrap (a_patch_offset (x_ap x) + zlen c))) c) (x_reader x)).
  assert (Hi' : xti (concat cs) y) by (apply xti_chunk with (c := c); auto). pose proof (tm_nonneg y) as Hy.
  destruct (xloop_term (Z.to_nat (tm y + 1)) (concat cs) 0 y w) as (n1 & o1 & H1 & [-> | (r1 & x1 & w1 & -> & B & C)]);
    [lia|exact Hi'|lia|lia|intros X; discriminate| |].
  { exists n1, Undef. split; [|discriminate]. intros fuel Hfu. rewrite H1 by auto. reflexivity. }
  destruct ((if (r1 =? 1) || (r1 =? - E_ALREADY_DONE) then 0 else r1) =? 0) eqn:Eq.
  - destruct (IH x1 w1 B C) as (n2 & o2 & H2 & N2). exists (max n1 n2), o2. split; [|exact N2]. intros fuel Hfu. rewrite H1 by lia. cbn [obind]. rewrite Eq. apply H2. lia.
  - destruct (xfinalize_term _ x1 w1 B C) as (n2 & o2 & H2 & N2).
    exists (max n1 n2), (letm (r2, x2, w2) := o2 in Ret ((if (r1 =? 1) || (r1 =? - E_ALREADY_DONE) then 0 else r1), x2, w2)). split.
    + intros fuel Hfu. rewrite H1 by lia. cbn [obind]. rewrite Eq, H2 by lia. reflexivity.
    + destruct o2 as [[[? ?] ?]| |]; cbn [obind]; [discriminate|discriminate|congruence].
Qed.

End Term.
