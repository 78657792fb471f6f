(** LZMA patches of any content, with any library that keeps to its buffers and any
    outcome of the allocations: no undefined behaviour, no memory left allocated,
    and the calls end if the library does not make data out of nothing. *)

From Coq Require Import ZArith List Bool Lia ZifyBool ZifyNat ZifyN.
From Verif Require Import Prelude Lib Heatshrink HsProofs CReader ReaderProofs SizeProofs CSeq Spec SeqSim SeqRun SeqTerm SeqMeaning SeqApply SeqSpec SeqInv SeqCount CallbackSpec CallbackProofs CLzma CSeqLzma LzmaSpec LzmaProofs.
Import ListNotations.
Open Scope Z_scope.

Ltac Zify.zify_post_hook ::= Z.to_euclidean_division_equations.

Ltac splits := repeat match goal with |- _ /\ _ => split end.

Ltac neg := cbv [E_SHORT_HEADER E_BAD_PATCH_TYPE E_BAD_COMPRESSION E_CORRUPT_PATCH E_NOT_IMPLEMENTED E_IO_FAILED E_CORRUPT_PATCH_OVERFLOW E_LZMA_INIT E_ALREADY_DONE E_ALREADY_FAILED]; lia.

Section Safe.
Context {WBits : WordBits}.
Hypothesis Hword : 32 <= word_bits.
Context {D : Type} (L : lzma_lib D).
Hypothesis Hlib : lib_ok L.

(** ** The reader *)

Definition lsrc (f : list Z) (r : lzma_reader D) (left : list Z) : Prop :=
  owned r /\ bytes_ok (held (l_out r)) /\ ins r + zlen left + zlen f < 2 ^ word_bits.

Lemma lsrc_dec : forall f r left n, lsrc f r left -> 0 < n ->
  exists res out r1 l1, lzma_decompress L r left n = Ret (res, out, r1, l1) /\
    res <= 1 /\ lsrc f r1 l1 /\ (res = 0 -> zlen out = n).
Proof.
  intros f r left n (A & B & C) Hn. pose proof (zlen_nonneg f).
  destruct (lzma_safe L Hlib r left n A Hn B) as (res & out & r1 & l1 & S1 & S2 & S3 & S4 & S5 & S6 & S7 & S8 & S9); [lia|].
  exists res, out, r1, l1. unfold lsrc. splits; auto. lia.
Qed.

Lemma lsrc_unpack_loop : forall K f z r left byte, lsrc f r left -> zok z -> (zneed z <= K)%nat ->
  exists res v z1 r1 l1, xunpack_size_loop L K z (XLzma r) left byte 1 = Ret (res, v, z1, XLzma r1, l1) /\
    res <= 1 /\ zok z1 /\ lsrc f r1 l1.
Proof.
  induction K; intros f z r left byte Hs Hz HK.
  { unfold zneed in HK; destruct (z_cons z); lia. }
  cbn [xunpack_size_loop xdecompress].
  destruct (lsrc_dec f r left 1 Hs) as (res & out & r1 & l1 & E & P1 & P2 & P3); [lia|].
  rewrite E. cbn [obind]. destruct (Z.eqb_spec res 0); cbn [negb].
  2:{ exists res, 0, z, r1, l1. splits; auto. }
  subst res. cbv zeta. specialize (P3 eq_refl). destruct out as [|b out]; [discriminate|].
  assert (out = []) as -> by (apply zlen_0_nil; rewrite zlen_cons in P3; lia).
  destruct (size_byte_spec z b Hz) as [(_ & _ & S)|(z1 & S & Ec & Hz1 & Hnd & Hv & _)]; rewrite S; cbn [obind].
  { do 5 eexists. split; [reflexivity|]. splits; auto; neg. }
  destruct (Z.land b 128 =? 0).
  { do 5 eexists. split; [reflexivity|]. splits; auto; try lia. intros X; discriminate. }
  change (zlen [b]) with 1. apply IHK; auto. lia.
Qed.

Lemma lsrc_unpack : forall f z r left, lsrc f r left -> zok z ->
  exists res v z1 r1 l1, xunpack_size L z (XLzma r) left = Ret (res, v, z1, XLzma r1, l1) /\
    res <= 1 /\ zok z1 /\ lsrc f r1 l1.
Proof. intros. unfold xunpack_size. apply lsrc_unpack_loop; auto. pose proof (zneed_le z H0). lia. Qed.

(** ** Calls *)

Context {W : Type} (E : seq_env W) (pos : W -> Z).
Hypothesis Hon : honest E pos.

(** The reader, if there is one, can be destroyed. *)
Definition rdone (r : option (xreader (D := D))) : Prop :=
  match r with None => True | Some (XLzma r) => owned r | _ => False end.

Definition xinv (f : list Z) (x : xap D) (w : W) : Prop :=
  let s := x_ap x in
  match a_state s with
  | SInit =>
      x_reader x = None /\ a_from_offset s = 0 /\ pos w = 0 /\ zlen (a_left s) + zlen f < 2 ^ word_bits /\
      if a_to_init s then zok (a_size s) /\ a_compression s = 1
      else a_left s ++ f = [] \/ announced_comp (a_left s ++ f) = 1
  | SDone | SFailed => rdone (x_reader x)
  | _ => a_from_offset s = pos w /\ 0 <= pos w <= INT_MAX /\ zok (a_rsize s) /\
      (exists r, x_reader x = Some (XLzma r) /\ lsrc f r (a_left s)) /\
      (match a_state s with SDiffData | SExtraData => 0 <= a_chunk_size s | _ => True end)
  end.

(** What a step gives. *)
Definition fine (f : list Z) (x : xap D) (out : outcome (Z * xap D * W)) : Prop :=
  exists res x1 w1, out = Ret (res, x1, w1) /\ res <= 1 /\ rdone (x_reader x1) /\ (0 <= res -> xinv f x1 w1).

Lemma lsrc_owned : forall f r l, lsrc f r l -> owned r.
Proof. intros f r l (A & _). exact A. Qed.

Lemma xinit_safe : forall f x w, a_state (x_ap x) = SInit -> xinv f x w ->
  exists res x1, x_init L x = Ret (res, x1) /\ res <= 1 /\ rdone (x_reader x1) /\ (0 <= res -> xinv f x1 w).
Proof.
  intros f x w Es Hi. unfold xinv in Hi. rewrite Es in Hi. destruct Hi as (Hr & F1 & F2 & Hw & Hi). unfold x_init.
  destruct (a_to_init (x_ap x)) eqn:Et.
  - destruct Hi as [Hz Hc]. unfold x_init_to_size. cbv zeta.
    destruct (uhs_app (a_left (x_ap x)) (a_size (x_ap x)) f Hz)
      as [(z1 & P & Q & R)|[(v & z1 & l1 & used & P & Q & R & S)|(z1 & l1 & P & R)]]; rewrite P; cbn [obind]; cbv zeta.
    + change (negb (1 =? 0)) with true. cbv iota. do 2 eexists. split; [reflexivity|]. cbn [x_reader]. rewrite Hr. splits; try lia; [exact I|].
      intros _. unfold xinv. cbn. rewrite Es, Et. pose proof (zlen_nonneg (a_left (x_ap x))). change (zlen (@nil Z)) with 0. splits; auto. lia.
    + change (negb (0 =? 0)) with false. cbv iota. cbn [a_compression set_header]. rewrite Hc. unfold xreader_init. change (1 =? 1) with true. cbv iota.
      destruct (lz_start L) as [d|].
      2:{ do 2 eexists. split; [reflexivity|]. cbn [x_reader]. rewrite Hr. splits; try neg. exact I. }
      assert (Hl : lsrc f (mklz d None None (mkheap [] 0)) l1).
      { split; [apply owned_start|]. split; [apply Forall_nil|]. unfold ins. cbn. change (zlen (@nil Z)) with 0. rewrite R, zlen_app in Hw. pose proof (zlen_nonneg used). lia. }
      destruct (Z.ltb_spec v 0); [lia|].
      do 2 eexists. split; [reflexivity|]. cbn [x_reader]. splits; [lia|exact (lsrc_owned _ _ _ Hl)|]. intros _.
      unfold xinv. cbn. destruct (0 <? v); [|exact (lsrc_owned _ _ _ Hl)]. rewrite F1, F2.
      splits; auto; unfold INT_MAX; try lia; [intros X; discriminate|eauto].
    + change (negb (- E_CORRUPT_PATCH_OVERFLOW =? 0)) with true. cbv iota. do 2 eexists. split; [reflexivity|]. cbn [x_reader]. rewrite Hr. splits; try neg. exact I.
  - unfold process_init_fixed_header. destruct (a_left (x_ap x)) as [|b l] eqn:El.
    { cbn [obind]. do 2 eexists. split; [reflexivity|]. cbn [x_reader]. rewrite Hr. splits; try neg. exact I. }
    cbv zeta. destruct (negb _); cbn [obind].
    { do 2 eexists. split; [reflexivity|]. cbn [x_reader]. rewrite Hr. splits; try neg. exact I. }
    do 2 eexists. split; [reflexivity|]. cbn [x_reader]. rewrite Hr. splits; [lia|exact I|]. intros _.
    unfold xinv. cbn. rewrite Es. rewrite zlen_cons in Hw. splits; auto; try lia; [intros X; discriminate|].
    destruct Hi as [Hi|Hi]; [discriminate|]. exact Hi.
Qed.

Lemma xdata_safe : forall f x w next, data_next (a_state (x_ap x)) = Some next -> xinv f x w -> fine f x (x_data L E x w next).
Proof.
  intros f x w next Hn Hi. unfold xinv in Hi. cbv zeta in Hi.
  assert (Hi' : a_from_offset (x_ap x) = pos w /\ 0 <= pos w <= INT_MAX /\ zok (a_rsize (x_ap x)) /\
      (exists r, x_reader x = Some (XLzma r) /\ lsrc f r (a_left (x_ap x))) /\ 0 <= a_chunk_size (x_ap x)).
  { destruct (a_state (x_ap x)); try discriminate Hn; auto. }
  clear Hi. destruct Hi' as (F1 & F2 & Hz & (r & Hr & Hs) & Hc).
  destruct (data_next_cases _ _ Hn) as (Hx & Hnd & Hni).
  unfold x_data. cbv zeta. destruct (Z.eqb_spec (Z.min 128 (a_chunk_size (x_ap x))) 0).
  { do 3 eexists. split; [reflexivity|]. cbn [x_reader]. rewrite Hr. split; [lia|]. split; [exact (lsrc_owned _ _ _ Hs)|]. intros _. unfold xinv.
    cbn. destruct Hx; subst next; splits; auto; lia || eauto. }
  rewrite Hr. cbn [xdecompress].
  destruct (lsrc_dec f r (a_left (x_ap x)) (Z.min 128 (a_chunk_size (x_ap x))) Hs) as (res & out & r1 & l1 & Ed & P1 & P2 & P3); [lia|].
  rewrite Ed. cbn [obind]. assert (Ho := lsrc_owned _ _ _ P2).
  assert (Hok : forall s1 w1, a_state s1 = a_state (x_ap x) -> a_from_offset s1 = pos w1 -> 0 <= pos w1 <= INT_MAX -> a_rsize s1 = a_rsize (x_ap x) ->
     a_left s1 = l1 -> 0 <= a_chunk_size s1 -> xinv f (mkxap s1 (Some (XLzma r1))) w1).
  { intros s1 w1 K1 K2 K3 K4 K6 K7. unfold xinv. cbn [x_ap x_reader].
    rewrite K1, K4, K6. destruct (a_state (x_ap x)); try discriminate Hn; splits; auto; try lia; eauto. }
  destruct (Z.eqb_spec res 0) as [->|Hne]; cbn [negb].
  2:{ do 3 eexists. split; [reflexivity|]. split; [lia|]. split; [exact Ho|]. intros X. apply Hok; auto. }
  specialize (P3 eq_refl). destruct Hon as (H1 & H2 & H3).
  destruct Hx as [-> | ->].
  - change (a_from_offset (set_size_left (x_ap x) (a_rsize (x_ap x)) l1)) with (a_from_offset (x_ap x)).
    destruct (from_read E w (zlen out)) as [[rr from] w2] eqn:Er. destruct (Z.eqb_spec rr 0); cbn [negb obind].
    2:{ do 3 eexists. split; [reflexivity|]. split; [neg|]. split; [exact Ho|]. neg. }
    destruct (H1 _ _ _ _ _ Er e) as (A1 & A2 & A3).
    rewrite add_data_mod by auto. cbn [obind].
    destruct (to_write E w2 (add_mod out from)) as [rw w3] eqn:Ew. destruct (Z.eqb_spec rw 0); cbn [negb].
    2:{ do 3 eexists. split; [reflexivity|]. split; [neg|]. split; [exact Ho|]. neg. }
    pose proof (H3 _ _ _ _ Ew e0) as A4. pose proof (zlen_nonneg out).
    do 3 eexists. split; [reflexivity|]. split; [lia|]. split; [exact Ho|]. intros _.
    apply Hok; auto; cbn; try lia.
    + rewrite F1, A4, A2. apply to_int_small. unfold INT_MIN, INT_MAX in *. lia.
    + apply wrap_range; auto.
  - cbn [obind].
    destruct (to_write E w out) as [rw w3] eqn:Ew. destruct (Z.eqb_spec rw 0); cbn [negb].
    2:{ do 3 eexists. split; [reflexivity|]. split; [neg|]. split; [exact Ho|]. neg. }
    pose proof (H3 _ _ _ _ Ew e) as A4.
    do 3 eexists. split; [reflexivity|]. split; [lia|]. split; [exact Ho|]. intros _.
    apply Hok; auto; cbn; try lia. apply wrap_range; auto.
Qed.

Lemma xsize_safe : forall f x w next, next = SDiffData \/ next = SExtraData ->
  a_state (x_ap x) = SDiffSize \/ a_state (x_ap x) = SExtraSize -> xinv f x w ->
  exists res x1, x_size L x next = Ret (res, x1) /\ res <= 1 /\ rdone (x_reader x1) /\ (0 <= res -> xinv f x1 w).
Proof.
  intros f x w next Hn Hst Hi. unfold xinv in Hi. cbv zeta in Hi.
  assert (Hi' : a_from_offset (x_ap x) = pos w /\ 0 <= pos w <= INT_MAX /\ zok (a_rsize (x_ap x)) /\
      (exists r, x_reader x = Some (XLzma r) /\ lsrc f r (a_left (x_ap x)))) by (destruct Hst as [X|X]; rewrite X in Hi; tauto).
  clear Hi. destruct Hi' as (F1 & F2 & Hz & (r & Hr & Hs)).
  unfold x_size, xcommon_process_size. rewrite Hr. cbv zeta.
  destruct (lsrc_unpack f _ _ _ Hs Hz) as (res & v & z1 & r1 & l1 & -> & P1 & P2 & P3). cbn [obind]. assert (Ho := lsrc_owned _ _ _ P3).
  destruct (Z.eqb_spec res 0); cbn [negb obind].
  - subst res. destruct (_ <? _); cbn [obind].
    + do 2 eexists. split; [reflexivity|]. split; [neg|]. split; [exact Ho|]. neg.
    + do 2 eexists. split; [reflexivity|]. split; [lia|]. split; [exact Ho|]. intros _. unfold xinv. cbn.
      pose proof (wrap_range v Hword). destruct Hn as [-> | ->]; splits; auto; try lia; eauto.
  - destruct (Z.eqb_spec res 0); [congruence|]. cbn [negb]. do 2 eexists. split; [reflexivity|]. split; [lia|]. split; [exact Ho|]. intros X.
    unfold xinv. cbn. destruct Hst as [Y|Y]; rewrite Y; splits; auto; try lia; eauto.
Qed.

Definition final (s : ap) : Prop := a_state s = SDone \/ a_state s = SFailed.

Lemma xonce_safe : forall f x w, xinv f x w ->
  exists res x1 w1, x_once L E x w = Ret (res, x1, w1) /\ xinv f x1 w1 /\ res <= 1 /\ (res < 0 -> final (x_ap x1)) /\ (final (x_ap x) -> res < 0).
Proof.
  intros f x w Hi.
  assert (K : forall out, ~ final (x_ap x) -> fine f x out ->
    exists res x1 w1, (letm (res, x1, w1) := out in
      match a_state (x_ap x) with SDone => Ret (res, x1, w1) | _ => Ret (res, if res <? 0 then mkxap (set_st (x_ap x1) SFailed) (x_reader x1) else x1, w1) end) = Ret (res, x1, w1) /\
      xinv f x1 w1 /\ res <= 1 /\ (res < 0 -> final (x_ap x1)) /\ (final (x_ap x) -> res < 0)).
  { intros out N1 (res & x1 & w1 & -> & C0 & C1 & C2). cbn [obind].
    exists res, (if res <? 0 then mkxap (set_st (x_ap x1) SFailed) (x_reader x1) else x1), w1. unfold final in *.
    split; [destruct (a_state (x_ap x)); tauto|]. destruct (Z.ltb_spec res 0).
    - splits; auto; tauto.
    - splits; auto; try tauto; try lia. }
  unfold x_once.
  assert (Hr0 : a_state (x_ap x) <> SInit -> rdone (x_reader x)).
  { intros Hne. unfold xinv in Hi. destruct (a_state (x_ap x)); try congruence; try exact Hi; destruct Hi as (_ & _ & _ & (r & Hr & Hs) & _); rewrite Hr; exact (lsrc_owned _ _ _ Hs). }
  destruct (a_state (x_ap x)) eqn:Es; try (apply K; [unfold final; rewrite Es; intros [X|X]; discriminate|]).
  - destruct (xinit_safe f x w Es Hi) as (res & x1 & -> & A). cbn [obind]. do 3 eexists. split; [reflexivity|]. exact A.
  - unfold xinv in Hi. rewrite Es in Hi. destruct Hi as (F1 & F2 & Hz & (r & Hr & Hs) & _). unfold x_dfpatch_size. rewrite Hr.
    destruct (lsrc_unpack f _ _ _ Hs Hz) as (res & v & z1 & r1 & l1 & -> & P1 & P2 & P3). cbn [obind]. cbv zeta. assert (Ho := lsrc_owned _ _ _ P3).
    destruct (Z.eqb_spec res 0); cbn [negb].
    + subst res. destruct (0 <? v); cbn [obind].
      * do 3 eexists. split; [reflexivity|]. split; [neg|]. split; [exact Ho|]. neg.
      * do 3 eexists. split; [reflexivity|]. split; [lia|]. split; [exact Ho|]. intros _. unfold xinv. cbn. splits; auto; try lia. eauto.
    + cbn [obind]. do 3 eexists. split; [reflexivity|]. split; [lia|]. split; [exact Ho|]. intros X. unfold xinv. cbn. rewrite Es. splits; auto; try lia. eauto.
  - destruct (xsize_safe f x w SDiffData) as (res & x1 & -> & A); auto. cbn [obind]. do 3 eexists. split; [reflexivity|]. exact A.
  - apply xdata_safe; auto. rewrite Es. reflexivity.
  - destruct (xsize_safe f x w SExtraData) as (res & x1 & -> & A); auto. cbn [obind]. do 3 eexists. split; [reflexivity|]. exact A.
  - apply xdata_safe; auto. rewrite Es. reflexivity.
  - unfold xinv in Hi. rewrite Es in Hi. destruct Hi as (F1 & F2 & Hz & (r & Hr & Hs) & _). unfold x_adjustment. rewrite Hr. cbv zeta.
    destruct (lsrc_unpack f _ _ _ Hs Hz) as (res & v & z1 & r1 & l1 & -> & P1 & P2 & P3). cbn [obind]. assert (Ho := lsrc_owned _ _ _ P3).
    destruct (Z.eqb_spec res 0); cbn [negb].
    + subst res. destruct (from_seek E w v) as [rs w1] eqn:Ek. destruct (Z.eqb_spec rs 0); cbn [negb].
      2:{ do 3 eexists. split; [reflexivity|]. split; [neg|]. split; [exact Ho|]. neg. }
      destruct Hon as (H1 & H2 & H3). destruct (H2 _ _ _ _ Ek e) as (A1 & A2 & A3).
      cbn [a_from_offset set_size_left set_reader]. rewrite F1. unfold int_add.
      assert (X : in_int (pos w + v) = true) by (unfold in_int, INT_MIN, INT_MAX in *; lia).
      rewrite X. cbn [obind]. do 3 eexists. split; [reflexivity|]. split; [lia|]. split; [exact Ho|]. intros _. unfold xinv. cbn. destruct (_ =? _); [exact Ho|].
      splits; auto; try lia. eauto.
    + do 3 eexists. split; [reflexivity|]. split; [lia|]. split; [exact Ho|]. intros X. unfold xinv. cbn. rewrite Es. splits; auto; try lia. eauto.
  - cbn [obind]. do 3 eexists. split; [reflexivity|]. splits; auto; try (intros; neg). intros _. left. exact Es.
  - cbn [obind]. change (- E_ALREADY_FAILED <? 0) with true. cbv iota. do 3 eexists. split; [reflexivity|]. splits; try (intros; neg).
    + unfold xinv. cbn. apply Hr0. discriminate.
    + intros _. right. reflexivity.
Qed.

Lemma xloop_safe : forall fuel f res x w, xinv f x w -> (res < 0 -> final (x_ap x)) ->
  x_process_loop L E fuel res x w = OutOfFuel \/
  exists r1 x1 w1, x_process_loop L E fuel res x w = Ret (r1, x1, w1) /\ xinv f x1 w1 /\ (a_left (x_ap x1) = [] \/ final (x_ap x1)).
Proof.
  induction fuel; intros f res x w Hi Hf; cbn [x_process_loop].
  - destruct (a_left (x_ap x)) eqn:El; [right; eauto 8|]. destruct (Z.ltb_spec res 0); [right; eauto 8|auto].
  - destruct (a_left (x_ap x)) eqn:El; [right; eauto 8|]. destruct (Z.ltb_spec res 0); [right; eauto 8|].
    destruct (xonce_safe f x w Hi) as (r1 & x1 & w1 & A & B & C & F & _). rewrite A. cbn [obind]. apply IHfuel; auto.
Qed.

Lemma xfinloop_safe : forall fuel f x w, xinv f x w ->
  x_finalize_loop L E fuel x w = OutOfFuel \/
  exists r1 x1 w1, x_finalize_loop L E fuel x w = Ret (r1, x1, w1) /\ xinv f x1 w1 .
Proof.
  induction fuel; intros f x w Hi; cbn [x_finalize_loop]; [auto|].
  destruct (xonce_safe f x w Hi) as (r1 & x1 & w1 & A & B & C & F & _). rewrite A. cbn [obind]. destruct (r1 =? 0); [apply IHfuel; auto|right; eauto 6].
Qed.

Lemma xinv_rdone : forall f x w, xinv f x w -> rdone (x_reader x).
Proof.
  intros f x w Hi. unfold xinv in Hi. destruct (a_state (x_ap x)); try exact Hi; try (destruct Hi as (_ & _ & _ & (r & Hr & Hs) & _); rewrite Hr; exact (lsrc_owned _ _ _ Hs)).
  destruct Hi as (-> & _). exact I.
Qed.

Lemma common_safe : forall res r ts, rdone r -> exists v r1, x_common_finalize res r ts = Ret (v, r1) /\ nothing_allocated r1.
Proof.
  intros res r ts Hr. unfold x_common_finalize. cbv zeta. destruct r as [[p|r|h]|]; cbn [rdone] in Hr; try (destruct Hr; fail).
  - destruct (destroy_spec r Hr) as (h & A & B). cbn [xdestroy]. rewrite A. cbn [obind]. do 2 eexists. split; [reflexivity|]. exact B.
  - cbn [obind]. do 2 eexists. split; [reflexivity|]. exact I.
Qed.

Lemma xinv_chunk : forall f c x w s', xinv (c ++ f) x w -> a_left (x_ap x) = [] \/ final (x_ap x) ->
  a_state s' = a_state (x_ap x) -> a_from_offset s' = a_from_offset (x_ap x) -> a_to_init s' = a_to_init (x_ap x) -> a_size s' = a_size (x_ap x) ->
  a_compression s' = a_compression (x_ap x) -> a_rsize s' = a_rsize (x_ap x) -> a_chunk_size s' = a_chunk_size (x_ap x) -> a_left s' = c ->
  xinv f (mkxap s' (x_reader x)) w.
Proof.
  intros f c x w s' Hi Hl H1 H2 H3 H4 H5 H6 H7 H8. unfold xinv in *. cbn [x_ap x_reader]. rewrite H1, H2, H3, H4, H5, H6, H7, H8. unfold final in Hl.
  destruct (a_state (x_ap x)); try exact Hi; (destruct Hl as [Hl|[Hl|Hl]]; [|discriminate|discriminate]); rewrite Hl in Hi.
  - cbn [app] in Hi. change (zlen (@nil Z)) with 0 in Hi. rewrite zlen_app in Hi. destruct Hi as (A & B & C & F & G). splits; auto; lia.
  - destruct Hi as (A & B & C & (r & G1 & G2 & G3 & G4) & G5). splits; auto; try lia. exists r. rewrite zlen_app in G4. change (zlen (@nil Z)) with 0 in G4. split; [auto|]. split; [auto|]. split; [auto|lia].
  - destruct Hi as (A & B & C & (r & G1 & G2 & G3 & G4) & G5). splits; auto; try lia. exists r. rewrite zlen_app in G4. change (zlen (@nil Z)) with 0 in G4. split; [auto|]. split; [auto|]. split; [auto|lia].
  - destruct Hi as (A & B & C & (r & G1 & G2 & G3 & G4) & G5). splits; auto; try lia. exists r. rewrite zlen_app in G4. change (zlen (@nil Z)) with 0 in G4. split; [auto|]. split; [auto|]. split; [auto|lia].
  - destruct Hi as (A & B & C & (r & G1 & G2 & G3 & G4) & G5). splits; auto; try lia. exists r. rewrite zlen_app in G4. change (zlen (@nil Z)) with 0 in G4. split; [auto|]. split; [auto|]. split; [auto|lia].
  - destruct Hi as (A & B & C & (r & G1 & G2 & G3 & G4) & G5). splits; auto; try lia. exists r. rewrite zlen_app in G4. change (zlen (@nil Z)) with 0 in G4. split; [auto|]. split; [auto|]. split; [auto|lia].
  - destruct Hi as (A & B & C & (r & G1 & G2 & G3 & G4) & G5). splits; auto; try lia. exists r. rewrite zlen_app in G4. change (zlen (@nil Z)) with 0 in G4. split; [auto|]. split; [auto|]. split; [auto|lia].
Qed.

Lemma xfinalize_safe : forall fuel f x w, xinv f x w -> a_left (x_ap x) = [] \/ final (x_ap x) ->
  x_finalize L E fuel x w = OutOfFuel \/ exists v x1 w1, x_finalize L E fuel x w = Ret (v, x1, w1) /\ nothing_allocated (x_reader x1).
Proof.
  intros fuel f x w Hi Hl. unfold x_finalize. 
  assert (Hi' : xinv f (mkxap (set_chunk (x_ap x) []) (x_reader x)) w) by (apply xinv_chunk with (c := []); auto).
  destruct (xfinloop_safe fuel f _ w Hi') as [A|(r1 & x1 & w1 & A & B)]; rewrite A; cbn [obind]; [auto|]. right.
  destruct (common_safe r1 _ (a_to_size (x_ap x1)) (xinv_rdone _ _ _ B)) as (v & rd & C1 & C2). rewrite C1. cbn [obind]. do 3 eexists. split; [reflexivity|]. exact C2.
Qed.

Lemma xfeed_safe : forall cs fuel x w, xinv (concat cs) x w -> a_left (x_ap x) = [] \/ final (x_ap x) ->
  x_feed L E fuel x w cs = OutOfFuel \/ exists v x1 w1, x_feed L E fuel x w cs = Ret (v, x1, w1) /\ nothing_allocated (x_reader x1).
Proof.
  induction cs as [|c cs IH]; intros fuel x w Hi Hl; cbn [x_feed]; [eapply xfinalize_safe; eauto|].
  cbn [concat] in Hi. unfold x_process. cbv zeta.
  match goal with |- context [x_process_loop L E fuel 0 ?y w] => assert (Hi' : xinv (concat cs) y w) by (apply xinv_chunk with (c := c); auto) end.
  destruct (xloop_safe fuel _ 0 _ w Hi') as [A|(r1 & x1 & w1 & A & B & C)]; [lia| |]; rewrite A; cbn [obind]; [auto|].
  destruct (_ =? 0).
  - apply IH; auto.
  - destruct (xfinalize_safe fuel _ x1 w1 B C) as [F|(v & x2 & w2 & F & G)]; rewrite F; cbn [obind]; [auto|]. right. do 3 eexists. split; [reflexivity|]. exact G.
Qed.

Lemma xstart : forall junk ps w f c s', pos w = 0 -> zlen (c ++ f) < 2 ^ word_bits -> (c ++ f = [] \/ announced_comp (c ++ f) = 1) ->
  s' = set_chunk (set_patch_offset (ap_init junk ps) (wrap (0 + zlen c))) c -> xinv f (mkxap s' None) w.
Proof.
  intros junk ps w f c s' Hp Hw Ha ->. unfold xinv. cbn. rewrite zlen_app in Hw. splits; auto.
Qed.

End Safe.
