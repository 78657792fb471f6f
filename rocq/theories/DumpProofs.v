(** Dump and restore: a restored applier goes on like one that was never
    interrupted. *)

From Coq Require Import ZArith List Bool Lia ZifyBool ZifyNat ZifyN.
From Verif Require Import Prelude Lib Heatshrink HsProofs CReader ReaderProofs SizeProofs CSeq Spec SeqSim SeqRun SeqTerm SeqMeaning SeqApply SeqExt SeqMain SeqSpec SeqInv SeqCount SeqBound DumpSpec.
Import ListNotations.
Open Scope Z_scope.

Ltac Zify.zify_post_hook ::= Z.to_euclidean_division_equations.
Local Ltac splits := repeat match goal with |- _ /\ _ => split end.

(** ** Fields that do not matter once the header has been read *)

Definition alter (x : bool * size_st) (s : ap) : ap :=
  mkap (a_patch_size s) (a_state s) (fst x) (a_compression s) (a_patch_offset s)
       (a_to_offset s) (a_to_size s) (a_from_offset s) (a_chunk_size s)
       (a_reader s) (a_rsize s) (a_csize s) (a_left s) (snd x).

Definition amap {W} (x : bool * size_st) (o : outcome (Z * ap * W)) : outcome (Z * ap * W) :=
  match o with Ret (r, s, w) => Ret (r, alter x s, w) | Undef => Undef | OutOfFuel => OutOfFuel end.

Section Alter.
Context {WBits : WordBits}.
Context {W : Type} (E : seq_env W).
Variable x : bool * size_st.

Lemma once_state : forall B s w r s1 w1, process_once E B s w = Ret (r, s1, w1) -> a_state s <> SInit -> a_state s1 <> SInit.
Proof.
  intros B s w r s1 w1 H Hs. unfold process_once in H.
  apply obind_ret in H. destruct H as ([[r0 s0] w0] & A & H).
  assert (K : a_state s0 <> SInit -> a_state s1 <> SInit).
  { intros K. destruct (a_state s); try (inv H; exact K); destruct (r0 <? 0); inv H; cbn; congruence. }
  apply K. clear K H. destruct (a_state s) eqn:Es; try congruence;
    try (apply obind_ret in A; destruct A as ([r2 s2] & A & A2); inv A2).
  - unfold process_dfpatch_size in A. destruct (a_reader s); [|discriminate].
    apply obind_ret in A. destruct A as ([[[[ra va] za] rb] la] & A & C). cbv zeta in C.
    destruct (negb _); [inv C; cbn; congruence|]. destruct (0 <? va); inv C; cbn; congruence.
  - unfold process_size in A. destruct (a_reader s); [|discriminate].
    apply obind_ret in A. destruct A as ([[[[ra va] za] rb] la] & A & C). cbv zeta in C.
    destruct (negb _); inv C; cbn; congruence.
  - unfold process_data in A. cbv zeta in A. destruct (_ =? 0); [inv A; cbn; congruence|].
    destruct (a_reader s); [|discriminate]. apply obind_ret in A. destruct A as ([[[ra o] rb] la] & A & C).
    destruct (negb _); [inv C; cbn; congruence|]. apply obind_ret in C. destruct C as ([[[io data] sa] wa] & C & D).
    assert (a_state sa <> SInit).
    { destruct (from_read E w (zlen o)) as [[rr fr] wb]. destruct (negb _); [inv C; cbn; congruence|].
      apply obind_ret in C. destruct C as (d & _ & C). inv C. cbn. congruence. }
    destruct io; [inv D; auto|]. destruct (to_write E wa data). destruct (negb _); inv D; cbn; auto.
  - unfold process_size in A. destruct (a_reader s); [|discriminate].
    apply obind_ret in A. destruct A as ([[[[ra va] za] rb] la] & A & C). cbv zeta in C.
    destruct (negb _); inv C; cbn; congruence.
  - unfold process_data in A. cbv zeta in A. destruct (_ =? 0); [inv A; cbn; congruence|].
    destruct (a_reader s); [|discriminate]. apply obind_ret in A. destruct A as ([[[ra o] rb] la] & A & C).
    destruct (negb _); [inv C; cbn; congruence|]. cbn [obind] in C.
    destruct (to_write E w o). destruct (negb _); inv C; cbn; congruence.
  - unfold process_adjustment in A. destruct (a_reader s); [|discriminate].
    apply obind_ret in A. destruct A as ([[[[ra va] za] rb] la] & A & C). cbv zeta in C.
    destruct (negb _); [inv C; cbn; congruence|]. destruct (from_seek E w va). destruct (negb _); [inv C; cbn; congruence|].
    apply obind_ret in C. destruct C as (fo & _ & C). inv C. cbn. destruct (_ =? _); discriminate.
Qed.

Lemma once_nf : forall B s w r s1 w1, process_once E B s w = Ret (r, s1, w1) -> 0 <= r -> a_state s <> SFailed -> a_state s1 <> SFailed.
Proof.
  intros B s w r s1 w1 H Hr Hs. unfold process_once in H.
  apply obind_ret in H. destruct H as ([[r0 s0] w0] & A & H).
  assert (K : a_state s0 <> SFailed -> a_state s1 <> SFailed).
  { intros K. destruct (a_state s); try (inv H; exact K); destruct (Z.ltb_spec r0 0); inv H; try lia; auto. }
  apply K. clear K H. destruct (a_state s) eqn:Es; try congruence;
    try (apply obind_ret in A; destruct A as ([r2 s2] & A & A2); inv A2).
  - unfold process_init in A. destruct (a_to_init s).
    + unfold process_init_to_size in A. apply obind_ret in A. destruct A as ([[[ra va] za] la] & A & C). cbv zeta in C.
      destruct (negb _); [inv C; cbn; congruence|]. destruct (reader_init _ _); [|inv C; cbn; congruence].
      destruct (va <? 0); inv C; cbn; [congruence|]. destruct (0 <? va); discriminate.
    + unfold process_init_fixed_header in A. destruct (a_left s); [inv A; congruence|]. cbv zeta in A. destruct (negb _); inv A; cbn; congruence.
  - unfold process_dfpatch_size in A. destruct (a_reader s); [|discriminate].
    apply obind_ret in A. destruct A as ([[[[ra va] za] rb] la] & A & C). cbv zeta in C.
    destruct (negb _); [inv C; cbn; congruence|]. destruct (0 <? va); inv C; cbn; congruence.
  - unfold process_size in A. destruct (a_reader s); [|discriminate].
    apply obind_ret in A. destruct A as ([[[[ra va] za] rb] la] & A & C). cbv zeta in C.
    destruct (negb _); inv C; cbn; congruence.
  - unfold process_data in A. cbv zeta in A. destruct (_ =? 0); [inv A; cbn; congruence|].
    destruct (a_reader s); [|discriminate]. apply obind_ret in A. destruct A as ([[[ra o] rb] la] & A & C).
    destruct (negb _); [inv C; cbn; congruence|]. apply obind_ret in C. destruct C as ([[[io data] sa] wa] & C & D).
    assert (a_state sa <> SFailed).
    { destruct (from_read E w (zlen o)) as [[rr fr] wb]. destruct (negb _); [inv C; cbn; congruence|].
      apply obind_ret in C. destruct C as (d & _ & C). inv C. cbn. congruence. }
    destruct io; [inv D; auto|]. destruct (to_write E wa data). destruct (negb _); inv D; cbn; auto.
  - unfold process_size in A. destruct (a_reader s); [|discriminate].
    apply obind_ret in A. destruct A as ([[[[ra va] za] rb] la] & A & C). cbv zeta in C.
    destruct (negb _); inv C; cbn; congruence.
  - unfold process_data in A. cbv zeta in A. destruct (_ =? 0); [inv A; cbn; congruence|].
    destruct (a_reader s); [|discriminate]. apply obind_ret in A. destruct A as ([[[ra o] rb] la] & A & C).
    destruct (negb _); [inv C; cbn; congruence|]. cbn [obind] in C.
    destruct (to_write E w o). destruct (negb _); inv C; cbn; congruence.
  - unfold process_adjustment in A. destruct (a_reader s); [|discriminate].
    apply obind_ret in A. destruct A as ([[[[ra va] za] rb] la] & A & C). cbv zeta in C.
    destruct (negb _); [inv C; cbn; congruence|]. destruct (from_seek E w va). destruct (negb _); [inv C; cbn; congruence|].
    apply obind_ret in C. destruct C as (fo & _ & C). inv C. cbn. destruct (_ =? _); discriminate.
Qed.

Lemma once_offset : forall B s w r s1 w1, process_once E B s w = Ret (r, s1, w1) -> a_patch_offset s1 = a_patch_offset s.
Proof.
  intros B s w r s1 w1 H. unfold process_once in H.
  apply obind_ret in H. destruct H as ([[r0 s0] w0] & A & H).
  assert (K : a_patch_offset s0 = a_patch_offset s -> a_patch_offset s1 = a_patch_offset s).
  { intros K. destruct (a_state s); try (inv H; exact K); destruct (Z.ltb_spec r0 0); inv H; auto. }
  apply K. clear K H. destruct (a_state s) eqn:Es;
    try (apply obind_ret in A; destruct A as ([r2 s2] & A & A2); inv A2).
  - unfold process_init in A. destruct (a_to_init s).
    + unfold process_init_to_size in A. apply obind_ret in A. destruct A as ([[[ra va] za] la] & A & C). cbv zeta in C.
      destruct (negb _); [inv C; reflexivity|]. destruct (reader_init _ _); [|inv C; reflexivity].
      destruct (va <? 0); inv C; reflexivity.
    + unfold process_init_fixed_header in A. destruct (a_left s); [inv A; reflexivity|]. cbv zeta in A. destruct (negb _); inv A; reflexivity.
  - unfold process_dfpatch_size in A. destruct (a_reader s); [|discriminate].
    apply obind_ret in A. destruct A as ([[[[ra va] za] rb] la] & A & C). cbv zeta in C.
    destruct (negb _); [inv C; reflexivity|]. destruct (0 <? va); inv C; reflexivity.
  - unfold process_size in A. destruct (a_reader s); [|discriminate].
    apply obind_ret in A. destruct A as ([[[[ra va] za] rb] la] & A & C). cbv zeta in C.
    destruct (negb _); inv C; reflexivity.
  - unfold process_data in A. cbv zeta in A. destruct (_ =? 0); [inv A; reflexivity|].
    destruct (a_reader s); [|discriminate]. apply obind_ret in A. destruct A as ([[[ra o] rb] la] & A & C).
    destruct (negb _); [inv C; reflexivity|]. apply obind_ret in C. destruct C as ([[[io data] sa] wa] & C & D).
    assert (a_patch_offset sa = a_patch_offset s).
    { destruct (from_read E w (zlen o)) as [[rr fr] wb]. destruct (negb _); [inv C; reflexivity|].
      apply obind_ret in C. destruct C as (d & _ & C). inv C. cbn. congruence. }
    destruct io; [inv D; auto|]. destruct (to_write E wa data). destruct (negb _); inv D; cbn; auto.
  - unfold process_size in A. destruct (a_reader s); [|discriminate].
    apply obind_ret in A. destruct A as ([[[[ra va] za] rb] la] & A & C). cbv zeta in C.
    destruct (negb _); inv C; reflexivity.
  - unfold process_data in A. cbv zeta in A. destruct (_ =? 0); [inv A; reflexivity|].
    destruct (a_reader s); [|discriminate]. apply obind_ret in A. destruct A as ([[[ra o] rb] la] & A & C).
    destruct (negb _); [inv C; reflexivity|]. cbn [obind] in C.
    destruct (to_write E w o). destruct (negb _); inv C; reflexivity.
  - unfold process_adjustment in A. destruct (a_reader s); [|discriminate].
    apply obind_ret in A. destruct A as ([[[[ra va] za] rb] la] & A & C). cbv zeta in C.
    destruct (negb _); [inv C; reflexivity|]. destruct (from_seek E w va). destruct (negb _); [inv C; reflexivity|].
    apply obind_ret in C. destruct C as (fo & _ & C). inv C. reflexivity.
  - inv A. reflexivity.
  - inv A. reflexivity.
Qed.

Lemma once_alter : forall B s w, a_state s <> SInit -> process_once E B (alter x s) w = amap x (process_once E B s w).
Proof.
  intros B s w Hs. unfold process_once. change (a_state (alter x s)) with (a_state s). destruct (a_state s) eqn:Es; try congruence.
  - unfold process_dfpatch_size. cbn [alter a_reader a_rsize a_left]. destruct (a_reader s); [|reflexivity].
    destruct (unpack_size _ _ _) as [[[[[r1 v] z1] r2] l1]| |]; [|reflexivity..]. cbn [obind]. cbv zeta.
    destruct (r1 =? 0); cbn [negb].
    + destruct (0 <? v); reflexivity.
    + cbn [obind]. destruct (r1 <? 0); reflexivity.
  - unfold process_size. cbn [alter a_reader a_rsize a_left a_to_offset a_to_size]. destruct (a_reader s); [|reflexivity].
    destruct (common_process_size _ _ _ _ _) as [[[[[r1 v] z1] r2] l1]| |]; [|reflexivity..]. cbn [obind]. cbv zeta.
    destruct (r1 =? 0); cbn [negb]; [reflexivity|]. cbn [obind]. destruct (r1 <? 0); reflexivity.
  - unfold process_data. cbv zeta. cbn [alter a_reader a_rsize a_left a_chunk_size]. destruct (_ =? 0); [reflexivity|].
    destruct (a_reader s); [|reflexivity]. destruct (decompress _ _ _) as [[[[r1 o] r2] l1]| |]; [|reflexivity..]. cbn [obind].
    destruct (r1 =? 0); cbn [negb]; [|cbn [obind]; destruct (r1 <? 0); reflexivity].
    destruct (from_read E w (zlen o)) as [[rr fr] w3]. destruct (negb _); [reflexivity|].
    destruct (add_data o fr) as [dd| |]; [|reflexivity..]. cbn [obind]. destruct (to_write E w3 dd) as [rw w4]. destruct (negb _); reflexivity.
  - unfold process_size. cbn [alter a_reader a_rsize a_left a_to_offset a_to_size]. destruct (a_reader s); [|reflexivity].
    destruct (common_process_size _ _ _ _ _) as [[[[[r1 v] z1] r2] l1]| |]; [|reflexivity..]. cbn [obind]. cbv zeta.
    destruct (r1 =? 0); cbn [negb]; [reflexivity|]. cbn [obind]. destruct (r1 <? 0); reflexivity.
  - unfold process_data. cbv zeta. cbn [alter a_reader a_rsize a_left a_chunk_size]. destruct (_ =? 0); [reflexivity|].
    destruct (a_reader s); [|reflexivity]. destruct (decompress _ _ _) as [[[[r1 o] r2] l1]| |]; [|reflexivity..]. cbn [obind].
    destruct (r1 =? 0); cbn [negb]; [|cbn [obind]; destruct (r1 <? 0); reflexivity].
    cbn [obind]. destruct (to_write E w o) as [rw w4]. destruct (negb _); reflexivity.
  - unfold process_adjustment. cbn [alter a_reader a_rsize a_left]. destruct (a_reader s); [|reflexivity].
    destruct (unpack_size _ _ _) as [[[[[r1 v] z1] r2] l1]| |]; [|reflexivity..]. cbn [obind]. cbv zeta.
    destruct (r1 =? 0); cbn [negb].
    + destruct (from_seek E w v). destruct (negb _); [reflexivity|]. cbn [set_reader a_from_offset].
      destruct (int_add _ _); reflexivity.
    + cbn [obind]. destruct (r1 <? 0); reflexivity.
  - reflexivity.
  - reflexivity.
Qed.

Lemma loop_alter : forall fuel B res s w, a_state s <> SInit ->
  process_loop E fuel B res (alter x s) w = amap x (process_loop E fuel B res s w).
Proof.
  induction fuel; intros B res s w Hs; cbn [process_loop]; cbn [alter a_left]; destruct (a_left s); try reflexivity; destruct (res <? 0); try reflexivity.
  fold (alter x s). rewrite once_alter by auto. destruct (process_once E B s w) as [[[r s1] w1]| |] eqn:P; cbn [amap obind]; [|reflexivity..].
  apply IHfuel. eapply once_state; eauto.
Qed.

Lemma finloop_alter : forall fuel B s w, a_state s <> SInit ->
  finalize_loop E fuel B (alter x s) w = amap x (finalize_loop E fuel B s w).
Proof.
  induction fuel; intros B s w Hs; cbn [finalize_loop]; [reflexivity|].
  rewrite once_alter by auto. destruct (process_once E B s w) as [[[r s1] w1]| |] eqn:P; cbn [amap obind]; [|reflexivity..].
  destruct (r =? 0); [|reflexivity]. apply IHfuel. eapply once_state; eauto.
Qed.

(** Between calls the remembered piece does not matter either. *)
Definition recut (c : Z) (l : list Z) (s : ap) : ap :=
  mkap (a_patch_size s) (a_state s) (a_to_init s) (a_compression s) (a_patch_offset s)
       (a_to_offset s) (a_to_size s) (a_from_offset s) (a_chunk_size s)
       (a_reader s) (a_rsize s) c l (a_size s).

Lemma process_alter : forall fuel B s w c l p, a_state s <> SInit ->
  process E fuel B (recut c l (alter x s)) w p = amap x (process E fuel B s w p).
Proof.
  intros fuel B s w c l p Hs. unfold process. cbv zeta.
  change (set_chunk (set_patch_offset (recut c l (alter x s)) (wrap (a_patch_offset (recut c l (alter x s)) + zlen p))) p)
    with (alter x (set_chunk (set_patch_offset s (wrap (a_patch_offset s + zlen p))) p)).
  rewrite loop_alter by exact Hs. destruct (process_loop _ _ _ _ _ _) as [[[r s1] w1]| |]; reflexivity.
Qed.

Lemma finalize_alter : forall fuel B s w c l, a_state s <> SInit ->
  finalize E fuel B (recut c l (alter x s)) w = amap x (finalize E fuel B s w).
Proof.
  intros fuel B s w c l Hs. unfold finalize. cbv zeta.
  change (set_chunk (recut c l (alter x s)) []) with (alter x (set_chunk s [])).
  rewrite finloop_alter by exact Hs. destruct (finalize_loop _ _ _ _ _) as [[[r s1] w1]| |]; cbn [amap obind]; [|reflexivity..].
  cbn [alter a_reader a_to_size]. destruct (common_finalize _ _ _); reflexivity.
Qed.

Lemma loop_state : forall fuel B res s w r s1 w1, process_loop E fuel B res s w = Ret (r, s1, w1) -> a_state s <> SInit -> a_state s1 <> SInit.
Proof.
  induction fuel; intros B res s w r s1 w1 H Hs; cbn [process_loop] in H; destruct (a_left s); try (inv H; auto; fail); destruct (res <? 0); try (inv H; auto; fail).
  apply obind_ret in H. destruct H as ([[r2 s2] w2] & A & H). eapply IHfuel; [exact H|]. eapply once_state; eauto.
Qed.

Lemma finloop_state : forall fuel B s w r s1 w1, finalize_loop E fuel B s w = Ret (r, s1, w1) -> a_state s <> SInit -> a_state s1 <> SInit.
Proof.
  induction fuel; intros B s w r s1 w1 H Hs; cbn [finalize_loop] in H; [discriminate|].
  apply obind_ret in H. destruct H as ([[r2 s2] w2] & A & H).
  assert (a_state s2 <> SInit) by (eapply once_state; eauto). destruct (r2 =? 0); [eapply IHfuel; eauto|inv H; auto].
Qed.

Lemma process_state : forall fuel B s w p r s1 w1, process E fuel B s w p = Ret (r, s1, w1) -> a_state s <> SInit -> a_state s1 <> SInit.
Proof.
  intros fuel B s w p r s1 w1 H Hs. unfold process in H. cbv zeta in H. apply obind_ret in H. destruct H as ([[r2 s2] w2] & A & H). inv H.
  eapply loop_state; [exact A|exact Hs].
Qed.

Lemma finalize_state : forall fuel B s w r s1 w1, finalize E fuel B s w = Ret (r, s1, w1) -> a_state s <> SInit -> a_state s1 <> SInit.
Proof.
  intros fuel B s w r s1 w1 H Hs. unfold finalize in H. cbv zeta in H. apply obind_ret in H. destruct H as ([[r2 s2] w2] & A & H).
  apply obind_ret in H. destruct H as (v & _ & H). inv H. eapply finloop_state; [exact A|exact Hs].
Qed.

Lemma recut_id : forall s, recut (a_csize s) (a_left s) s = s.
Proof. intros []. reflexivity. Qed.

(** Same results and same effects from now on. *)
Lemma calls_alter : forall calls fuel s w c l, a_state s <> SInit ->
  match run_calls E fuel s w calls with
  | Ret (rs, s1, w1) => exists s2, run_calls E fuel (recut c l (alter x s)) w calls = Ret (rs, s2, w1)
  | Undef => run_calls E fuel (recut c l (alter x s)) w calls = Undef
  | OutOfFuel => run_calls E fuel (recut c l (alter x s)) w calls = OutOfFuel
  end.
Proof.
  induction calls as [|cl cs IH]; intros fuel s w c l Hs; cbn [run_calls]; [eauto|].
  assert (R : exists o, (match cl with CallProcess p => process E fuel 128 s w p | CallFinalize => finalize E fuel 128 s w end) = o /\
    (match cl with CallProcess p => process E fuel 128 (recut c l (alter x s)) w p | CallFinalize => finalize E fuel 128 (recut c l (alter x s)) w end) = amap x o /\
    forall r s1 w1, o = Ret (r, s1, w1) -> a_state s1 <> SInit).
  { destruct cl as [p|]; eexists; (split; [reflexivity|]).
    - rewrite process_alter by auto. split; [reflexivity|]. intros. eapply process_state; eauto.
    - rewrite finalize_alter by auto. split; [reflexivity|]. intros. eapply finalize_state; eauto. }
  destruct R as (o & -> & -> & R). destruct o as [[[r s1] w1]| |]; cbn [amap obind]; [|reflexivity..].
  specialize (IH fuel s1 w1 (a_csize (alter x s1)) (a_left (alter x s1)) (R _ _ _ eq_refl)). rewrite recut_id in IH.
  destruct (run_calls E fuel s1 w1 cs) as [[[rs s2] w2]| |].
  - destruct IH as (s3 & ->). cbn [obind]. eauto.
  - rewrite IH. reflexivity.
  - rewrite IH. reflexivity.
Qed.

Lemma feed_alter : forall chunks fuel s w c l, a_state s <> SInit ->
  feed E fuel 128 (recut c l (alter x s)) w chunks = amap x (feed E fuel 128 s w chunks).
Proof.
  induction chunks as [|p cs IH]; intros fuel s w c l Hs; cbn [feed]; [apply finalize_alter; auto|].
  rewrite process_alter by auto. destruct (process E fuel 128 s w p) as [[[r s1] w1]| |] eqn:P; cbn [amap obind]; [|reflexivity..].
  assert (a_state s1 <> SInit) by (eapply process_state; eauto).
  destruct (r =? 0).
  - specialize (IH fuel s1 w1 (a_csize (alter x s1)) (a_left (alter x s1))). rewrite recut_id in IH. auto.
  - pose proof (finalize_alter fuel 128 s1 w1 (a_csize (alter x s1)) (a_left (alter x s1))) as F. rewrite recut_id in F. rewrite F by auto.
    destruct (finalize E fuel 128 s1 w1) as [[[r2 s2] w2]| |]; reflexivity.
Qed.

End Alter.

(** ** The decoder exists once a byte of the body has been read *)

Section Inv.
Context {WBits : WordBits}.
Hypothesis Hword : 32 <= word_bits.
Variables from patch : list Z.
Variable ps : Z.
Hypothesis Hpatch : bytes_ok patch.
Hypothesis Hlen : zlen patch < 2 ^ word_bits.
Hypothesis Hfrom : zlen from <= INT_MAX.

Definition settled (r : reader) : Prop :=
  match r with RHs h => hr_window h <> -1 /\ hr_ptr h = true | _ => True end.

Definition virgin (f : list Z) (r : reader) (left : list Z) : Prop :=
  settled r \/ (exists h, r = RHs h /\ hr_window h = -1) /\ left ++ f = body_of patch /\ announced_comp patch = 4.

Lemma dec_settled : forall r left n res o r1 l1, settled r -> decompress r left n = Ret (res, o, r1, l1) -> settled r1.
Proof.
  intros [a b|s|h] left n res o r1 l1 H E; cbn [decompress] in E.
  - unfold none_decompress in E. destruct (_ <? _); [inv E; exact I|]. destruct left; inv E; exact I.
  - apply obind_ret in E. destruct E as ([[[? ?] ?] ?] & _ & E). inv E. exact I.
  - apply obind_ret in E. destruct E as ([[[ra oa] ha] la] & A & E). inv E. destruct H as [H1 H2]. unfold hs_decompress in A.
    destruct (Z.eqb_spec (hr_window h) (-1)); [congruence|]. rewrite H2 in A. destruct (hr_dec h); [|discriminate].
    apply obind_ret in A. destruct A as ([[[? ?] ?] ?] & _ & A). inv A. split; auto.
Qed.

Lemma dec_virgin : forall f r left n res o r1 l1, virgin f r left -> decompress r left n = Ret (res, o, r1, l1) -> 0 <= res ->
  settled r1 \/ res = 1 /\ (exists h, r1 = RHs h /\ hr_window h = -1) /\ l1 ++ f = body_of patch /\ announced_comp patch = 4.
Proof.
  intros f r left n res o r1 l1 H E Hr. destruct H as [H|(_ & H & Hc4)]; [left; eapply dec_settled; eauto|].
  destruct r as [a b|s|h]; cbn [decompress] in E.
  - left. unfold none_decompress in E. destruct (_ <? _); [inv E; exact I|]. destruct left; inv E; exact I.
  - left. apply obind_ret in E. destruct E as ([[[? ?] ?] ?] & _ & E). inv E. exact I.
  - apply obind_ret in E. destruct E as ([[[ra oa] ha] la] & A & E). inv E. unfold hs_decompress in A.
    destruct (Z.eqb_spec (hr_window h) (-1)) as [Ew|Nw].
    + destruct left as [|b l]; [inv A; right; splits; eauto|].
      destruct (Z.eqb_spec (Z.land (Z.shiftr b 4) 15 + 4) HS_WINDOW); cbn [negb orb] in A; [|inv A; unfold E_HEATSHRINK_HEADER in Hr; lia].
      destruct (negb _); [inv A; unfold E_HEATSHRINK_HEADER in Hr; lia|]. cbn [hr_ptr hr_dec] in A.
      rewrite e in A. apply obind_ret in A. destruct A as ([[[? ?] ?] ?] & _ & A). inv A. left. split; [discriminate|reflexivity].
    + destruct (hr_ptr h); [|inv A; unfold E_HEATSHRINK_POLL in Hr; lia]. destruct (hr_dec h); [|discriminate].
      apply obind_ret in A. destruct A as ([[[? ?] ?] ?] & _ & A). inv A. left. split; auto.
Qed.

Lemma unpack_virgin : forall K f z r left b n res v z1 r1 l1, virgin f r left -> unpack_size_loop K z r left b n = Ret (res, v, z1, r1, l1) -> 0 <= res ->
  (res = 0 -> settled r1) /\ virgin f r1 l1.
Proof.
  induction K; intros f z r left b n res v z1 r1 l1 H E Hr; cbn [unpack_size_loop] in E; [discriminate|].
  apply obind_ret in E. destruct E as ([[[r0 o0] r2] l2] & A & E).
  destruct (Z.eqb_spec r0 0) as [->|N]; cbn [negb] in E.
  - pose proof (dec_virgin _ _ _ _ _ _ _ _ H A (Z.le_refl 0)) as D. destruct D as [D|[D _]]; [|lia].
    destruct (match o0 with [] => b | x :: _ => Some x end); [|discriminate].
    apply obind_ret in E. destruct E as ([z2|] & B & E); [|inv E; unfold E_CORRUPT_PATCH_OVERFLOW in Hr; lia].
    destruct (_ =? 0); [inv E; split; [auto|left; auto]|]. eapply IHK; [|exact E|exact Hr]. left. exact D.
  - inv E. pose proof (dec_virgin _ _ _ _ _ _ _ _ H A Hr) as D. split; [intros; congruence|]. destruct D as [D|[_ D]]; [left|right]; auto.
Qed.

Lemma unpack_settled : forall K z r left b n res v z1 r1 l1, settled r -> unpack_size_loop K z r left b n = Ret (res, v, z1, r1, l1) -> settled r1.
Proof.
  induction K; intros z r left b n res v z1 r1 l1 H E; cbn [unpack_size_loop] in E; [discriminate|].
  apply obind_ret in E. destruct E as ([[[r0 o0] r2] l2] & A & E). apply dec_settled in A; [|auto].
  destruct (r0 =? 0); cbn [negb] in E; [|inv E; auto].
  destruct (match o0 with [] => b | x :: _ => Some x end); [|discriminate].
  apply obind_ret in E. destruct E as ([z2|] & B & E); [|inv E; auto]. destruct (_ =? 0); [inv E; auto|eauto].
Qed.

(** ** The invariant *)

Definition common_ok (s : ap) (w : files) : Prop :=
  f_from w = from /\ a_patch_size s = ps /\ f_pos w = a_from_offset s /\ 0 <= a_from_offset s <= INT_MAX /\
  a_to_offset s = wrap (zlen (f_to w)).

Definition comp_ok (s : ap) : Prop := a_compression s = 0 \/ a_compression s = 2 \/ a_compression s = 4.

Definition kinv (f : list Z) (s : ap) (w : files) : Prop :=
  a_state s = SFailed \/
  common_ok s w /\
  match a_state s with
  | SInit => w = mkfiles from 0 [] /\ a_from_offset s = 0 /\ a_to_offset s = 0 /\ bytes_ok (a_left s) /\
      if a_to_init s then
        zok (a_size s) /\ a_compression s = announced_comp patch /\
        forall v z1 l1, unpack_header_size (a_left s ++ f) (a_size s) = Ret (0, v, z1, l1) ->
          announced_size patch = Some v /\ l1 = body_of patch
      else a_left s ++ f = patch
  | SDone => comp_ok s /\ exists r, a_reader s = Some r /\ (settled r \/ announced_size patch = Some 0 /\ announced_comp patch = 4 /\ zlen f <= zlen (body_of patch))
  | SDfpatchSize => comp_ok s /\ exists r, a_reader s = Some r /\ virgin f r (a_left s)
  | _ => comp_ok s /\ exists r, a_reader s = Some r /\ settled r
  end.

Lemma once_kinv : forall f s w res s1 w1, bytes_ok f -> kinv f s w ->
  process_once file_env 128 s w = Ret (res, s1, w1) -> kinv f s1 w1.
Proof.
  intros f s w res s1 w1 Hf Hi H. pose proof (pow2_32_le word_bits Hword).
  destruct Hi as [Es|[Hc Hi]].
  { unfold process_once in H. rewrite Es in H. inv H. left. reflexivity. }
  unfold process_once in H. apply obind_ret in H. destruct H as ([[r0 s0] w0] & A & H).
  assert (K : (0 <= r0 -> kinv f s0 w0) -> a_state s <> SDone -> kinv f s1 w1).
  { intros K Hnd. assert (Hx : Ret (r0, if r0 <? 0 then set_st s0 SFailed else s0, w0) = Ret (res, s1, w1)) by (destruct (a_state s); try exact H; congruence).
    inv Hx. destruct (Z.ltb_spec res 0); [left; reflexivity|auto]. }
  destruct (a_state s) eqn:Es; try (apply K; [|discriminate]; intros Hr); clear K.
  - inv A. apply obind_ret in H2. destruct H2 as ([r2 s2] & A & A2). inv A2. clear H. destruct Hi as (I1 & I2 & I3 & I4 & I5).
    unfold process_init in A. destruct (a_to_init s) eqn:Et.
    + destruct I5 as (Hz & Hcm & Hi). unfold process_init_to_size in A.
      destruct (uhs_app (a_left s) (a_size s) f Hz)
        as [(z1 & P & Q & R)|[(v & z1 & l1 & used & P & Q & R & S)|(z1 & l1 & P & R)]]; rewrite P in A; cbn [obind] in A; cbv zeta in A.
      * change (negb (1 =? 0)) with true in A. cbv iota in A. inv A. right. split; [exact Hc|]. cbn. rewrite Es, Et. splits; auto; [constructor|].
        intros v z2 l2 U. apply (Hi v z2 l2). rewrite R. exact U.
      * change (negb (0 =? 0)) with false in A. cbv iota in A.
        destruct (Hi _ _ _ S) as [J1 J2].
        destruct (reader_init _ _) as [r|] eqn:Er; [|inv A; unfold E_BAD_COMPRESSION in Hr; lia].
        destruct (Z.ltb_spec v 0); [lia|]. inv A.
        assert (Hcomp : comp_ok s).
        { unfold reader_init in Er. cbn [set_header a_compression] in Er. unfold comp_ok.
          destruct (Z.eqb_spec (a_compression s) 0); [auto|]. destruct (Z.eqb_spec (a_compression s) 2); [auto|].
          destruct (Z.eqb_spec (a_compression s) 4); [auto|discriminate]. }
        assert (Hset : settled r \/ (exists h, r = RHs h /\ hr_window h = -1) /\ announced_comp patch = 4).
        { unfold reader_init in Er. cbn [set_header a_compression] in Er. rewrite Hcm in Er.
          destruct (_ =? 0); [inv Er; left; exact I|]. destruct (_ =? 2); [inv Er; left; exact I|].
          destruct (Z.eqb_spec (announced_comp patch) 4); [|discriminate]. inv Er. right. eauto. }
        right. split; [exact Hc|]. cbn. destruct (Z.ltb_spec 0 v); (split; [exact Hcomp|]; exists r; split; [reflexivity|]); (destruct Hset as [Hset|[Hset1 Hset2]]; [left; auto|right; splits; auto]).
        -- rewrite J1. f_equal. lia.
        -- rewrite <- J2, zlen_app. pose proof (zlen_nonneg l1). lia.
      * change (negb (- E_CORRUPT_PATCH_OVERFLOW =? 0)) with true in A. cbv iota in A. inv A. unfold E_CORRUPT_PATCH_OVERFLOW in Hr. lia.
    + unfold process_init_fixed_header in A. destruct (a_left s) as [|b l] eqn:El; [inv A; unfold E_SHORT_HEADER in Hr; lia|].
      cbv zeta in A. destruct (negb _); inv A; [unfold E_BAD_PATCH_TYPE in Hr; lia|].
      inv I4. right. split; [exact Hc|]. cbn. rewrite Es. splits; auto; [intros X; discriminate|rewrite <- I5; reflexivity|].
      intros v z1 l1 U. rewrite <- I5. cbn [app]. eapply (announced_body b); [| |exact U]; [apply Forall_app; auto|reflexivity].
  - apply obind_ret in A. destruct A as ([ra sa] & A & A2). inv A2. destruct Hi as (I1 & r & I2 & I3). unfold process_dfpatch_size in A. rewrite I2 in A.
    apply obind_ret in A. destruct A as ([[[[rb vb] zb] rc] lb] & A & C). cbv zeta in C. unfold unpack_size in A.
    destruct (Z.eqb_spec rb 0) as [->|N]; cbn [negb] in C.
    + destruct (unpack_virgin _ _ _ _ _ _ _ _ _ _ _ _ I3 A (Z.le_refl 0)) as [U _]. destruct (0 <? vb); inv C; [unfold E_NOT_IMPLEMENTED in Hr; lia|].
      right. split; [exact Hc|]. cbn. split; [exact I1|]. eauto.
    + inv C. destruct (unpack_virgin _ _ _ _ _ _ _ _ _ _ _ _ I3 A Hr) as [_ U].
      right. split; [exact Hc|]. cbn. rewrite Es. split; [exact I1|]. eauto.
  - apply obind_ret in A. destruct A as ([ra sa] & A & A2). inv A2. destruct Hi as (I1 & r & I2 & I3). unfold process_size in A. rewrite I2 in A.
    apply obind_ret in A. destruct A as ([[[[rb vb] zb] rc] lb] & A & C). cbv zeta in C. unfold common_process_size in A.
    apply obind_ret in A. destruct A as ([[[[rd vd] zd] re] ld] & A & D). unfold unpack_size in A. apply unpack_settled in A; [|auto].
    assert (rc = re) by (destruct (negb (rd =? 0)); [inv D; auto|]; destruct (_ <? _); inv D; auto). subst re.
    right. destruct (negb (rb =? 0)); inv C; (split; [exact Hc|]); cbn; rewrite ?Es; (split; [exact I1|]); eauto.
  - destruct Hi as (I1 & r & I2 & I3). unfold process_data in A. cbv zeta in A.
    destruct (_ =? 0). { inv A. right. split; [exact Hc|]. cbn. split; [exact I1|]. eauto. }
    rewrite I2 in A. apply obind_ret in A. destruct A as ([[[ra o] rb] la] & A & C). apply dec_settled in A; [|auto].
    destruct (negb _). { inv C. right. split; [exact Hc|]. cbn. rewrite Es. split; [exact I1|]. eauto. }
    apply obind_ret in C. destruct C as ([[[io data] sa] wa] & C & D).
    destruct Hc as (C1 & C2 & C3 & C4 & C5).
    cbn [file_env from_read] in C. unfold file_read in C. pose proof (zlen_nonneg o).
    destruct (Z.eqb_spec (zlen o) 0) as [Eo|No].
    + change (negb (0 =? 0)) with false in C. cbv iota in C. apply obind_ret in C. destruct C as (d & C & Y). inv Y. cbv iota in D.
      apply add_data_len in C. cbn [file_env to_write file_write] in D. change (negb (0 =? 0)) with false in D. cbv iota in D. inv D.
      right. split.
      * unfold common_ok. cbn. rewrite zlen_app, C, Eo, Z.add_0_r, to_int_small by (unfold INT_MIN, INT_MAX in *; lia).
        splits; auto; try lia. rewrite !Z.add_0_r, C5. unfold wrap. rewrite Z.mod_mod by lia. reflexivity.
      * cbn. rewrite Es. split; [exact I1|]. eauto.
    + destruct (_ && _) eqn:Eb; [|inv C; cbv iota in D; inv D; unfold E_IO_FAILED in Hr; lia].
      rewrite C1, C3 in Eb.
      change (negb (0 =? 0)) with false in C. cbv iota in C. apply obind_ret in C. destruct C as (d & C & Y). inv Y. cbv iota in D.
      apply add_data_len in C. cbn [file_env to_write file_write] in D. change (negb (0 =? 0)) with false in D. cbv iota in D. inv D.
      right. split.
      * unfold common_ok. cbn. rewrite zlen_app, C, to_int_small by (unfold INT_MIN, INT_MAX in *; lia).
        splits; auto; try lia. rewrite C5. unfold wrap. rewrite Z.add_mod_idemp_l by lia. reflexivity.
      * cbn. rewrite Es. split; [exact I1|]. eauto.
  - apply obind_ret in A. destruct A as ([ra sa] & A & A2). inv A2. destruct Hi as (I1 & r & I2 & I3). unfold process_size in A. rewrite I2 in A.
    apply obind_ret in A. destruct A as ([[[[rb vb] zb] rc] lb] & A & C). cbv zeta in C. unfold common_process_size in A.
    apply obind_ret in A. destruct A as ([[[[rd vd] zd] re] ld] & A & D). unfold unpack_size in A. apply unpack_settled in A; [|auto].
    assert (rc = re) by (destruct (negb (rd =? 0)); [inv D; auto|]; destruct (_ <? _); inv D; auto). subst re.
    right. destruct (negb (rb =? 0)); inv C; (split; [exact Hc|]); cbn; rewrite ?Es; (split; [exact I1|]); eauto.
  - destruct Hi as (I1 & r & I2 & I3). unfold process_data in A. cbv zeta in A.
    destruct (_ =? 0). { inv A. right. split; [exact Hc|]. cbn. split; [exact I1|]. eauto. }
    rewrite I2 in A. apply obind_ret in A. destruct A as ([[[ra o] rb] la] & A & C). apply dec_settled in A; [|auto].
    destruct (negb _). { inv C. right. split; [exact Hc|]. cbn. rewrite Es. split; [exact I1|]. eauto. }
    cbn [obind] in C. destruct Hc as (C1 & C2 & C3 & C4 & C5).
    cbn [file_env to_write file_write] in C. change (negb (0 =? 0)) with false in C. cbv iota in C. inv C.
    right. split.
    + unfold common_ok. cbn. rewrite zlen_app. splits; auto; try lia. rewrite C5. unfold wrap. rewrite Z.add_mod_idemp_l by lia. reflexivity.
    + cbn. rewrite Es. split; [exact I1|]. eauto.
  - destruct Hi as (I1 & r & I2 & I3). unfold process_adjustment in A. rewrite I2 in A.
    apply obind_ret in A. destruct A as ([[[[rb vb] zb] rc] lb] & A & C). cbv zeta in C. unfold unpack_size in A. apply unpack_settled in A; [|auto].
    destruct (negb _). { inv C. right. split; [exact Hc|]. cbn. rewrite Es. split; [exact I1|]. eauto. }
    destruct Hc as (C1 & C2 & C3 & C4 & C5).
    cbn [file_env from_seek] in C. unfold file_seek in C. destruct (Z.ltb_spec (f_pos w + vb) 0).
    { change (negb (-16 =? 0)) with true in C. cbv iota in C. inv C. unfold E_IO_FAILED in Hr; lia. }
    change (negb (0 =? 0)) with false in C. cbv iota in C. apply obind_ret in C. destruct C as (fo & C & Y). inv Y.
    cbn [set_reader a_from_offset] in C. unfold int_add in C. destruct (in_int _) eqn:Ei; inv C. unfold in_int in Ei.
    right. split.
    + unfold common_ok. cbn. splits; auto; lia.
    + cbn. destruct (_ =? _); (split; [exact I1|]); eauto.
  - inv A. inv H. right. rewrite Es. split; auto.
  - inv A. unfold E_ALREADY_FAILED in Hr. lia.
Qed.

Lemma loop_neg : forall {W} (E : seq_env W) fuel B r s w, r < 0 -> process_loop E fuel B r s w = Ret (r, s, w).
Proof. clear. intros W E fuel B r s w H. destruct fuel; cbn [process_loop]; destruct (a_left s); auto; destruct (Z.ltb_spec r 0); auto; lia. Qed.

Lemma loop_kinv : forall fuel f res s w res1 s1 w1, bytes_ok f -> kinv f s w ->
  process_loop file_env fuel 128 res s w = Ret (res1, s1, w1) ->
  0 <= res -> a_state s <> SFailed ->
  kinv f s1 w1 /\ (0 <= res1 \/ res1 = - E_ALREADY_DONE -> a_state s1 <> SFailed /\ (a_left s1 = [] \/ a_state s1 = SDone)).
Proof.
  induction fuel; intros f res s w res1 s1 w1 Hf Hi X Hr Hs; cbn [process_loop] in X; destruct (a_left s) eqn:El; try (inv X; split; auto; fail);
    (destruct (Z.ltb_spec res 0); [lia|]); [discriminate|].
  apply obind_ret in X. destruct X as ([[r2 s2] w2] & A & X).
  pose proof (once_kinv _ _ _ _ _ _ Hf Hi A) as Hi2. pose proof A as A'. apply once_code in A.
  destruct A as [(A1 & A2 & A3 & A4)|[(A1 & A2 & A3 & A4)|(A1 & A2 & A3 & A4)]]; subst.
  - rewrite loop_neg in X by (unfold E_ALREADY_DONE; lia). inv X. split; [auto|]. intros _. split; [congruence|auto].
  - congruence.
  - destruct (Z.ltb_spec r2 0).
    + rewrite loop_neg in X by auto. inv X. split; [auto|]. intros Y. exfalso. destruct Y as [|Y]; [lia|]. destruct A3 as [|[|[]]]; congruence || lia.
    + eapply IHfuel; eauto. eapply once_nf; eauto.
Qed.

Lemma kinv_chunk : forall f s w p, bytes_ok p -> kinv (p ++ f) (set_chunk s []) w -> kinv f (set_chunk s p) w.
Proof.
  intros f s w p Hp [H|[Hc H]]; [left; auto|right]. split; [exact Hc|]. cbn in *. destruct (a_state s); auto.
  - destruct H as (A & B & C & _ & D). splits; auto.
  - destruct H as (A & r & B & [D|(D1 & D2 & D3)]); (split; [exact A|]; exists r; split; [exact B|]); [left; auto|right]. splits; auto.
    rewrite zlen_app in D3. pose proof (zlen_nonneg p). lia.
Qed.

Lemma kinv_left : forall f s w, kinv f s w -> a_left s = [] \/ a_state s = SDone -> kinv f (set_chunk s []) w.
Proof.
  intros f s w [H|[Hc H]] L; [left; auto|right]. split; [exact Hc|]. destruct L as [L|L].
  - cbn. destruct (a_state s); rewrite ?L in *; auto.
  - cbn. rewrite L in *. auto.
Qed.

Lemma kinv_offset : forall f s w o, kinv f (set_patch_offset s o) w <-> kinv f s w.
Proof. intros. unfold kinv. cbn. tauto. Qed.

Lemma process_kinv : forall fuel f s w p s1 w1, bytes_ok f -> bytes_ok p -> kinv (p ++ f) (set_chunk s []) w -> a_state s <> SFailed ->
  process file_env fuel 128 s w p = Ret (0, s1, w1) ->
  kinv f (set_chunk s1 []) w1 /\ a_state s1 <> SFailed.
Proof.
  intros fuel f s w p s1 w1 Hf Hp Hi Hs X. unfold process in X. cbv zeta in X. apply obind_ret in X. destruct X as ([[r2 s2] w2] & A & X). inv X.
  assert (Hk : kinv f (set_chunk (set_patch_offset s (wrap (a_patch_offset s + zlen p))) p) w).
  { apply kinv_chunk in Hi; [|auto]. unfold kinv in *. cbn in *. exact Hi. }
  destruct (loop_kinv _ _ _ _ _ _ _ _ Hf Hk A (Z.le_refl 0) Hs) as [B C].
  destruct C as [C1 C2].
  - unfold E_ALREADY_DONE. destruct ((r2 =? 1) || (r2 =? -11)) eqn:Q; lia.
  - split; [apply kinv_left; auto|auto].
Qed.

Lemma process_offset : forall {W} (E : seq_env W) fuel s w p r s1 w1, process E fuel 128 s w p = Ret (r, s1, w1) ->
  a_patch_offset s1 = wrap (a_patch_offset s + zlen p).
Proof.
  clear. intros W E fuel s w p r s1 w1 X. unfold process in X. cbv zeta in X. apply obind_ret in X. destruct X as ([[r2 s2] w2] & A & X). inv X.
  assert (K : forall fuel res s w r s1 w1, process_loop E fuel 128 res s w = Ret (r, s1, w1) -> a_patch_offset s1 = a_patch_offset s).
  { clear. induction fuel; intros res s w r s1 w1 X; cbn [process_loop] in X; destruct (a_left s); try (inv X; auto; fail);
      (destruct (res <? 0); [inv X; auto|]); [discriminate|].
    apply obind_ret in X. destruct X as ([[r2 s2] w2] & A & X). apply once_offset in A. apply IHfuel in X. congruence. }
  apply K in A. exact A.
Qed.


(** ** Every session looks like an uninterrupted one *)

Definition zeros (cs : list (list Z)) : list Z := map (fun _ => 0) cs.

Lemma run_app : forall {W} (E : seq_env W) fuel a b s w rs s1 w1, run_calls E fuel s w a = Ret (rs, s1, w1) ->
  run_calls E fuel s w (a ++ b) = letm (rs2, s2, w2) := run_calls E fuel s1 w1 b in Ret (rs ++ rs2, s2, w2).
Proof.
  clear. induction a as [|c a IH]; intros b s w rs s1 w1 X; cbn [run_calls app] in *.
  - inv X. destruct (run_calls E fuel s1 w1 b) as [[[? ?] ?]| |]; reflexivity.
  - apply obind_ret in X. destruct X as ([[r2 s2] w2] & A & X). rewrite A. cbn [obind].
    apply obind_ret in X. destruct X as ([[rs3 s3] w3] & B & X). inv X. rewrite (IH b _ _ _ _ _ B).
    destruct (run_calls E fuel s1 w1 b) as [[[? ?] ?]| |]; reflexivity.
Qed.

Lemma run_mono : forall {W} (E : seq_env W) fuel fuel' a s w rs s1 w1, run_calls E fuel s w a = Ret (rs, s1, w1) -> (fuel <= fuel')%nat ->
  run_calls E fuel' s w a = Ret (rs, s1, w1).
Proof.
  clear. induction a as [|c a IH]; intros s w rs s1 w1 X Hf; cbn [run_calls] in *; [auto|].
  apply obind_ret in X. destruct X as ([[r2 s2] w2] & A & X).
  assert (B : match c with CallProcess p => process E fuel' 128 s w p | CallFinalize => finalize E fuel' 128 s w end = Ret (r2, s2, w2)).
  { destruct c; [eapply process_mono; eauto; discriminate|eapply finalize_mono; eauto; discriminate]. }
  rewrite B. cbn [obind]. apply obind_ret in X. destruct X as ([[rs3 s3] w3] & C & X). inv X. rewrite (IH _ _ _ _ _ C Hf). reflexivity.
Qed.

Lemma run_feed : forall {W} (E : seq_env W) fuel cs chunks s w s1 w1, run_calls E fuel s w (map CallProcess cs) = Ret (zeros cs, s1, w1) ->
  feed E fuel 128 s w (cs ++ chunks) = feed E fuel 128 s1 w1 chunks.
Proof.
  clear. induction cs as [|c cs IH]; intros chunks s w s1 w1 X; cbn [run_calls map app zeros feed] in *; [inv X; auto|].
  apply obind_ret in X. destruct X as ([[r2 s2] w2] & A & X). rewrite A. cbn [obind].
  apply obind_ret in X. destruct X as ([[rs3 s3] w3] & C & X). inv X. cbn [Z.eqb]. apply IH; auto.
Qed.

Definition w0 : files := mkfiles from 0 [].

Definition prime (s : ap) : ap :=
  mkap (a_patch_size s) (a_state s) (a_to_init s) (a_compression s) (a_patch_offset s)
       (a_to_offset s) (a_to_size s) (a_from_offset s) (a_chunk_size s)
       (restore_reader (a_reader s)) (a_rsize s) (a_csize s) (a_left s) (a_size s).

(** In front of the first byte of a heatshrink body. *)
Definition unsettled (s : ap) (rest : list Z) : Prop :=
  a_state s = SDfpatchSize /\ (exists h, a_reader s = Some (RHs h) /\ hr_window h = -1) /\
  hd_error rest = Some HS_FIRST_BYTE.

Lemma decompress_prime : forall h l n, hr_window h = -1 ->
  decompress (RHs (mkhr (hr_window h) (hr_lookahead h) true (hr_dec h))) (HS_FIRST_BYTE :: l) n = decompress (RHs h) (HS_FIRST_BYTE :: l) n.
Proof. intros h l n E. unfold decompress, hs_decompress. cbn [hr_window hr_lookahead hr_ptr hr_dec]. rewrite E. reflexivity. Qed.

Lemma once_prime : forall {W} (E : seq_env W) B s w l h, a_state s = SDfpatchSize -> a_reader s = Some (RHs h) -> hr_window h = -1 ->
  a_left s = HS_FIRST_BYTE :: l -> process_once E B (prime s) w = process_once E B s w.
Proof.
  intros W E B s w l h Es Er Eh El. unfold process_once. cbn [prime a_state]. rewrite Es.
  unfold process_dfpatch_size. cbn [prime a_reader a_rsize a_left]. rewrite Er, El. cbn [restore_reader].
  assert (U : unpack_size (a_rsize s) (RHs (mkhr (hr_window h) (hr_lookahead h) true (hr_dec h))) (HS_FIRST_BYTE :: l) = unpack_size (a_rsize s) (RHs h) (HS_FIRST_BYTE :: l)).
  { unfold unpack_size. generalize (length (HS_FIRST_BYTE :: l)). intros n. change (10 + 0)%nat with 10%nat.
    match goal with |- unpack_size_loop ?K _ _ _ _ _ = _ => destruct K; [reflexivity|] end.
    cbn [unpack_size_loop]. rewrite decompress_prime by auto. reflexivity. }
  rewrite U. destruct (unpack_size _ _ _) as [[[[[ra va] za] rb] la]| |]; [|reflexivity..]. cbn [obind]. cbv zeta. reflexivity.
Qed.

Lemma process_prime : forall {W} (E : seq_env W) fuel B s w l, unsettled s (HS_FIRST_BYTE :: l) ->
  process E fuel B (prime s) w (HS_FIRST_BYTE :: l) = process E fuel B s w (HS_FIRST_BYTE :: l).
Proof.
  intros W E fuel B s w l (Es & (h & Er & Eh) & _). unfold process. cbv zeta.
  destruct fuel; [reflexivity|]. cbn [process_loop]. cbn [set_chunk a_left]. change (0 <? 0) with false. cbv iota.
  change (set_chunk (set_patch_offset (prime s) (wrap (a_patch_offset (prime s) + zlen (HS_FIRST_BYTE :: l)))) (HS_FIRST_BYTE :: l))
    with (prime (set_chunk (set_patch_offset s (wrap (a_patch_offset s + zlen (HS_FIRST_BYTE :: l)))) (HS_FIRST_BYTE :: l))).
  rewrite (once_prime E B (set_chunk (set_patch_offset s (wrap (a_patch_offset s + zlen (HS_FIRST_BYTE :: l)))) (HS_FIRST_BYTE :: l)) w l h) by auto.
  reflexivity.
Qed.

Definition same (s s' : ap) (rest : list Z) : Prop :=
  s = s' \/
  a_state s' <> SInit /\ exists x c l, s = recut c l (alter x s') \/ s = recut c l (alter x (prime s')) /\ unsettled s' rest.

Definition shadow (s : ap) (w : files) : Prop :=
  a_state s <> SFailed /\ 0 <= a_patch_offset s <= zlen patch /\ kinv (zdrop (a_patch_offset s) patch) (set_chunk s []) w /\
  exists junk cs s' fuel,
    run_calls file_env fuel (ap_init junk ps) w0 (map CallProcess cs) = Ret (zeros cs, s', w) /\
    concat cs = ztake (a_patch_offset s) patch /\
    (announced_comp patch = 0 -> cs <> [] -> header_complete (hd [] cs) = true) /\
    same s s' (zdrop (a_patch_offset s) patch).

Lemma shadow_start : forall junk, shadow (ap_init junk ps) w0.
Proof.
  intros junk. unfold shadow. cbn [ap_init a_state a_patch_offset]. pose proof (zlen_nonneg patch). pose proof (pow2_32_le word_bits Hword). splits; try lia; [discriminate| |].
  - right. split; [unfold common_ok; cbn; splits; auto; unfold INT_MAX; try lia; change (zlen (@nil Z)) with 0; rewrite wrap_small; lia|].
    cbn. splits; auto. constructor.
  - exists junk, [], (ap_init junk ps), O. cbn. splits; auto; try congruence. left. reflexivity.
Qed.

Lemma process_same : forall {W} (E : seq_env W) fuel s s' w p rest r s1 w1, same s s' (p ++ rest) ->
  process E fuel 128 s w p = Ret (r, s1, w1) ->
  exists s1', process E fuel 128 s' w p = Ret (r, s1', w1) /\ same s1 s1' rest.
Proof.
  intros W E fuel s s' w p rest r s1 w1 S X. destruct S as [->|(N & x & c & l & S)]; [exists s1; split; [auto|left; auto]|].
  assert (K : process E fuel 128 (recut c l (alter x s')) w p = Ret (r, s1, w1) -> exists s1', process E fuel 128 s' w p = Ret (r, s1', w1) /\ same s1 s1' rest).
  { intros Y. rewrite process_alter in Y by auto.
    destruct (process E fuel 128 s' w p) as [[[r' s1'] w1']| |] eqn:P; cbn [amap] in Y; [|discriminate|discriminate].
    injection Y as -> <- <-. exists s1'. split; [auto|]. right.
    split; [eapply process_state; eauto|]. exists x, (a_csize (alter x s1')), (a_left (alter x s1')). left. rewrite recut_id. reflexivity. }
  destruct S as [->|(-> & U)]; [auto|]. destruct p as [|b p'].
  - unfold process in *. cbv zeta in *. destruct fuel; cbn [process_loop set_chunk a_left obind] in *; inv X;
      (eexists; split; [reflexivity|]; right; split; [exact N|]; exists x, 0, []; right; split; [reflexivity|exact U]).
  - assert (b = HS_FIRST_BYTE) by (destruct U as (_ & _ & U); inv U; auto). subst b.
    apply K. rewrite process_alter in X |- * by exact N.
    rewrite process_prime in X; [exact X|]. destruct U as (U1 & U2 & U3). split; [auto|]. split; [auto|reflexivity].
Qed.

Lemma shadow_process : forall s w n fuel s1 w1, shadow s w ->
  0 <= n <= zlen patch - get_patch_offset s ->
  (announced_comp patch = 0 -> get_patch_offset s = 0 -> header_complete (piece_at patch 0 n) = true) ->
  process file_env fuel 128 s w (piece_at patch (get_patch_offset s) n) = Ret (0, s1, w1) ->
  shadow s1 w1.
Proof.
  intros s w n fuel s1 w1 (S1 & S2 & S3 & junk & cs & s' & fuel0 & S4 & S5 & S6 & S7) Hn Hh X. unfold get_patch_offset in *.
  set (p := piece_at patch (a_patch_offset s) n) in *.
  assert (Hp : zlen p = n). { unfold p, piece_at. rewrite zlen_ztake, zlen_zdrop by lia. lia. }
  assert (Ho : a_patch_offset s1 = a_patch_offset s + n). { rewrite (process_offset _ _ _ _ _ _ _ _ X), Hp. apply wrap_small. lia. }
  assert (Hcut : zdrop (a_patch_offset s) patch = p ++ zdrop (a_patch_offset s1) patch).
  { rewrite Ho. unfold p, piece_at. replace (a_patch_offset s + n) with (n + a_patch_offset s) by lia. rewrite <- zdrop_zdrop by lia. symmetry. apply ztake_zdrop. }
  rewrite Hcut in S3, S7.
  assert (Hpb : bytes_ok p /\ bytes_ok (zdrop (a_patch_offset s1) patch)).
  { apply Forall_app. change (bytes_ok (p ++ zdrop (a_patch_offset s1) patch)). rewrite <- Hcut. apply Forall_zdrop. exact Hpatch. }
  destruct (process_kinv _ _ _ _ _ _ _ (proj2 Hpb) (proj1 Hpb) S3 S1 X) as [K1 K2].
  split; [auto|]. split; [lia|]. split; [auto|].
  exists junk, (cs ++ [p]).
  destruct (process_same _ _ _ _ _ _ _ _ _ _ S7 X) as (s1' & P & Q).
  exists s1', (Nat.max fuel0 fuel). splits; auto.
  - rewrite map_app. assert (M : (fuel0 <= Nat.max fuel0 fuel)%nat) by lia.
    rewrite (run_app _ _ _ _ _ _ _ _ _ (run_mono _ _ _ _ _ _ _ _ _ S4 M)). cbn [map run_calls].
    rewrite (process_mono _ _ _ _ _ _ _ P) by (lia || discriminate). cbn [obind]. unfold zeros. rewrite map_app. reflexivity.
  - rewrite concat_app, S5. cbn [concat]. rewrite app_nil_r, Ho. rewrite ztake_add by lia. reflexivity.
  - intros Hc _. destruct cs as [|c0 cs0]; cbn [app hd].
    + assert (Z0 : a_patch_offset s = 0). { cbn in S5. apply (f_equal zlen) in S5. rewrite zlen_ztake in S5 by lia. change (zlen (@nil Z)) with 0 in S5. lia. }
      unfold p. rewrite Z0. apply Hh; auto.
    + apply S6; auto. discriminate.
Qed.

Lemma settled_restore : forall r, settled r -> restore_reader (Some r) = Some r.
Proof. intros [a b|s|h] H; auto. destruct H as [_ H]. cbn. destruct h. cbn in *. subst. reflexivity. Qed.

Lemma restore_twice : forall r, restore_reader (restore_reader r) = restore_reader r.
Proof. intros [[a b|s|h]|]; auto. Qed.

Lemma restore_ok : forall s w out junk ps2, shadow s w ->
  exists s1 w1, restore file_env (ap_init junk ps2) s (mkfiles from 0 out) = Ret (0, s1, w1).
Proof.
  intros s w out junk ps2 (S1 & S2 & S3 & _). unfold restore.
  destruct S3 as [S3|[(C1 & C2 & C3 & C4 & C5) S3]]; [cbn in S3; congruence|]. cbn in C1, C2, C3, C4, C5, S3.
  assert (D : a_state s = SInit \/ a_state s <> SInit /\ dump_ok s = true).
  { unfold dump_ok. destruct (a_state s); auto; try congruence; destruct S3 as [S3 _]; unfold comp_ok in S3; cbn in S3; (right; split; [discriminate|]); destruct S3 as [->|[->| ->]]; reflexivity. }
  destruct D as [-> |[N D]]; [eauto|]. rewrite D. cbv zeta.
  cbn [file_env from_seek a_from_offset]. unfold file_seek. cbn [f_pos f_from f_to].
  destruct (Z.ltb_spec (0 + a_from_offset s) 0); [lia|]. change (negb (0 =? 0)) with false. cbv iota.
  destruct (a_state s); try congruence; eauto.
Qed.

Lemma shadow_restore : forall s w lost junk ps2 s1 w1, shadow s w ->
  dumpable patch (get_patch_offset s) -> zlen (f_to w) < 2 ^ word_bits ->
  restore file_env (ap_init junk ps2) s (mkfiles from 0 (f_to w ++ lost)) = Ret (0, s1, w1) ->
  shadow s1 (mkfiles (f_from w1) (f_pos w1) (ztake (get_to_offset s1) (f_to w1))).
Proof.
  intros s w lost junk ps2 s1 w1 S Hd Hl X. pose proof S as (S1 & S2 & S3 & junk0 & cs & s' & fuel0 & S4 & S5 & S6 & S7).
  unfold get_patch_offset, get_to_offset in *.
  destruct S3 as [S3|[(C1 & C2 & C3 & C4 & C5) S3]]; [cbn in S3; congruence|]. cbn in C1, C2, C3, C4, C5, S3.
  pose proof (zlen_nonneg (f_to w)).
  assert (D : a_state s = SInit \/ a_state s <> SInit) by (destruct (a_state s); auto; right; discriminate).
  destruct D as [Es|N].
  { unfold restore in X. rewrite Es in X. inv X. cbn [a_to_offset f_from f_pos f_to ap_init]. rewrite ztake_0, C2. exact (shadow_start junk). }
  assert (R : exists r, a_reader s = Some r /\ (settled r \/ unsettled s (zdrop (a_patch_offset s) patch))).
  { destruct (a_state s) eqn:Es; try congruence; destruct S3 as (_ & r & R1 & R2); exists r; (split; [exact R1|]); auto.
    - destruct R2 as [R2|([h [R2 R3]] & R4 & R5)]; [auto|]. right. unfold unsettled. subst r. cbn in R4. rewrite R4.
      splits; eauto. apply (f_equal zlen) in R4. rewrite zlen_zdrop in R4 by lia.
      unfold dumpable, header_length in Hd. destruct (Hd R5) as [|[_ Q]]; [lia|exact Q].
    - destruct R2 as [R2|(R2 & R3 & R4)]; [auto|]. exfalso.
      rewrite zlen_zdrop in R4 by lia. unfold dumpable, header_length in Hd. destruct (Hd R3) as [Y|[Y _]]; [lia|congruence]. }
  destruct R as (r & R1 & R2).
  assert (W : mkfiles (f_from w1) (f_pos w1) (ztake (a_to_offset s1) (f_to w1)) = w /\
     s1 = recut (a_csize junk) (a_left junk) (alter (false, a_size junk) (prime s))).
  { unfold restore in X. cbv zeta in X. cbn [file_env from_seek a_from_offset] in X. unfold file_seek in X. cbn [f_pos f_from f_to] in X.
    destruct (Z.ltb_spec (0 + a_from_offset s) 0); [lia|]. change (negb (0 =? 0)) with false in X. cbv iota in X.
    assert (Y : s1 = recut (a_csize junk) (a_left junk) (alter (false, a_size junk) (prime s)) /\ w1 = mkfiles from (0 + a_from_offset s) (f_to w ++ lost)).
    { destruct s. cbn in *. destruct a_state; try congruence; inv X; split; reflexivity. }
    destruct Y as [-> ->]. split; [|reflexivity]. cbn [f_from f_pos f_to recut alter prime a_to_offset]. rewrite C5, wrap_small by lia.
    rewrite ztake_app_l by lia. rewrite ztake_all by lia. destruct w. cbn in *. subst. reflexivity. }
  destruct W as [-> ->]. unfold shadow. cbn [recut alter prime a_state a_patch_offset]. splits; auto; try lia.
  - right. split; [unfold common_ok; cbn; splits; auto; lia|]. cbn. rewrite R1.
    destruct R2 as [R2|R2].
    + rewrite (settled_restore _ R2). rewrite R1 in S3. destruct (a_state s); auto; try congruence.
    + destruct R2 as (U1 & (h & U2 & U3) & U4). rewrite U1 in *. destruct S3 as (Sa & r1 & Sb & Sc). split; [exact Sa|].
      rewrite U2 in R1. inv R1. cbn [restore_reader]. eexists. split; [reflexivity|].
      rewrite U2 in Sb. inv Sb. destruct Sc as [[Sc _]|(_ & Sc)]; [congruence|]. right. split; [eexists; split; [reflexivity|exact U3]|exact Sc].
  - exists junk0, cs, s', fuel0. splits; auto. right.
    assert (Hp : settled r -> prime s = s). { intros Q. unfold prime. rewrite R1, (settled_restore _ Q), <- R1. destruct s; reflexivity. }
    destruct S7 as [->|(N' & x & c & l & S7)].
    + split; [auto|]. destruct R2 as [R2|R2].
      * rewrite (Hp R2). eexists _, _, _. left. reflexivity.
      * eexists _, _, _. right. split; [reflexivity|exact R2].
    + split; [exact N'|]. destruct S7 as [->|[-> U]].
      * destruct R2 as [R2|R2].
        -- rewrite (Hp R2). eexists _, _, _. left. reflexivity.
        -- eexists _, _, _. right. split; [reflexivity|exact R2].
      * eexists (false, a_size junk), (a_csize junk), (a_left junk). right. split; [|exact U].
        unfold prime, recut, alter. cbn. rewrite restore_twice. reflexivity.
Qed.



Lemma session_shadow : forall s w, session from patch ps s w -> shadow s w.
Proof.
  intros s w S. induction S as [junk|s w n fuel s1 w1 S IH Hn Hh X|s w lost junk ps2 s1 w1 S IH Hd Hl X].
  - apply shadow_start.
  - eapply shadow_process; eauto.
  - eapply shadow_restore; eauto.
Qed.

Lemma restorable : forall s w lost junk ps2, session from patch ps s w ->
  exists s1 w1, restore file_env (ap_init junk ps2) s (mkfiles from 0 (f_to w ++ lost)) = Ret (0, s1, w1).
Proof. intros s w lost junk ps2 S. eapply restore_ok. apply session_shadow. exact S. Qed.

Lemma recut_prime_process : forall {W} (E : seq_env W) fuel s w x c l p, a_state s <> SInit -> unsettled s (HS_FIRST_BYTE :: p) ->
  process E fuel 128 (recut c l (alter x (prime s))) w (HS_FIRST_BYTE :: p) = process E fuel 128 (recut c l (alter x s)) w (HS_FIRST_BYTE :: p).
Proof. intros. rewrite !process_alter by auto. rewrite process_prime by auto. reflexivity. Qed.

Lemma calls_same : forall s s' w calls fuel, same s s' (zdrop (a_patch_offset s) patch) ->
  (unsettled s' (zdrop (a_patch_offset s) patch) -> exists p rest, calls = CallProcess (HS_FIRST_BYTE :: p) :: rest) ->
  observed (run_calls file_env fuel s w calls) = observed (run_calls file_env fuel s' w calls).
Proof.
  intros s s' w calls fuel S G. destruct S as [->|(N & x & c & l & S)]; [reflexivity|].
  assert (K : observed (run_calls file_env fuel (recut c l (alter x s')) w calls) = observed (run_calls file_env fuel s' w calls)).
  { pose proof (calls_alter file_env x calls fuel s' w c l N) as A. destruct (run_calls file_env fuel s' w calls) as [[[rs s1] w1]| |].
    - destruct A as (s2 & ->). reflexivity.
    - rewrite A. reflexivity.
    - rewrite A. reflexivity. }
  destruct S as [->|[-> U]]; [exact K|]. rewrite <- K. destruct (G U) as (p & rest & ->). cbn [run_calls].
  rewrite recut_prime_process; auto. destruct U as (U1 & U2 & U3). split; [auto|]. split; [auto|reflexivity].
Qed.

Lemma unsettled_offset : forall s s' w, 0 <= a_patch_offset s <= zlen patch -> kinv (zdrop (a_patch_offset s) patch) (set_chunk s []) w ->
  same s s' (zdrop (a_patch_offset s) patch) -> unsettled s' (zdrop (a_patch_offset s) patch) ->
  announced_comp patch = 4 /\ a_patch_offset s = header_length patch.
Proof.
  intros s s' w Ho K S (U1 & (h & U2 & U3) & U4).
  assert (E : a_state s = SDfpatchSize /\ exists h', a_reader s = Some (RHs h') /\ hr_window h' = -1).
  { destruct S as [->|(N & x & c & l & [->|[-> _]])]; cbn; rewrite ?U2; (split; [auto|]); eexists; (split; [reflexivity|]); auto. }
  destruct E as (E1 & h' & E2 & E3). destruct K as [K|[_ K]]; cbn in K; rewrite E1 in K; [discriminate|].
  destruct K as (_ & r & K1 & K2). rewrite E2 in K1. inv K1. destruct K2 as [[K2 _]|(_ & K2 & K3)]; [congruence|].
  split; [auto|]. cbn in K2. apply (f_equal zlen) in K2. rewrite zlen_zdrop in K2 by lia. unfold header_length. lia.
Qed.

(** The restored applier cannot be told from one that was never interrupted. *)
Lemma transparent : forall s w, session from patch ps s w ->
  exists junk pieces s' fuel0,
    concat pieces = ztake (get_patch_offset s) patch /\
    (forall fuel, (fuel0 <= fuel)%nat ->
       run_calls file_env fuel (ap_init junk ps) (mkfiles from 0 []) (map CallProcess pieces) = Ret (map (fun _ => 0) pieces, s', w)) /\
    forall calls fuel, goes_on patch (get_patch_offset s) calls ->
      observed (run_calls file_env fuel s w calls) = observed (run_calls file_env fuel s' w calls).
Proof.
  intros s w S. apply session_shadow in S. destruct S as (S1 & S2 & S3 & junk & cs & s' & fuel0 & S4 & S5 & S6 & S7).
  exists junk, cs, s', fuel0. split; [exact S5|]. split. { intros fuel Hf. exact (run_mono _ _ _ _ _ _ _ _ _ S4 Hf). }
  intros calls fuel G. apply calls_same; [exact S7|]. intros U. unfold goes_on, get_patch_offset in G.
  destruct (unsettled_offset _ _ _ S2 S3 S7 U) as [Q1 Q2]. apply G; auto.
Qed.

(** *** Going on to the end *)

Lemma feed_same : forall chunks s s' w fuel, same s s' (concat chunks) ->
  observed (feed file_env fuel 128 s w chunks) = observed (feed file_env fuel 128 s' w chunks).
Proof.
  induction chunks as [|p cs IH]; intros s s' w fuel S.
  - destruct S as [->|(N & x & c & l & [->|[-> U]])]; [reflexivity| |destruct U as (_ & _ & U); discriminate].
    rewrite feed_alter by auto. destruct (feed _ _ _ s' w []) as [[[? ?] ?]| |]; reflexivity.
  - destruct S as [->|(N & x & c & l & S)]; [reflexivity|].
    assert (K : observed (feed file_env fuel 128 (recut c l (alter x s')) w (p :: cs)) = observed (feed file_env fuel 128 s' w (p :: cs))).
    { rewrite feed_alter by auto. destruct (feed _ _ _ s' w (p :: cs)) as [[[? ?] ?]| |]; reflexivity. }
    destruct S as [->|[-> U]]; [exact K|]. destruct p as [|b p'].
    + clear K. cbn [feed]. 
      assert (P : process file_env fuel 128 (recut c l (alter x (prime s'))) w [] = Ret (0, recut 0 [] (alter x (prime (set_patch_offset s' (wrap (a_patch_offset s' + 0))))), w) /\
                  process file_env fuel 128 s' w [] = Ret (0, recut 0 [] (set_patch_offset s' (wrap (a_patch_offset s' + 0))), w)).
      { unfold process. cbv zeta. destruct fuel; split; reflexivity. }
      destruct P as [-> ->]. cbn [obind]. change (0 =? 0) with true. cbv iota. apply IH. right. split; [exact N|].
      exists x, 0, []. right. split; [reflexivity|exact U].
    + rewrite <- K. cbn [feed]. assert (b = HS_FIRST_BYTE) by (destruct U as (_ & _ & U); inv U; auto). subst b.
      rewrite recut_prime_process; auto.
Qed.

Lemma finish_feed : forall s w chunks, session from patch ps s w -> concat chunks = zdrop (get_patch_offset s) patch ->
  (announced_comp patch = 0 -> get_patch_offset s = 0 -> header_complete (hd [] chunks) = true) ->
  exists junk all fuel0, concat all = patch /\ (announced_comp patch = 0 -> header_complete (hd [] all) = true) /\
  forall fuel, (fuel0 <= fuel)%nat -> observed (feed file_env fuel 128 s w chunks) = observed (c_apply fuel junk ps from all).
Proof.
  intros s w chunks S Hc Hh. apply session_shadow in S. destruct S as (S1 & S2 & S3 & junk & cs & s' & fuel0 & S4 & S5 & S6 & S7).
  unfold get_patch_offset in *. exists junk, (cs ++ chunks), fuel0. split; [rewrite concat_app, S5, Hc; apply ztake_zdrop|]. split.
  - intros Hz. destruct cs as [|c0 cs0]; cbn [app hd]; [|apply S6; auto; discriminate]. apply Hh; auto.
    cbn in S5. apply (f_equal zlen) in S5. rewrite zlen_ztake in S5 by lia. change (zlen (@nil Z)) with 0 in S5. lia.
  - intros fuel Hf. unfold c_apply. rewrite <- Hc in S7. rewrite (feed_same _ _ _ w fuel S7).
    rewrite (run_feed _ _ _ _ _ _ _ _ (run_mono _ _ _ _ _ _ _ _ _ S4 Hf)). reflexivity.
Qed.

Lemma observed_ret : forall {R W} (o : outcome (R * ap * W)) r w, observed o = Ret (r, w) <-> exists s, o = Ret (r, s, w).
Proof.
  clear. intros R W [[[r0 s0] w0]| |] r w; cbn; split; intros H; try discriminate; try (destruct H; discriminate).
  - inv H. eauto.
  - destruct H as [sx H]. inv H. auto.
Qed.

(** The same verdict as for the whole patch handed over at once. *)
Lemma dump_any : forall s w chunks junk, session from patch ps s w -> zlen patch <= ps -> ps + 128 < 2 ^ word_bits ->
  (announced_comp patch = 2 -> no_empty_segment (body_of patch) = true) ->
  concat chunks = zdrop (get_patch_offset s) patch ->
  (announced_comp patch = 0 -> get_patch_offset s = 0 -> header_complete (hd [] chunks) = true) ->
  forall v to,
    (exists fuel s1 w1, feed file_env fuel 128 s w chunks = Ret (v, s1, w1) /\ 0 <= v /\ f_to w1 = to) <->
    (exists fuel s1 w1, c_apply fuel junk ps from [patch] = Ret (v, s1, w1) /\ 0 <= v /\ f_to w1 = to).
Proof.
  intros s w chunks junk S Hp1 Hp2 Hz Hc Hh v to. destruct (finish_feed _ _ _ S Hc Hh) as (junk0 & all & fuel0 & A1 & A2 & A3).
  rewrite <- (chunking Hword junk0 junk ps from patch all [patch] Hpatch Hp1 Hp2 Hz A1 (app_nil_r patch)
    (fun Z0 => or_introl (A2 Z0)) (fun _ => or_intror eq_refl) v to).
  split; intros (fuel & s1 & w1 & X & V & T).
  - assert (Y : feed file_env (Nat.max fuel fuel0) 128 s w chunks = Ret (v, s1, w1)) by (eapply feed_mono; eauto; [discriminate|lia]).
    assert (L : (fuel0 <= Nat.max fuel fuel0)%nat) by lia. specialize (A3 _ L). rewrite Y in A3. symmetry in A3. apply observed_ret in A3.
    destruct A3 as (s2 & A3). eauto 8.
  - assert (Y : c_apply (Nat.max fuel fuel0) junk0 ps from all = Ret (v, s1, w1)) by (unfold c_apply in *; eapply feed_mono; eauto; [discriminate|lia]).
    assert (L : (fuel0 <= Nat.max fuel fuel0)%nat) by lia. specialize (A3 _ L). rewrite Y in A3. apply observed_ret in A3.
    destruct A3 as (s2 & A3). eauto 8.
Qed.

End Inv.

Section Finish.
Context {WBits : WordBits}.
Hypothesis Hword : 32 <= word_bits.

Lemma dump_meaning : forall c recs patch from to s w chunks,
  seq_patch c recs patch -> recs_in_limits recs -> apply_recs from 0 recs = Some to ->
  bytes_ok patch -> zlen patch + 128 < 2 ^ word_bits -> zlen from <= INT_MAX ->
  session from patch (zlen patch) s w ->
  concat chunks = zdrop (get_patch_offset s) patch ->
  (c = CompNone -> get_patch_offset s = 0 -> header_complete (hd [] chunks) = true) ->
  exists n, forall fuel, (n <= fuel)%nat ->
    exists s1 w1, feed file_env fuel 128 s w chunks = Ret (zlen to, s1, w1) /\ f_to w1 = to.
Proof.
  intros c recs patch from to s w chunks H1 H2 H3 H4 H5 H6 H7 H8 H9.
  assert (Hc : announced_comp patch = 0 -> c = CompNone).
  { rewrite (seq_patch_comp _ _ _ H1). destruct c; intros Q; auto; discriminate. }
  assert (Hl : zlen patch < 2 ^ word_bits) by lia.
  destruct (finish_feed Hword from patch (zlen patch) H4 Hl H6 s w chunks H7 H8 (fun Z0 => H9 (Hc Z0))) as (junk & all & fuel0 & A1 & A2 & A3).
  destruct (apply_meaning Hword junk c recs patch from to all H1 H2 H3 H4 H5 A1) as (n & B).
  { intros ->. apply A2. rewrite (seq_patch_comp _ _ _ H1). reflexivity. }
  exists (Nat.max n fuel0). intros fuel Hf. assert (La : (n <= fuel)%nat) by lia. assert (Lb : (fuel0 <= fuel)%nat) by lia.
  destruct (B fuel La) as (s1 & w1 & B1 & B2). specialize (A3 fuel Lb). rewrite B1 in A3. apply observed_ret in A3. destruct A3 as (s2 & A3). eauto.
Qed.

End Finish.
