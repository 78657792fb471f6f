(** The in-place applier on arbitrary bodies: which cells it changes, and no undefined
    behaviour (C50, C51). *)

From Coq Require Import ZArith List Bool Lia ZifyBool ZifyNat ZifyN.
From Verif Require Import Prelude Lib Heatshrink HsProofs CReader ReaderProofs SizeProofs CSeq Spec SeqSim SeqRun SeqTerm SeqMeaning SeqApply SeqSpec SeqInv SeqCount ReaderSpec ReaderDrive SeqSafe SeqBound
  CInPlace InPlaceSpec CallbackSpec IpCallbackSpec IpCallback IpBoundSpec.
Import ListNotations.
Open Scope Z_scope.

Ltac Zify.zify_post_hook ::= Z.to_euclidean_division_equations.

(** ** Fields *)

Lemma fields_prefix : forall segment to k l pos stop j, (length l <= k)%nat ->
  exists t, ip_fields k segment to pos stop l = ip_fields j segment to pos stop l ++ t.
Proof.
  intros segment to. induction k; intros l pos stop j Hk.
  - destruct l; [|cbn in Hk; lia]. exists []. destruct j; cbn [ip_fields dec_size diff_fields]; [reflexivity|]. destruct (pos =? stop); reflexivity.
  - destruct j as [|j]; [eexists; reflexivity|]. cbn [ip_fields]. destruct (pos =? stop).
    + destruct (dec_size l) as [[x l1]|] eqn:D; [|exists []; reflexivity]. apply dec_size_len in D. apply IHk. lia.
    + destruct (dec_size l) as [[d l1]|] eqn:D1; cbn [diff_fields]; [|exists []; reflexivity]. apply dec_size_len in D1.
      destruct (d <? 0); [exists []; reflexivity|]. pose proof (zdrop_length d l1).
      destruct (dec_size (zdrop d l1)) as [[e l2]|] eqn:D2; cbn [extra_fields]; [|exists []; reflexivity]. apply dec_size_len in D2.
      destruct (e <? 0); [exists []; reflexivity|]. pose proof (zdrop_length e l2).
      destruct (dec_size (zdrop e l2)) as [[a l3]|] eqn:D3; cbn [adjust_fields]; [|exists []; reflexivity]. apply dec_size_len in D3.
      destruct (_ =? to); [exists []; reflexivity|]. destruct (IHk l3 (pos + d + e) stop j ltac:(lia)) as [t ->]. exists t. reflexivity.
Qed.

Lemma moved_nonneg : forall fs, 0 <= moved fs.
Proof. induction fs as [|[]]; cbn [moved]; lia. Qed.

Lemma moved_app : forall a b, moved (a ++ b) = moved a + moved b.
Proof. induction a as [|[] a IH]; intros b; cbn [moved app]; rewrite ?IH; lia. Qed.

(** ** Headers *)

Section Bound.
Context {WBits : WordBits}.
Hypothesis Hword : 32 <= word_bits.

Lemma uhs_magnitude : forall l z v z1 l1, bytes_ok l -> z_cons z = false ->
  unpack_header_size l z = Ret (0, v, z1, l1) -> dec_magnitude l = Some (v, l1).
Proof.
  intros l z v z1 l1 Hl Hz U. pose proof (uhs_announced 0 l z v z1 l1 Hl Hz U) as A.
  assert (B : l1 = after_size l) by (eapply uhs_after; eauto; intros X; congruence).
  unfold announced_size in A. cbn [tl] in A. unfold dec_magnitude. destruct l as [|b l]; [discriminate|]. inv Hl.
  cbn [after_size] in *. destruct (Z.ltb_spec b 128); [congruence|].
  assert (G : forall l x y, dec_usize l = Some (x, y) -> y = after_size l).
  { clear. induction l as [|c l IH]; intros x y D; cbn [dec_usize after_size] in *; [discriminate|].
    destruct (c <? 128); [congruence|]. destruct (dec_usize l) as [[x' y']|]; [|discriminate]. inv D. eauto. }
  destruct (dec_usize l) as [[x y]|] eqn:D; [|discriminate]. apply G in D. congruence.
Qed.

(** ** What a function may do, undefined behaviour included *)

Variable safe : Prop.

Definition may {A : Type} (m : outcome A) (Q : A -> Prop) : Prop :=
  match m with Ret a => Q a | Undef => ~ safe | OutOfFuel => True end.

Lemma may_bind : forall {A B} (m : outcome A) (k : A -> outcome B) Q, may m (fun a => may (k a) Q) -> may (obind m k) Q.
Proof. intros A B [a| |] k Q H; exact H. Qed.

Lemma may_imp : forall {A} (m : outcome A) (P Q : A -> Prop), may m P -> (forall a, P a -> Q a) -> may m Q.
Proof. intros A [a| |] P Q H HPQ; cbn in *; auto. Qed.

Lemma may_int_add : forall a b (Q : Z -> Prop), (safe -> INT_MIN <= a + b <= INT_MAX) -> Q (a + b) -> may (int_add a b) Q.
Proof.
  intros a b Q H HQ. unfold int_add. destruct (in_int (a + b)) eqn:D; [exact HQ|]. intros S. specialize (H S).
  unfold in_int in D. lia.
Qed.

(** ** Readers *)

Lemma gives_ret : forall f r left rest n, bytes_ok f -> gives f r left rest -> 1 <= n ->
  exists res out r1 l1, decompress r left n = Ret (res, out, r1, l1).
Proof.
  intros f r left rest n Hf (A & A' & B) Hn. destruct r as [ps po|s|h].
  - cbn [decompress]. unfold none_decompress. destruct (_ <? _); [eauto 6|]. destruct left; eauto 6.
  - destruct B as [B _]. destruct (decompress_spec' (RCrle s) left n I B A Hn) as (a & b & c & d & X & _). eauto 6.
  - destruct B as [B _]. destruct (decompress_spec' (RHs h) left n I B A Hn) as (a & b & c & d & X & _). eauto 6.
Qed.

Lemma gives_unpack_ret : forall K f z r left rest byte, bytes_ok f -> gives f r left rest -> zok z -> (zneed z <= K)%nat ->
  exists x, unpack_size_loop K z r left byte 1 = Ret x.
Proof.
  induction K; intros f z r left rest byte Hf Hg Hz HK.
  { unfold zneed in HK; destruct (z_cons z); lia. }
  cbn [unpack_size_loop].
  destruct (gives_ret f r left rest 1 Hf Hg (Z.le_refl 1)) as (res & out & r1 & l1 & A). rewrite A. cbn [obind].
  destruct (Z.eqb_spec res 0); cbn [negb]; [|eauto]. subst res. cbv zeta.
  destruct (gives_dec _ _ _ _ _ _ _ _ _ Hf Hg (Z.le_refl 1) A) as [G1 _]. destruct (G1 eq_refl) as (Ho & rest1 & -> & G2).
  pose proof (gives_len _ _ _ _ _ _ _ _ Hg (Z.le_refl 1) A) as Hlen.
  destruct out as [|b out]; [congruence|].
  assert (out = []) as -> by (apply zlen_0_nil; rewrite zlen_cons in Hlen; pose proof (zlen_nonneg out); lia).
  destruct (size_byte_spec z b Hz) as [(_ & _ & S)|(z1 & S & Ec & Hz1 & Hnd & Hv & _)]; rewrite S; cbn [obind]; [eauto|].
  destruct (Z.land b 128 =? 0); [eauto|]. change (zlen [b]) with 1. eapply IHK; eauto. lia.
Qed.

(** A size field read: complete, not yet complete, or bad. *)
Lemma unpack_may : forall f z r left rest (Q : Z * Z * size_st * reader * list Z -> Prop),
  bytes_ok f -> gives f r left rest -> zok z -> dable r ->
  (forall v z1 r1 l1 rest1, - 2 ^ 27 < v < 2 ^ 27 -> z_cons z1 = false -> zok z1 -> dable r1 ->
     szrest z rest = Some (v, rest1) -> gives f r1 l1 rest1 -> zlen rest1 <= zlen rest -> Q (0, v, z1, r1, l1)) ->
  (forall v z1 r1 rest1, zok z1 -> dable r1 -> szrest z1 rest1 = szrest z rest -> gives f r1 [] rest1 -> zlen rest1 <= zlen rest -> Q (1, v, z1, r1, [])) ->
  (forall res v z1 r1 l1, res < 0 -> dable r1 -> Q (res, v, z1, r1, l1)) ->
  may (unpack_size z r left) Q.
Proof.
  intros f z r left rest Q Hf Hg Hz Hd Q0 Q1 Qn. unfold unpack_size.
  destruct (gives_unpack_ret 6 f z r left rest None Hf Hg Hz) as (x & U); [pose proof (zneed_le z Hz); lia|].
  rewrite U. cbn [may]. destruct x as [[[[res v] z1] r1] l1].
  pose proof (unpack_code _ _ _ _ _ _ _ _ _ _ _ U) as C. pose proof (unpack_dable _ _ _ _ _ _ _ _ _ _ _ Hd U) as D.
  destruct (gives_unpack _ _ _ _ _ _ _ _ _ _ _ _ Hf Hg Hz U) as [A B].
  destruct C as [->|[->|C]].
  - destruct (A eq_refl) as (A1 & A2 & rest1 & A3 & A4). apply (Q0 v z1 r1 l1 rest1); auto; [intros X; congruence|].
    unfold szrest in A3. destruct (z_cons z).
    + destruct (dec_usize rest) as [[y l]|] eqn:Y; [|discriminate]. inv A3. apply dec_usize_len in Y. unfold zlen. lia.
    + apply dec_size_len in A3. unfold zlen. lia.
  - pose proof (unpack_left _ _ _ _ _ _ _ _ _ _ U). subst l1. destruct (B eq_refl) as (B1 & rest1 & B2 & B3 & B4).
    apply (Q1 v z1 r1 rest1); auto. unfold zlen. lia.
  - apply Qn; [lia|auto].
Qed.

(** ** Callbacks *)

Context {W : Type} (E : ip_env W).
Variable L : W -> Prop.             (* holds of the world *)
Variable B : Z -> Z -> Prop.        (* areas that may be changed *)

Definition callbacks_fit : Prop :=
  (forall w a n r b w1, mem_read E w a n = (r, b, w1) -> L w -> L w1 /\ r <= 0 /\ (safe -> r = 0 -> zlen b = n)) /\
  (forall w a d r w1, mem_write E w a d = (r, w1) -> L w -> B a (zlen d) -> L w1 /\ r <= 0) /\
  (forall w a n r w1, mem_erase E w a n = (r, w1) -> L w -> B a n -> L w1 /\ r <= 0) /\
  (forall f w n r w1, step_set E = Some f -> f w n = (r, w1) -> L w -> L w1) /\
  (forall f w n r w1, step_get E = Some f -> f w = (r, n, w1) -> L w -> L w1).
Hypothesis Hcb : callbacks_fit.

Lemma completed_fit : forall step w r b w1, is_step_completed E step w = (r, b, w1) -> L w -> L w1 /\ r <= 0.
Proof.
  intros step w r b w1 U HL. destruct Hcb as (_ & _ & _ & _ & G). unfold is_step_completed in U.
  destruct (step_get E) as [get|]; [|inv U; split; [auto|lia]].
  destruct (get w) as [[r0 n] w2] eqn:D. specialize (G _ _ _ _ _ eq_refl D HL).
  destruct (negb _); inv U; (split; [auto|]); unfold E_STEP_GET_FAILED; lia.
Qed.

Lemma read_fit : forall step w a n r b w1, ip_mem_read E step w a n = (r, b, w1) -> L w -> 0 <= n ->
  L w1 /\ r <= 0 /\ (safe -> r = 0 -> zlen b = n).
Proof.
  intros step w a n r b w1 U HL Hn. unfold ip_mem_read in U.
  destruct (is_step_completed E step w) as [[r0 c] w0] eqn:D. destruct (completed_fit _ _ _ _ _ D HL) as [D1 D2].
  destruct (Z.eqb_spec r0 0); cbn [negb] in U; [|inv U; splits; auto; congruence].
  destruct c; [inv U; splits; [auto|lia|intros _ _; apply zlen_zrepeat; lia]|].
  destruct Hcb as (G & _). eapply G; eauto.
Qed.

Lemma write_fit : forall step w a d r w1, ip_mem_write E step w a d = (r, w1) -> L w -> B a (zlen d) -> L w1 /\ r <= 0.
Proof.
  intros step w a d r w1 U HL HB. unfold ip_mem_write in U.
  destruct (is_step_completed E step w) as [[r0 c] w0] eqn:D. destruct (completed_fit _ _ _ _ _ D HL) as [D1 D2].
  destruct (Z.eqb_spec r0 0); cbn [negb] in U; [|inv U; auto].
  destruct c; [inv U; split; [auto|lia]|]. destruct Hcb as (_ & G & _). eapply G; eauto.
Qed.

Lemma erase_fit : forall step w a n r w1, ip_mem_erase E step w a n = (r, w1) -> L w -> B a n -> L w1 /\ r <= 0.
Proof.
  intros step w a d r w1 U HL HB. unfold ip_mem_erase in U.
  destruct (is_step_completed E step w) as [[r0 c] w0] eqn:D. destruct (completed_fit _ _ _ _ _ D HL) as [D1 D2].
  destruct (Z.eqb_spec r0 0); cbn [negb] in U; [|inv U; auto].
  destruct c; [inv U; split; [auto|lia]|]. destruct Hcb as (_ & _ & G & _). eapply G; eauto.
Qed.

Lemma next_fit : forall step w, L w -> 0 <= step < INT_MAX ->
  may (next_step E step w) (fun x => let '(r, st, w1) := x in L w1 /\ r <= 0 /\ (r = 0 -> st = step + 1)).
Proof.
  intros step w HL Hs. unfold next_step. destruct (step_set E) as [set|] eqn:Se.
  - destruct (is_step_completed E step w) as [[r0 c] w0] eqn:D. destruct (completed_fit _ _ _ _ _ D HL) as [D1 D2].
    destruct (Z.eqb_spec r0 0); cbn [negb]; [|cbn; splits; auto; congruence].
    destruct c.
    + apply may_bind. apply may_int_add; [unfold INT_MIN, INT_MAX in *; lia|]. cbn. splits; auto; lia.
    + destruct (set w0 step) as [r1 w2] eqn:F. destruct Hcb as (_ & _ & _ & G & _). specialize (G _ _ _ _ _ Se F D1).
      apply may_bind. apply may_int_add; [unfold INT_MIN, INT_MAX in *; lia|]. cbn. splits; auto.
      destruct (Z.eqb_spec r1 0); cbn [negb]; unfold E_STEP_SET_FAILED; lia.
  - apply may_bind. apply may_int_add; [unfold INT_MIN, INT_MAX in *; lia|]. cbn. splits; auto; lia.
Qed.

Lemma all_fit : forall w r w1, all_steps_completed E w = (r, w1) -> L w -> L w1 /\ r <= 0.
Proof.
  intros w r w1 U HL. unfold all_steps_completed in U. destruct (step_set E) as [set|] eqn:Se; [|inv U; split; [auto|lia]].
  destruct (set w 0) as [r0 w2] eqn:F. destruct Hcb as (_ & _ & _ & G & _). specialize (G _ _ _ _ _ Se F HL).
  inv U. split; [auto|]. destruct (Z.eqb_spec r0 0); cbn [negb]; unfold E_STEP_SET_FAILED; lia.
Qed.

(** ** Shifting *)

Lemma copy_fit : forall fuel step w read write segment offset, L w -> 0 <= offset ->
  (forall o n, 0 <= o -> 0 <= n -> o + n <= segment -> B (wrap (write + o)) n) ->
  may (copy_loop E fuel step w read write segment offset) (fun x => L (snd x) /\ fst x <= 0).
Proof.
  induction fuel; intros step w read write segment offset HL Ho HB; cbn [copy_loop].
  { destruct (negb _); [cbn; split; [auto|lia]|exact I]. }
  destruct (Z.ltb_spec offset segment); cbn [negb]; [|cbn; split; [auto|lia]]. cbv zeta.
  destruct (ip_mem_read E step w _ _) as [[res buf] w1] eqn:R. destruct (read_fit _ _ _ _ _ _ _ R HL ltac:(lia)) as (R1 & R2 & R3).
  destruct (Z.eqb_spec res 0); cbn [negb]; [|cbn; auto].
  destruct (Z.eqb_spec (zlen buf) (Z.min 128 (segment - offset))); cbn [negb]; [|intros X; specialize (R3 X e); congruence].
  destruct (ip_mem_write E step w1 _ _) as [res1 w2] eqn:T.
  destruct (write_fit _ _ _ _ _ _ T R1) as [T1 T2]; [apply HB; lia|].
  destruct (Z.eqb_spec res1 0); cbn [negb]; [|cbn; auto]. apply IHfuel; auto. lia.
Qed.

Lemma shift_loop_fit : forall memory shift n step w read write segment, L w -> 0 < segment -> 0 <= shift ->
  0 <= step -> step + Z.of_nat n <= INT_MAX ->
  (forall x k, B x k) \/ (n = O \/ (write = shift + (Z.of_nat n - 1) * segment /\ shift + Z.of_nat n * segment <= memory)) /\
      memory < 2 ^ word_bits /\ (forall x k, 0 <= x -> 0 <= k -> x + k <= memory -> B x k) ->
  may (shift_loop E n step w read write segment) (fun x => let '(r, st, w1) := x in L w1 /\ r <= 0 /\ (r = 0 -> st = step + Z.of_nat n)).
Proof.
  induction n; intros step w read write segment HL Hseg Hsh Hst Hn HB; cbn [shift_loop].
  { cbn. splits; auto; lia. }
  assert (Harea : forall o k, 0 <= o -> 0 <= k -> o + k <= segment -> B (wrap (write + o)) k).
  { intros o k Ho Hk Hok. destruct HB as [HB|([HB|[HB1 HB2]] & HB3 & HB4)]; [auto|discriminate|].
    assert (0 <= write + o) by lia. rewrite wrap_small by lia. apply HB4; lia. }
  assert (Herase : B write segment).
  { destruct HB as [HB|([HB|[HB1 HB2]] & HB3 & HB4)]; [auto|discriminate|]. apply HB4; lia. }
  destruct (ip_mem_erase E step w write segment) as [res w1] eqn:R. destruct (erase_fit _ _ _ _ _ _ R HL Herase) as [R1 R2].
  destruct (Z.eqb_spec res 0); cbn [negb]; [|cbn; splits; auto; lia].
  apply may_bind. eapply may_imp; [apply copy_fit; [exact R1|lia|exact Harea]|]. intros [res1 w2]. cbn [fst snd]. intros [C1 C2].
  destruct (Z.eqb_spec res1 0); cbn [negb]; [|cbn; splits; auto; lia].
  apply may_bind. eapply may_imp; [apply next_fit; [exact C1|lia]|]. intros [[res2 st] w3] (N1 & N2 & N3).
  destruct (Z.eqb_spec res2 0); cbn [negb]; [|cbn; splits; auto; lia].
  specialize (N3 e1). subst st. eapply may_imp; [apply IHn; auto; try lia|].
  - destruct HB as [HB|([HB|[HB1 HB2]] & HB3 & HB4)]; [auto|discriminate|]. right. splits; auto.
    destruct n as [|n]; [auto|]. right. rewrite wrap_small by lia. lia.
  - intros [[r st] w4] (M1 & M2 & M3). splits; auto. lia.
Qed.

Lemma shift_fit : forall memory from segment shift w, L w -> 0 < segment < 2 ^ 27 -> 0 <= shift < 2 ^ 27 -> 0 <= from < 2 ^ 27 -> 0 <= memory < 2 ^ 27 ->
  (forall x k, B x k) \/ (shift <= memory /\ (segment | memory - shift) /\ forall x k, 0 <= x -> 0 <= k -> x + k <= memory -> B x k) ->
  may (shift_memory E 1 w memory from segment shift) (fun x => let '(r, st, w1) := x in L w1 /\ r <= 0 /\ (r = 0 -> 0 <= st <= 2 ^ 28 + 1)).
Proof.
  intros memory from segment shift w HL Hseg Hsh Hfr Hme HB. unfold shift_memory. destruct (Z.eqb_spec segment 0) as [|Hnz0]; [lia|].
  pose proof (pow2_32_le word_bits Hword). pose proof (wrap_range (memory - shift) Hword).
  set (m := Z.min from (wrap (memory - shift))). assert (Hm : 0 <= m < 2 ^ 27) by lia. 
  rewrite (wrap_small (m + segment)) by lia. rewrite wrap_small by lia. remember ((m + segment - 1) / segment) as n eqn:Hnd.
  assert (Hn : 0 <= n <= 2 ^ 28). { subst n. split; [apply Z.div_pos; lia|]. apply Z.div_le_upper_bound; [lia|]. change (2 ^ 28) with (2 * 2 ^ 27). lia. }
  cbv zeta. eapply may_imp; [apply (shift_loop_fit memory shift); auto; try lia; try (unfold INT_MAX; lia)|].
  - destruct HB as [HB|(HB1 & [q HB2] & HB3)]; [auto|]. right. splits; auto; [|lia].
    rewrite Z2Nat.id by lia. destruct (Z.eq_dec n 0) as [Hnz|Hnz]; [left; lia|]. right.
    assert (Hnq : n <= q). { subst n. unfold m. rewrite (wrap_small (memory - shift)) by lia. apply Z.lt_succ_r. apply Z.div_lt_upper_bound; [lia|]. rewrite Z.mul_succ_r. lia. }
    assert (Hns : n * segment <= q * segment) by (apply Z.mul_le_mono_nonneg_r; lia).
    rewrite (wrap_small (n - 1)) by lia. assert (0 <= (n - 1) * segment) by (apply Z.mul_nonneg_nonneg; lia).
    rewrite (wrap_small ((n - 1) * segment)) by lia. rewrite wrap_small by lia. lia.
  - intros [[r st] w1] (M1 & M2 & M3). splits; auto; lia.
Qed.

(** ** The invariant *)

Variable patch : list Z.
Variable a : announced.
Variable body : list Z.
Variable c : comp.
Variable neg_ok : Prop.     (* negative sizes are allowed for *)
Variables l1 l2 l3 l4 : list Z.
Hypothesis Hpatch : bytes_ok patch.
Hypothesis Hcomp : announced_comp patch = comp_number c.
Hypothesis Hhdr : dec_magnitude (tl patch) = Some (n_memory a, l1) /\ dec_magnitude l1 = Some (n_segment a, l2) /\
  dec_magnitude l2 = Some (n_shift a, l3) /\ dec_magnitude l3 = Some (n_from a, l4) /\ dec_magnitude l4 = Some (n_to a, n_stream a).
Hypothesis Hbody : compressed c body (n_stream a).
Hypothesis Hbytes : bytes_ok body.
Hypothesis Hsizes : Forall (fun x => neg_ok \/ size_nonneg x) (body_fields a body).
Hypothesis Hneg : neg_ok -> (forall x n, B x n) /\ zlen body < 2 ^ 31.
Hypothesis Hseg : 0 < n_to a -> 0 < n_segment a.
Hypothesis Hfit : (forall x n, B x n) \/
  (n_shift a <= n_memory a /\ n_to a <= n_memory a /\ (n_segment a | n_memory a - n_shift a) /\
   forall x n, 0 <= x -> 0 <= n -> x + n <= n_memory a -> B x n).

Definition total : Z := zlen body + moved (body_fields a body).
Hypothesis Hsafe : safe -> total < 2 ^ 30.

Definition pend (f M : list Z) (s : ip) : Prop :=
  forall v z1 l, unpack_header_size (i_left s ++ f) (i_size s) = Ret (0, v, z1, l) -> dec_magnitude M = Some (v, l).

Definition head_ok (f : list Z) (s : ip) : Prop :=
  bytes_ok (i_left s) /\ i_step s = 1 /\
  match i_init s with
  | IFixed => i_left s ++ f = patch
  | st => zok (i_size s) /\ i_compression s = comp_number c /\
      match st with
      | IFixed => True
      | IMemory => pend f (tl patch) s
      | ISegment => pend f l1 s /\ i_memory_size s = n_memory a /\ 0 <= n_memory a < 2 ^ 27
      | IShift => pend f l2 s /\ i_memory_size s = n_memory a /\ 0 <= n_memory a < 2 ^ 27 /\
          i_segment_size s = n_segment a /\ 0 <= n_segment a < 2 ^ 27
      | IFrom => pend f l3 s /\ i_memory_size s = n_memory a /\ 0 <= n_memory a < 2 ^ 27 /\
          i_segment_size s = n_segment a /\ 0 <= n_segment a < 2 ^ 27 /\
          i_shift_size s = n_shift a /\ 0 <= n_shift a < 2 ^ 27
      | ITo => pend f l4 s /\ i_memory_size s = n_memory a /\ 0 <= n_memory a < 2 ^ 27 /\
          i_segment_size s = n_segment a /\ 0 <= n_segment a < 2 ^ 27 /\
          i_shift_size s = n_shift a /\ 0 <= n_shift a < 2 ^ 27 /\
          i_from_size s = n_from a /\ 0 <= n_from a < 2 ^ 27
      end
  end.

Definition good (A : Z) (fs : list field) : Prop := Forall (fun x => neg_ok \/ size_nonneg x) fs /\ moved fs <= A.
Definition flds (k : nat) (pos stop : Z) (l : list Z) : list field := ip_fields k (n_segment a) (n_to a) pos stop l.
Definition stop (s : ip) : Z := g_to_offset (i_seg s) + g_to_size (i_seg s).

(** In the middle of a segment. *)
Definition seg_ok (s : ip) : Prop :=
  let g := i_seg s in
  1 <= g_index g /\ g_to_offset g = (g_index g - 1) * n_segment a /\ g_to_size g = Z.min (n_segment a) (n_to a - g_to_offset g) /\
  g_to_offset g < n_to a /\ 0 <= g_to_pos g /\ i_to_pos s = g_to_offset g + g_to_pos g /\ i_to_pos s <= n_to a /\
  0 <= i_step s <= 2 ^ 28 + g_index g.

Definition from_ok (s : ip) (A : Z) (rest : list Z) : Prop :=
  Z.abs (g_from_offset (i_seg s)) + A + zlen rest <= total + 2 ^ 28.

Definition fields_ok (s : ip) (A : Z) (rest : list Z) : Prop :=
  match i_state s with
  | SDfpatchSize =>
      0 <= g_index (i_seg s) /\ i_to_pos s = g_index (i_seg s) * n_segment a /\ i_to_pos s < n_to a /\
      0 <= i_step s <= 2 ^ 28 + 1 + g_index (i_seg s) /\
      match szrest (i_rsize s) rest with
      | None => True
      | Some (_, l) => forall k, good A (flds k (i_to_pos s) (Z.min (i_to_pos s + n_segment a) (n_to a)) l)
      end
  | SDiffSize => seg_ok s /\ from_ok s A rest /\
      forall k, good A (diff_fields (n_to a) (fun p l => flds k p (stop s) l) (i_to_pos s) (szrest (i_rsize s) rest))
  | SExtraSize => seg_ok s /\ from_ok s A rest /\
      forall k, good A (extra_fields (n_to a) (fun p l => flds k p (stop s) l) (i_to_pos s) (szrest (i_rsize s) rest))
  | SAdjustment => seg_ok s /\ from_ok s A rest /\
      forall k, good A (adjust_fields (n_to a) (fun p l => flds k p (stop s) l) (i_to_pos s) (szrest (i_rsize s) rest))
  | SDiffData => from_ok s A rest /\ 0 <= i_chunk_size s < 2 ^ word_bits /\
      ((seg_ok s /\ z_cons (i_rsize s) = false /\ i_to_pos s + i_chunk_size s <= n_to a /\
        forall k, good A (extra_fields (n_to a) (fun p l => flds k p (stop s) l) (i_to_pos s + i_chunk_size s) (dec_size (zdrop (i_chunk_size s) rest)))) \/
       (neg_ok /\ zlen rest < i_chunk_size s))
  | SExtraData => from_ok s A rest /\ 0 <= i_chunk_size s < 2 ^ word_bits /\
      ((seg_ok s /\ z_cons (i_rsize s) = false /\ i_to_pos s + i_chunk_size s <= n_to a /\
        forall k, good A (adjust_fields (n_to a) (fun p l => flds k p (stop s) l) (i_to_pos s + i_chunk_size s) (dec_size (zdrop (i_chunk_size s) rest)))) \/
       (neg_ok /\ zlen rest < i_chunk_size s))
  | _ => True
  end.

Definition tail_ok (f : list Z) (s : ip) : Prop :=
  i_segment_size s = n_segment a /\ i_shift_size s = n_shift a /\ i_to_size s = n_to a /\
  0 < n_segment a < 2 ^ 27 /\ 0 <= n_shift a < 2 ^ 27 /\ 0 < n_to a < 2 ^ 27 /\
  exists r rest A, i_reader s = Some r /\ gives f r (i_left s) rest /\ zok (i_rsize s) /\ 0 <= A /\ (A + zlen rest <= total /\ zlen rest <= zlen body) /\
    fields_ok s A rest.

Definition idable (s : ip) : Prop := forall r, i_reader s = Some r -> dable r.

Definition iinv (f : list Z) (s : ip) : Prop :=
  idable s /\
  match i_state s with
  | SInit => head_ok f s
  | SDone | SFailed => True
  | _ => tail_ok f s
  end.

Definition after (f : list Z) (x : Z * ip * W) : Prop :=
  let '(res, s1, w1) := x in L w1 /\ res <= 1 /\ idable s1 /\ (0 <= res -> iinv f s1 /\ (res = 1 -> i_left s1 = [])).

(** ** Headers *)

Lemma init_size_may : forall f s next store M v0 M1, bytes_ok f -> bytes_ok (i_left s) -> zok (i_size s) -> pend f M s ->
  dec_magnitude M = Some (v0, M1) ->
  may (ip_init_size s next store) (fun x => let '(res, s1) := x in
    (res = 1 /\ exists z1, s1 = iset_header s (i_init s) (i_compression s) z1 [] /\ zok z1 /\ pend f M s1) \/
    (res = 0 /\ 0 <= v0 < 2 ^ 27 /\ exists z1 l, s1 = store (iset_header s next (i_compression s) (z_first z1) l) v0 /\ bytes_ok l /\ l ++ f = M1) \/
    (res < 0 /\ exists z1 l, s1 = iset_header s (i_init s) (i_compression s) z1 l)).
Proof.
  intros f s next store M v0 M1 Hf Hb Hz Hp Hm. unfold ip_init_size. pose proof (pow2_32_le word_bits Hword).
  destruct (uhs_app (i_left s) (i_size s) f Hz)
    as [(z1 & P & Q & R)|[(v & z1 & l & used & P & Q & R & S)|(z1 & l & P & R)]]; rewrite P; cbn [obind].
  - change (negb (1 =? 0)) with true. cbn [may]. left. split; [auto|]. exists z1. splits; auto. intros v z2 l U. apply (Hp v z2 l). rewrite R. exact U.
  - change (negb (0 =? 0)) with false. cbn [may]. pose proof (Hp _ _ _ S) as X. rewrite Hm in X. inv X.
    right. left. split; [auto|]. split; [lia|]. exists z1, l. rewrite wrap_small by lia. splits; auto.
    rewrite R in Hb. apply Forall_app in Hb. tauto.
  - change (negb (- E_CORRUPT_PATCH_OVERFLOW =? 0)) with true. cbn [may]. right. right. split; [unfold E_CORRUPT_PATCH_OVERFLOW; lia|]. eauto.
Qed.

Lemma pend_next : forall f s M, bytes_ok f -> bytes_ok (i_left s) -> z_cons (i_size s) = false -> i_left s ++ f = M -> pend f M s.
Proof. intros f s M Hf Hl Hz HM v z1 l U. subst M. eapply uhs_magnitude; [|exact Hz|exact U]. apply Forall_app. auto. Qed.

Lemma zok_first : forall z, zok (z_first z).
Proof. intros z X. discriminate X. Qed.

Lemma init_gives_ip : forall f l r ps, bytes_ok f -> l ++ f = n_stream a -> bytes_ok l -> reader_init ps (comp_number c) = Some r ->
  gives f r l body.
Proof.
  intros f l r ps Hf El Hl Hr. split; [auto|]. split; [auto|].
  assert (Hs : bytes_ok (n_stream a)) by (rewrite <- El; apply Forall_app; auto).
  destruct (reader_init_comp (zlen (n_stream a)) c) as (r' & R1 & _).
  assert (Hc : c = CompNone \/ c <> CompNone) by (destruct c; auto; right; discriminate). destruct Hc as [Ec|Hc].
  - rewrite Ec in Hr, Hbody. inv Hr. inv Hbody. congruence.
  - destruct (stream_will _ _ _ _ Hc Hbody Hs R1) as (X & Y & D).
    assert (r' = r) by (clear - Hc R1 Hr; destruct c; cbn in *; congruence). subst r'. rewrite El.
    destruct r; [destruct X|auto|auto].
Qed.

Lemma reader_init_dable : forall ps k r, reader_init ps k = Some r -> dable r.
Proof.
  intros ps k r H. unfold reader_init in H. destruct (_ =? 0); [inv H; exact I|]. destruct (_ =? 2); [inv H; exact I|].
  destruct (_ =? 4); inv H. cbn. intros X. congruence.
Qed.

Lemma after_neg : forall f res s1 w1, L w1 -> res < 0 -> idable s1 -> after f (res, s1, w1).
Proof. intros f res s1 w1 HL Hr Hd. cbn. splits; auto; lia. Qed.

Lemma body_good : forall k, good (moved (body_fields a body)) (flds k 0 0 body).
Proof.
  intros k. destruct (fields_prefix (n_segment a) (n_to a) (length body) body 0 0 k (le_n _)) as [t Ht].
  unfold body_fields in *. rewrite Ht in Hsizes |- *. unfold flds, good. apply Forall_app in Hsizes. rewrite moved_app. pose proof (moved_nonneg t). split; [tauto|lia].
Qed.

Lemma to_size_may : forall f s w, bytes_ok f -> L w -> i_state s = SInit -> i_init s = ITo -> idable s -> head_ok f s ->
  may (ip_init_to_size E s w) (after f).
Proof.
  intros f s w Hf HL Es Ei Hd (Hb & Hst & Hh). rewrite Ei in Hh.
  destruct Hh as (Hz & Hc & Hp & M1 & M2 & G1 & G2 & S1 & S2 & F1 & F2). unfold ip_init_to_size.
  pose proof (pow2_32_le word_bits Hword). destruct Hhdr as (_ & _ & _ & _ & Hto).
  destruct (uhs_app (i_left s) (i_size s) f Hz)
    as [(z1 & P & Q & R)|[(v & z1 & l & used & P & Q & R & S)|(z1 & l & P & R)]]; rewrite P; cbn [obind]; cbv zeta.
  - change (negb (1 =? 0)) with true. cbn [may after]. splits; auto; [lia|]. intros _. split; [|reflexivity].
    split; [exact Hd|]. cbn. rewrite Es. unfold head_ok. cbn. rewrite Ei. splits; auto; [constructor| |lia..].
    intros v z2 l U. apply (Hp v z2 l). rewrite R. exact U.
  - change (negb (0 =? 0)) with false. cbv iota. pose proof (Hp _ _ _ S) as X. rewrite Hto in X. inversion X as [[X1 X2]]. clear X. subst v.
    assert (Hl : bytes_ok l) by (rewrite R in Hb; apply Forall_app in Hb; tauto).
    destruct (reader_init _ _) as [r|] eqn:Er.
    2:{ cbn [may]. apply after_neg; auto. unfold E_BAD_COMPRESSION. lia. }
    cbn [i_compression iset_header] in Er. rewrite Hc in Er.
    pose proof (init_gives_ip f l r _ Hf (eq_sym X2) Hl Er) as G. pose proof (reader_init_dable _ _ _ Er) as Gd.
    destruct (Z.ltb_spec (n_to a) 0); [lia|]. destruct (Z.ltb_spec 0 (n_to a)).
    2:{ cbn [may after]. splits; auto; [lia|intros x Hx; inv Hx; auto|]. intros _. split; [|intros; lia]. split; [intros x Hx; inv Hx; auto|exact I]. }
    apply may_bind. cbn [i_step i_memory_size i_from_size i_segment_size i_shift_size iset_seg iset_to iset_reader iset_header].
    rewrite Hst, M1, F1, G1, S1. specialize (Hseg H1).
    eapply may_imp; [apply shift_fit; auto; try lia|].
    { destruct Hfit as [Hx|(X3 & X4 & X5 & X6)]; auto. }
    intros [[res1 st1] w1] (K1 & K2 & K3).
    destruct (Z.eqb_spec res1 0); cbn [negb may]; [|apply after_neg; auto; [lia|intros x Hx; inv Hx; auto]].
    specialize (K3 e). cbn [after]. splits; auto; [lia|intros x Hx; inv Hx; auto|]. intros _. split; [|intros; lia].
    split; [intros x Hx; inv Hx; auto|]. cbn. unfold tail_ok. cbn. rewrite wrap_small by lia. splits; auto; try lia.
    exists r, body, (moved (body_fields a body)). split; [reflexivity|]. split; [exact G|]. split; [intros Y; discriminate Y|]. split; [apply moved_nonneg|]. split; [unfold total; lia|].
    unfold fields_ok. cbn [i_state iset_st]. splits; try (cbn; lia).
    unfold szrest. cbn [z_cons z_first]. destruct (dec_size body) as [[d l']|] eqn:D; [|auto].
    intros k. pose proof (body_good (Datatypes.S k)) as Y. unfold flds in Y. cbn [ip_fields] in Y. rewrite Z.eqb_refl, D in Y. exact Y.
  - change (negb (- E_CORRUPT_PATCH_OVERFLOW =? 0)) with true. cbn [may]. apply after_neg; auto. unfold E_CORRUPT_PATCH_OVERFLOW. lia.
Qed.

Lemma init_may : forall f s w, bytes_ok f -> L w -> i_state s = SInit -> idable s -> head_ok f s ->
  may (ip_process_init E s w) (after f).
Proof.
  intros f s w Hf HL Es Hd Hh. unfold ip_process_init.
  assert (Sz : forall next store M v0 M1, zok (i_size s) -> pend f M s -> dec_magnitude M = Some (v0, M1) ->
     (forall x v, i_state (store x v) = i_state x /\ i_reader (store x v) = i_reader x /\ i_left (store x v) = i_left x) ->
     (forall z1, zok z1 -> pend f M (iset_header s (i_init s) (i_compression s) z1 []) ->
         head_ok f (iset_header s (i_init s) (i_compression s) z1 [])) ->
     (forall z1 l, bytes_ok l -> l ++ f = M1 -> 0 <= v0 < 2 ^ 27 -> head_ok f (store (iset_header s next (i_compression s) (z_first z1) l) v0)) ->
     may (letm (r, s1) := ip_init_size s next store in Ret (r, s1, w)) (after f)).
  { intros next store M v0 M1 Hz Hp Hm Hst H1 H0. apply may_bind.
    eapply may_imp; [apply (init_size_may f s next store M v0 M1 Hf); auto; destruct Hh; auto|].
    intros [res s1] [(-> & z1 & -> & Y1 & Y2)|[(-> & Y1 & z1 & l & -> & Y2 & Y3)|(Y1 & z1 & l & ->)]]; cbn [may].
    - cbn [after]. splits; auto; [lia|]. intros _. split; [|reflexivity]. split; [exact Hd|]. cbn. rewrite Es. auto.
    - destruct (Hst (iset_header s next (i_compression s) (z_first z1) l) v0) as (T1 & T2 & T3). cbn in T1, T2, T3.
      cbn [after]. splits; auto; [lia|intros x Hx; rewrite T2 in Hx; auto|]. intros _. split; [|intros; lia].
      split; [intros x Hx; rewrite T2 in Hx; auto|]. rewrite T1, Es. auto.
    - apply after_neg; auto. }
  assert (Hh0 := Hh). destruct Hh as (Hb & Hst & Hh). destruct Hhdr as (H1 & H2 & H3 & H4 & H5).
  destruct (i_init s) eqn:Ei.
  - unfold ip_init_fixed_header. destruct (i_left s) as [|b l] eqn:El; cbn [obind].
    { cbn [may]. apply after_neg; auto. unfold E_SHORT_HEADER. lia. }
    cbv zeta. destruct (negb _); cbn [obind may]. { apply after_neg; auto. unfold E_BAD_PATCH_TYPE. lia. }
    inv Hb. cbn [after]. splits; auto; [lia|]. intros _. split; [|intros; lia]. split; [exact Hd|]. cbn. rewrite Es.
    unfold head_ok. cbn. splits; auto; [apply zok_first|rewrite <- Hh in Hcomp; exact Hcomp|].
    apply pend_next; auto. cbn. rewrite <- Hh. reflexivity.
  - destruct Hh as (Hz & Hc & Hp). apply Sz with (M := tl patch) (v0 := n_memory a) (M1 := l1); auto.
    + intros z1 Y1 Y2. unfold head_ok. cbn. splits; auto. constructor.
    + intros z1 l Y1 Y2 Y3. unfold head_ok. cbn. splits; auto; try lia; [apply zok_first|]. apply pend_next; auto.
  - destruct Hh as (Hz & Hc & Hp & Hm & Hm2). apply Sz with (M := l1) (v0 := n_segment a) (M1 := l2); auto.
    + intros z1 Y1 Y2. unfold head_ok. cbn. splits; auto; try lia. constructor.
    + intros z1 l Y1 Y2 Y3. unfold head_ok. cbn. splits; auto; try lia; [apply zok_first|]. apply pend_next; auto.
  - destruct Hh as (Hz & Hc & Hp & Hm & Hm2 & Hg & Hg2). apply Sz with (M := l2) (v0 := n_shift a) (M1 := l3); auto.
    + intros z1 Y1 Y2. unfold head_ok. cbn. splits; auto; try lia. constructor.
    + intros z1 l Y1 Y2 Y3. unfold head_ok. cbn. splits; auto; try lia; [apply zok_first|]. apply pend_next; auto.
  - destruct Hh as (Hz & Hc & Hp & Hm & Hm2 & Hg & Hg2 & Hs & Hs2). apply Sz with (M := l3) (v0 := n_from a) (M1 := l4); auto.
    + intros z1 Y1 Y2. unfold head_ok. cbn. splits; auto; try lia. constructor.
    + intros z1 l Y1 Y2 Y3. unfold head_ok. cbn. splits; auto; try lia; [apply zok_first|]. apply pend_next; auto.
  - apply to_size_may; auto.
Qed.

(** ** Segments *)

Lemma area_ok : forall x n, 0 <= x -> 0 <= n -> x + n <= n_to a -> B x n.
Proof. intros x n Hx Hn Hxn. destruct Hfit as [H|(H1 & H2 & H3 & H4)]; auto. apply H4; lia. Qed.

Lemma after_more : forall f s w z1 r1 m1, L w -> (i_state s <> SInit /\ i_state s <> SDone /\ i_state s <> SFailed) ->
  dable r1 -> m1 = [] -> tail_ok f (iset_reader s (Some r1) z1 m1) -> after f (1, iset_reader s (Some r1) z1 m1, w).
Proof.
  intros f s w z1 r1 m1 HL (H1 & H2 & H3) Hd -> Ht.
  assert (Hi : idable (iset_reader s (Some r1) z1 [])) by (intros r Hr; inv Hr; auto).
  cbn [after]. splits; auto; [lia|]. intros _. split; [|reflexivity]. split; [exact Hi|]. cbn [i_state iset_reader].
  destruct (i_state s); auto; congruence.
Qed.

Lemma dfpatch_may : forall f s w, bytes_ok f -> L w -> i_state s = SDfpatchSize -> idable s -> tail_ok f s ->
  may (ip_process_dfpatch_size E s w) (after f).
Proof.
  intros f s w Hf HL Es Hd (T1 & T2 & T3 & T4 & T5 & T6 & r & rest & A & R1 & R2 & R3 & R4 & R5 & R6).
  unfold fields_ok in R6. rewrite Es in R6. destruct R6 as (I1 & I2 & I3 & I4 & I5).
  pose proof (pow2_32_le word_bits Hword).
  unfold ip_process_dfpatch_size. rewrite R1. apply may_bind.
  eapply (unpack_may f); [exact Hf|exact R2|exact R3|apply Hd; exact R1|..].
  - intros v z1 r1 m1 rest1 U1 U2 U3 U4 U5 U6 U7. cbn iota beta. cbv zeta. change (negb (0 =? 0)) with false. cbv iota.
    destruct (0 <? v). { cbn [may]. apply after_neg; [auto|unfold E_NOT_IMPLEMENTED; lia|intros x Hx; inv Hx; auto]. }
    cbn [i_seg i_segment_size i_shift_size i_to_size i_step iset_reader iset_seg iset_st]. rewrite T1, T2, T3.
    remember (g_index (i_seg s)) as ix eqn:Hix. rewrite <- I2.
    assert (Hixb : ix <= i_to_pos s) by (rewrite I2; pose proof (Z.mul_le_mono_nonneg_l 1 (n_segment a) ix); lia).
    assert (Hnx : n_segment a * (ix + 1) = i_to_pos s + n_segment a) by (rewrite I2; ring).
    assert (Hp0 : 0 <= i_to_pos s) by lia.
    rewrite (wrap_small (i_to_pos s)) by lia. rewrite (wrap_small (ix + 1)) by lia. rewrite Hnx. rewrite (wrap_small (i_to_pos s + n_segment a)) by lia.
    rewrite (wrap_small (n_to a - i_to_pos s)) by lia. rewrite to_int_small by (unfold INT_MIN, INT_MAX; lia).
    destruct (ip_mem_erase E _ w _ _) as [res1 w1] eqn:Er. destruct (erase_fit _ _ _ _ _ _ Er HL) as [F1 F2]; [apply area_ok; lia|].
    cbn [may]. cbn [after]. splits; auto; [lia|intros x Hx; inv Hx; auto|]. intros _. split; [|intros; lia]. split; [intros x Hx; inv Hx; auto|].
    cbn [i_state iset_seg iset_st]. unfold tail_ok.
    cbn [i_seg i_segment_size i_shift_size i_to_size i_step iset_reader iset_seg iset_st i_reader i_left i_rsize].
    split; [auto|]. split; [auto|]. split; [auto|]. split; [auto|]. split; [auto|]. split; [auto|].
    exists r1, rest1, A. split; [auto|]. split; [auto|]. split; [auto|]. split; [auto|]. split; [lia|].
    unfold fields_ok. cbn [i_state iset_seg iset_st]. unfold seg_ok, from_ok, stop.
    cbn [i_seg i_to_pos i_step iset_reader iset_seg iset_st i_rsize g_index g_from_offset g_to_offset g_to_size g_to_pos].
    split; [splits; lia|]. split; [lia|].
    intros k. rewrite U5 in I5. specialize (I5 (Datatypes.S k)). unfold flds in I5. cbn [ip_fields] in I5.
    destruct (Z.eqb_spec (i_to_pos s) (Z.min (i_to_pos s + n_segment a) (n_to a))); [lia|].
    unfold szrest. rewrite U2. replace (i_to_pos s + Z.min (n_segment a) (n_to a - i_to_pos s)) with (Z.min (i_to_pos s + n_segment a) (n_to a)) by lia. exact I5.
  - intros v z1 r1 rest1 U1 U2 U3 U4 U5. cbn iota beta. cbv zeta. change (negb (1 =? 0)) with true. cbn [may].
    apply after_more; auto; [rewrite Es; splits; discriminate|]. unfold tail_ok. cbn [i_seg i_segment_size i_shift_size i_to_size i_step iset_reader iset_seg iset_st i_reader i_left i_rsize].
    split; [auto|]. split; [auto|]. split; [auto|]. split; [auto|]. split; [auto|]. split; [auto|].
    exists r1, rest1, A. split; [auto|]. split; [auto|]. split; [auto|]. split; [auto|]. split; [lia|].
    unfold fields_ok. cbn [i_state iset_reader i_seg i_to_pos i_step i_rsize]. rewrite Es. rewrite U3. splits; auto; lia.
  - intros res v z1 r1 m1 U1 U2. cbn iota beta. cbv zeta. destruct (Z.eqb_spec res 0); [lia|]. cbn [negb may].
    apply after_neg; auto. intros x Hx; inv Hx; auto.
Qed.

(** ** Sizes *)

Lemma size_may : forall f s w next, bytes_ok f -> L w ->
  (i_state s = SDiffSize /\ next = SDiffData) \/ (i_state s = SExtraSize /\ next = SExtraData) -> idable s -> tail_ok f s ->
  may (letm (r, s1) := ip_process_size s next in Ret (r, s1, w)) (after f).
Proof.
  intros f s w next Hf HL Hn Hd (T1 & T2 & T3 & T4 & T5 & T6 & r & rest & A & R1 & R2 & R3 & R4 & R5 & R6).
  assert (R7 : seg_ok s /\ from_ok s A rest) by (unfold fields_ok in R6; destruct Hn as [[Es _]|[Es _]]; rewrite Es in R6; tauto).
  destruct R7 as [(S1 & S2 & S3 & S4 & S5 & S6 & S7 & S8) S9].
  pose proof (pow2_32_le word_bits Hword). assert (Hto0 : 0 <= g_to_offset (i_seg s)) by (rewrite S2; apply Z.mul_nonneg_nonneg; lia).
  unfold ip_process_size. rewrite R1. apply may_bind. apply may_bind. unfold common_process_size. apply may_bind.
  eapply (unpack_may f); [exact Hf|exact R2|exact R3|apply Hd; exact R1|..].
  - intros v z1 r1 m1 rest1 U1 U2 U3 U4 U5 U6 U7. cbn iota beta. cbv zeta. change (negb (0 =? 0)) with false. cbv iota.
    destruct (Z.ltb_spec (i_to_size s) (wrap (i_to_pos s + wrap v))) as [|Hacc].
    { cbn [may]. change (negb (- E_CORRUPT_PATCH =? 0)) with true. cbn [may]. apply after_neg; [auto|unfold E_CORRUPT_PATCH; lia|intros x Hx; inv Hx; auto]. }
    cbn [may]. change (negb (0 =? 0)) with false. cbn [may after]. splits; auto; [lia|intros x Hx; inv Hx; auto|]. intros _. split; [|intros; lia]. split; [intros x Hx; inv Hx; auto|].
    cbn [i_state iset_chunk_size iset_st].
    assert (Hgo : tail_ok f (iset_chunk_size (iset_st (iset_reader s (Some r1) z1 m1) next) (wrap v))); [|destruct Hn as [[_ ->]|[_ ->]]; exact Hgo].
    unfold tail_ok. cbn [i_seg i_segment_size i_shift_size i_to_size i_step iset_reader iset_chunk_size iset_st i_reader i_left i_rsize].
    split; [auto|]. split; [auto|]. split; [auto|]. split; [auto|]. split; [auto|]. split; [auto|].
    exists r1, rest1, A. split; [auto|]. split; [auto|]. split; [auto|]. split; [auto|]. split; [lia|].
    assert (Hsegs : seg_ok (iset_chunk_size (iset_st (iset_reader s (Some r1) z1 m1) next) (wrap v))).
    { unfold seg_ok. cbn [i_seg i_to_pos i_step iset_reader iset_chunk_size iset_st]. splits; auto; lia. }
    assert (Hfrom : from_ok (iset_chunk_size (iset_st (iset_reader s (Some r1) z1 m1) next) (wrap v)) A rest1).
    { unfold from_ok in *. cbn [i_seg iset_reader iset_chunk_size iset_st]. lia. }
    pose proof (wrap_range v Hword) as Hwr. rewrite T3 in Hacc.
    destruct (Z_lt_le_dec v 0) as [Hneg0|Hpos0].
    + assert (Hw : wrap v = 2 ^ word_bits + v).
      { unfold wrap. symmetry. apply (Z.mod_unique v _ (-1)); lia. }
      assert (Hno : neg_ok).
      { unfold fields_ok in R6. destruct Hn as [[Es _]|[Es _]]; rewrite Es in R6; destruct R6 as (_ & _ & R6); specialize (R6 O); rewrite U5 in R6;
          cbn [diff_fields extra_fields] in R6; destruct R6 as [R6 _]; inversion R6 as [|? ? [X|X] ?]; auto; cbn in X; lia. }
      destruct (Hneg Hno) as [Hn1 Hn2].
      assert (Hlong : zlen rest1 < wrap v).
      { lia. }
      unfold fields_ok. cbn [i_state iset_chunk_size iset_st i_chunk_size].
      destruct Hn as [[_ ->]|[_ ->]]; (split; [exact Hfrom|]; split; [exact Hwr|]; right; auto).
    + rewrite (wrap_small v) in * by lia. rewrite wrap_small in Hacc by lia.
      unfold fields_ok in R6 |- *. cbn [i_state iset_chunk_size iset_st i_chunk_size].
      destruct Hn as [[Es ->]|[Es ->]]; rewrite Es in R6; destruct R6 as (_ & _ & R6); rewrite U5 in R6;
        (split; [exact Hfrom|]; split; [lia|]; left; split; [exact Hsegs|]; split; [exact U2|]; split; [exact Hacc|]);
        intros k; specialize (R6 k); cbn [diff_fields extra_fields] in R6; (destruct (Z.ltb_spec v 0); [lia|]);
        destruct R6 as [R6 R7]; inversion R6; split; auto.
  - intros v z1 r1 rest1 U1 U2 U3 U4 U5. cbn iota beta. cbv zeta. change (negb (1 =? 0)) with true. cbn [may]. change (negb (1 =? 0)) with true. cbn [may].
    apply after_more; auto; [destruct Hn as [[-> _]|[-> _]]; splits; discriminate|]. unfold tail_ok. cbn [i_seg i_segment_size i_shift_size i_to_size i_step iset_reader iset_seg iset_st i_reader i_left i_rsize].
    split; [auto|]. split; [auto|]. split; [auto|]. split; [auto|]. split; [auto|]. split; [auto|].
    exists r1, rest1, A. split; [auto|]. split; [auto|]. split; [auto|]. split; [auto|]. split; [lia|].
    unfold fields_ok in R6 |- *. cbn [i_state iset_reader i_seg i_to_pos i_step i_rsize].
    destruct Hn as [[Es _]|[Es _]]; rewrite Es in *; rewrite U3; destruct R6 as (Q1 & Q2 & Q3); (split; [exact Q1|]; split; [unfold from_ok in *; cbn [i_seg iset_reader]; lia|exact Q3]).
  - intros res v z1 r1 m1 U1 U2. cbn iota beta. cbv zeta. destruct (Z.eqb_spec res 0); [lia|]. cbn [negb may]. destruct (Z.eqb_spec res 0); [lia|]. cbn [negb may].
    apply after_neg; auto. intros x Hx; inv Hx; auto.
Qed.

(** ** Data *)

Lemma data_write : forall f s w s2 r1 m1 rest rest1 A data st, L w -> bytes_ok f ->
  tail_ok f s -> i_state s = st -> (st = SDiffData \/ st = SExtraData) ->
  (exists r A0, i_reader s = Some r /\ A0 = A /\ gives f r (i_left s) rest /\ zok (i_rsize s) /\ 0 <= A /\ (A + zlen rest <= total /\ zlen rest <= zlen body) /\ fields_ok s A rest) ->
  1 <= zlen data <= i_chunk_size s -> zlen rest = zlen data + zlen rest1 -> zdrop (zlen data) rest = rest1 -> dable r1 -> gives f r1 m1 rest1 ->
  s2 = iset_reader s (Some r1) (i_rsize s) m1 \/
  (st = SDiffData /\ s2 = iset_seg (iset_reader s (Some r1) (i_rsize s) m1)
     (mksegst (g_index (i_seg s)) (g_from_offset (i_seg s) + zlen data) (g_to_offset (i_seg s)) (g_to_size (i_seg s)) (g_to_pos (i_seg s)))) ->
  may (let g := i_seg s2 in
       let '(rw, w3) := ip_mem_write E (i_step s2) w (wrap (g_to_pos g + g_to_offset g)) data in
       if negb (rw =? 0) then Ret (- E_IO_FAILED, s2, w3)
       else Ret (0, iset_chunk_size
                     (iset_seg (iset_to s2 (wrap (i_to_pos s2 + zlen data)) (i_to_size s2))
                        (mksegst (g_index g) (g_from_offset g) (g_to_offset g) (g_to_size g) (wrap (g_to_pos g + zlen data))))
                     (wrap (i_chunk_size s2 - zlen data)), w3)) (after f).
Proof.
  intros f s w s2 r1 m1 rest rest1 A data st HL Hf (T1 & T2 & T3 & T4 & T5 & T6 & _) Es Hst (r & A0 & R1 & _ & R2 & R3 & R4 & R5 & R6) Hlen Hrest Hdrop Hdr G Hs2.
  pose proof (pow2_32_le word_bits Hword). pose proof (zlen_nonneg rest1).
  assert (Q : i_state s2 = st /\ i_step s2 = i_step s /\ i_to_pos s2 = i_to_pos s /\ i_to_size s2 = n_to a /\ i_segment_size s2 = n_segment a /\ i_shift_size s2 = n_shift a /\
    i_chunk_size s2 = i_chunk_size s /\ i_reader s2 = Some r1 /\ i_rsize s2 = i_rsize s /\ i_left s2 = m1 /\
    g_index (i_seg s2) = g_index (i_seg s) /\ g_to_offset (i_seg s2) = g_to_offset (i_seg s) /\ g_to_size (i_seg s2) = g_to_size (i_seg s) /\ g_to_pos (i_seg s2) = g_to_pos (i_seg s) /\
    Z.abs (g_from_offset (i_seg s2)) <= Z.abs (g_from_offset (i_seg s)) + zlen data).
  { destruct Hs2 as [->|[_ ->]]; cbn; splits; auto; lia. }
  clear Hs2. destruct Q as (Q1 & Q2 & Q3 & Q4 & Q5 & Q6 & Q7 & Q8 & Q9 & Q10 & Q11 & Q12 & Q13 & Q14 & Q15).
  cbv zeta. rewrite Q2, Q3, Q4, Q7, Q11, Q12, Q13, Q14.
  assert (Hid : idable s2) by (intros x Hx; rewrite Q8 in Hx; inv Hx; auto).
  assert (F : from_ok s A rest /\ 0 <= i_chunk_size s < 2 ^ word_bits /\
     ((seg_ok s /\ z_cons (i_rsize s) = false /\ i_to_pos s + i_chunk_size s <= n_to a /\
       forall k, good A ((match st with SDiffData => extra_fields | _ => adjust_fields end) (n_to a) (fun p l => flds k p (stop s) l) (i_to_pos s + i_chunk_size s) (dec_size (zdrop (i_chunk_size s) rest)))) \/
      (neg_ok /\ zlen rest < i_chunk_size s))).
  { unfold fields_ok in R6. destruct Hst as [-> | ->]; rewrite Es in R6; exact R6. }
  destruct F as (F1 & F2 & F3).
  assert (HB : B (wrap (g_to_pos (i_seg s) + g_to_offset (i_seg s))) (zlen data)).
  { destruct F3 as [(F3 & F4 & F5 & _)|[F3 _]]; [|apply (Hneg F3)].
    destruct F3 as (S1 & S2 & S3 & S4 & S5 & S6 & S7 & S8).
    assert (0 <= g_to_offset (i_seg s)) by (rewrite S2; apply Z.mul_nonneg_nonneg; lia). rewrite wrap_small by lia. apply area_ok; lia. }
  destruct (ip_mem_write E _ w _ _) as [rw w3] eqn:Hw. destruct (write_fit _ _ _ _ _ _ Hw HL HB) as [W1 W2].
  destruct (negb _). { cbn [may]. apply after_neg; auto. unfold E_IO_FAILED. lia. }
  cbn [may after].
  match goal with |- L _ /\ _ /\ idable ?x /\ _ => remember x as s3 eqn:Hs3 end.
  assert (P : i_state s3 = st /\ i_step s3 = i_step s /\ i_to_pos s3 = wrap (i_to_pos s + zlen data) /\ i_to_size s3 = n_to a /\ i_segment_size s3 = n_segment a /\ i_shift_size s3 = n_shift a /\
    i_chunk_size s3 = wrap (i_chunk_size s - zlen data) /\ i_reader s3 = Some r1 /\ i_rsize s3 = i_rsize s /\ i_left s3 = m1 /\
    g_index (i_seg s3) = g_index (i_seg s) /\ g_to_offset (i_seg s3) = g_to_offset (i_seg s) /\ g_to_size (i_seg s3) = g_to_size (i_seg s) /\ g_to_pos (i_seg s3) = wrap (g_to_pos (i_seg s) + zlen data) /\
    g_from_offset (i_seg s3) = g_from_offset (i_seg s2)).
  { rewrite Hs3. cbn. splits; auto. }
  clear Hs3. destruct P as (P1 & P2 & P3 & P4 & P5 & P6 & P7 & P8 & P9 & P10 & P11 & P12 & P13 & P14 & P15).
  assert (Hid3 : idable s3) by (intros x Hx; rewrite P8 in Hx; inv Hx; auto).
  splits; auto; [lia|]. intros _. split; [|intros; lia]. split; [auto|].
  assert (Hgo : tail_ok f s3); [|rewrite P1; destruct Hst as [->| ->]; exact Hgo].
  split; [auto|]. split; [auto|]. split; [auto|]. split; [auto|]. split; [auto|]. split; [auto|].
  exists r1, rest1, A. rewrite P10, P9. split; [auto|]. split; [auto|]. split; [auto|]. split; [auto|]. split; [lia|].
  rewrite wrap_small in P7 by lia.
  assert (Hgo : from_ok s3 A rest1 /\ 0 <= i_chunk_size s3 < 2 ^ word_bits /\
     ((seg_ok s3 /\ z_cons (i_rsize s3) = false /\ i_to_pos s3 + i_chunk_size s3 <= n_to a /\
       forall k, good A ((match st with SDiffData => extra_fields | _ => adjust_fields end) (n_to a) (fun p l => flds k p (stop s3) l) (i_to_pos s3 + i_chunk_size s3) (dec_size (zdrop (i_chunk_size s3) rest1)))) \/
      (neg_ok /\ zlen rest1 < i_chunk_size s3))).
  2:{ unfold fields_ok. rewrite P1. destruct Hst as [-> | ->]; exact Hgo. }
  split; [unfold from_ok in *; lia|]. split; [lia|]. destruct F3 as [(F3 & F4 & F5 & F6)|[F3 F4]]; [left|right; split; [auto|lia]].
  destruct F3 as (S1 & S2 & S3 & S4 & S5 & S6 & S7 & S8).
  assert (0 <= g_to_offset (i_seg s)) by (rewrite S2; apply Z.mul_nonneg_nonneg; lia).
  rewrite wrap_small in P3, P14 by lia.
  split. { unfold seg_ok. rewrite P2, P3, P11, P12, P13, P14. splits; auto; lia. }
  rewrite P9, P3, P7. split; [auto|]. split; [lia|]. intros k. specialize (F6 k). unfold stop in *. rewrite P12, P13.
  replace (i_to_pos s + zlen data + (i_chunk_size s - zlen data)) with (i_to_pos s + i_chunk_size s) by lia.
  rewrite <- Hdrop, zdrop_zdrop by lia. replace (i_chunk_size s - zlen data + zlen data) with (i_chunk_size s) by lia. exact F6.
Qed.

Lemma data_may : forall f s w next, bytes_ok f -> L w ->
  (i_state s = SDiffData /\ next = SExtraSize) \/ (i_state s = SExtraData /\ next = SAdjustment) -> idable s -> tail_ok f s ->
  may (ip_process_data E s w next) (after f).
Proof.
  intros f s w next Hf HL Hn Hd Ht. pose proof Ht as (T1 & T2 & T3 & T4 & T5 & T6 & r & rest & A & R1 & R2 & R3 & R4 & R5 & R6).
  pose proof (pow2_32_le word_bits Hword). pose proof (zlen_nonneg rest) as Hr0.
  assert (Hst : i_state s = SDiffData \/ i_state s = SExtraData) by tauto.
  assert (F : from_ok s A rest /\ 0 <= i_chunk_size s < 2 ^ word_bits) by (unfold fields_ok in R6; destruct Hst as [Es|Es]; rewrite Es in R6; tauto).
  destruct F as [F1 F2].
  unfold ip_process_data. cbv zeta. destruct (Z.eqb_spec (Z.min 128 (i_chunk_size s)) 0) as [Ez|Ez].
  - cbn [may after]. splits; auto; [lia|]. intros _. split; [|intros; lia]. split; [exact Hd|].
    cbn [i_state iset_st]. assert (Hgo : tail_ok f (iset_st s next)); [|destruct Hn as [[_ ->]|[_ ->]]; exact Hgo].
    split; [auto|]. split; [auto|]. split; [auto|]. split; [auto|]. split; [auto|]. split; [auto|].
    exists r, rest, A. split; [auto|]. split; [auto|]. split; [auto|]. split; [auto|]. split; [lia|].
    unfold fields_ok in R6 |- *. cbn [i_state iset_st].
    destruct Hn as [[Es ->]|[Es ->]]; rewrite Es in R6; destruct R6 as (_ & _ & [(Q1 & Q2 & Q3 & Q4)|[_ Q]]); try lia;
      (split; [exact Q1|]; split; [exact F1|]; intros k; specialize (Q4 k); unfold szrest; cbn [i_rsize iset_st]; rewrite Q2;
       replace (i_chunk_size s) with 0 in Q4 by lia; rewrite Z.add_0_r, zdrop_0 in Q4; exact Q4).
  - rewrite R1. assert (Hmin : 1 <= Z.min 128 (i_chunk_size s)) by lia.
    destruct (gives_ret f r (i_left s) rest _ Hf R2 Hmin) as (res & out & r1 & m1 & D). rewrite D. cbn [obind].
    assert (Hdr : dable r1) by (eapply decompress_dable; [apply Hd; exact R1|exact D]).
    destruct (gives_dec _ _ _ _ _ _ _ _ _ Hf R2 Hmin D) as [G1 G2].
    destruct (Z.eqb_spec res 0) as [->|Hne]; cbn [negb].
    2:{ cbn [may]. pose proof (SeqInv.decompress_code _ _ _ _ _ _ _ D) as [X|[X|X]]; [congruence| |apply after_neg; auto; [lia|intros x Hx; inv Hx; auto]].
        subst res. apply after_more; auto; [destruct Hst as [-> | ->]; splits; discriminate|eapply decompress_left; exact D|].
        split; [auto|]. split; [auto|]. split; [auto|]. split; [auto|]. split; [auto|]. split; [auto|].
        exists r1, rest, A. split; [auto|]. split; [auto|]. split; [auto|]. split; [auto|]. split; [lia|].
        unfold fields_ok in R6 |- *. cbn [i_state iset_reader]. destruct Hst as [Es|Es]; rewrite Es in *; exact R6. }
    destruct (G1 eq_refl) as (Ho & rest1 & Hrr & G3).
    pose proof (gives_len _ _ _ _ _ _ _ _ R2 Hmin D) as Hlen.
    assert (Hpos : 1 <= zlen out) by (destruct out; [congruence|rewrite zlen_cons; pose proof (zlen_nonneg out); lia]).
    assert (Hz : zlen rest = zlen out + zlen rest1) by (rewrite Hrr, zlen_app; reflexivity).
    assert (Hdp : zdrop (zlen out) rest = rest1) by (rewrite Hrr; apply zdrop_app_exact; reflexivity).
    assert (Hex : exists r A0, i_reader s = Some r /\ A0 = A /\ gives f r (i_left s) rest /\ zok (i_rsize s) /\ 0 <= A /\ (A + zlen rest <= total /\ zlen rest <= zlen body) /\ fields_ok s A rest)
      by (exists r, A; splits; auto; lia).
    pose proof (zlen_nonneg rest1) as Hr1.
    destruct Hn as [[Es ->]|[Es ->]].
    + cbn [i_step iset_reader i_seg].
      destruct (ip_mem_read E _ w _ _) as [[rr from] w1] eqn:Rd. destruct (read_fit _ _ _ _ _ _ _ Rd HL ltac:(lia)) as (K1 & K2 & K3).
      destruct (Z.eqb_spec rr 0) as [->|Hrr0]; cbn [negb].
      2:{ cbn [obind may]. apply after_neg; [auto|unfold E_IO_FAILED; lia|intros x Hx; inv Hx; auto]. }
      rewrite to_int_small by (unfold INT_MIN, INT_MAX; lia).
      apply may_bind. apply may_bind. apply may_int_add; [intros Sf; specialize (Hsafe Sf); unfold from_ok in F1; unfold INT_MIN, INT_MAX; lia|].
      apply may_bind. destruct (add_data out from) as [d| |] eqn:Ad; [| |exact I].
      2:{ cbn [may]. intros Sf. rewrite add_data_mod in Ad; [discriminate|]. symmetry. auto. }
      pose proof (add_data_len _ _ _ Ad) as Hdl. cbn [may]. rewrite <- Hdl.
      apply (data_write f s w1 _ r1 m1 rest rest1 A d SDiffData); auto; try lia. rewrite Hdl. exact Hdp.
    + cbn [obind].
      apply (data_write f s w _ r1 m1 rest rest1 A out SExtraData); auto; try lia.
Qed.

(** ** Adjustments *)

Lemma adjust_may : forall f s w, bytes_ok f -> L w -> i_state s = SAdjustment -> idable s -> tail_ok f s ->
  may (ip_process_adjustment E s w) (after f).
Proof.
  intros f s w Hf HL Es Hd (T1 & T2 & T3 & T4 & T5 & T6 & r & rest & A & R1 & R2 & R3 & R4 & R5 & R6).
  unfold fields_ok in R6. rewrite Es in R6. destruct R6 as (S0 & F1 & R6). pose proof S0 as (S1 & S2 & S3 & S4 & S5 & S6 & S7 & S8).
  pose proof (pow2_32_le word_bits Hword). assert (Hto0 : 0 <= g_to_offset (i_seg s)) by (rewrite S2; apply Z.mul_nonneg_nonneg; lia).
  assert (Hix : g_index (i_seg s) - 1 <= g_to_offset (i_seg s)) by (rewrite S2; pose proof (Z.mul_le_mono_nonneg_l 1 (n_segment a) (g_index (i_seg s) - 1)); lia).
  unfold ip_process_adjustment. rewrite R1. apply may_bind.
  eapply (unpack_may f); [exact Hf|exact R2|exact R3|apply Hd; exact R1|..].
  - intros v z1 r1 m1 rest1 U1 U2 U3 U4 U5 U6 U7. cbn iota beta. cbv zeta. change (negb (0 =? 0)) with false. cbv iota.
    cbn [i_seg i_to_pos i_to_size i_step iset_reader]. rewrite T3.
    assert (R8 : forall k, Z.abs v <= A /\ (i_to_pos s <> n_to a -> good (A - Z.abs v) (flds k (i_to_pos s) (stop s) rest1))).
    { intros k. specialize (R6 k). rewrite U5 in R6. cbn [adjust_fields] in R6. destruct R6 as [R6 R7]. inversion R6. cbn [moved] in R7.
      destruct (Z.eqb_spec (i_to_pos s) (n_to a)); [cbn [moved] in R7; split; [lia|congruence]|].
      split; [pose proof (moved_nonneg (flds k (i_to_pos s) (stop s) rest1)); lia|]. intros _. split; [auto|lia]. }
    destruct (Z.eqb_spec (i_to_pos s) (n_to a)) as [|Hnd].
    { destruct (all_steps_completed E w) as [res1 w1] eqn:Al. destruct (all_fit _ _ _ Al HL) as [A1 A2]. cbn [may after].
      splits; auto; [lia|intros x Hx; inv Hx; auto|]. intros _. split; [|intros; lia]. split; [intros x Hx; inv Hx; auto|exact I]. }
    destruct (Z.eqb_spec (g_to_pos (i_seg s)) (g_to_size (i_seg s))) as [Hfull|Hmore].
    + apply may_bind. eapply may_imp; [apply next_fit; [auto|unfold INT_MAX; lia]|]. intros [[res1 st1] w1] (N1 & N2 & N3). cbn [may].
      destruct (Z.eq_dec res1 0) as [->|]; [|apply after_neg; [auto|lia|intros x Hx; inv Hx; auto]]. specialize (N3 eq_refl).
      cbn [after]. splits; auto; [lia|intros x Hx; inv Hx; auto|]. intros _. split; [|intros; lia]. split; [intros x Hx; inv Hx; auto|].
      cbn [i_state iset_st]. split; [auto|]. split; [auto|]. split; [auto|]. split; [auto|]. split; [auto|]. split; [auto|].
      destruct (R8 O) as [Hv _].
      exists r1, rest1, (A - Z.abs v). split; [auto|]. split; [auto|]. split; [auto|]. split; [lia|]. split; [lia|].
      unfold fields_ok. cbn [i_state iset_st i_seg iset_step iset_reader i_to_pos i_step i_rsize].
      assert (Hpos : i_to_pos s = g_index (i_seg s) * n_segment a).
      { replace (g_index (i_seg s) * n_segment a) with ((g_index (i_seg s) - 1) * n_segment a + n_segment a) by ring. lia. }
      split; [lia|]. split; [exact Hpos|]. split; [lia|]. split; [lia|].
      unfold szrest. rewrite U2. destruct (dec_size rest1) as [[d l']|] eqn:D; [|auto]. intros k.
      destruct (R8 (Datatypes.S k)) as [_ X]. specialize (X Hnd). unfold flds in X. cbn [ip_fields] in X.
      destruct (Z.eqb_spec (i_to_pos s) (stop s)) as [_|Y]; [|exfalso; apply Y; unfold stop; lia]. rewrite D in X. exact X.
    + apply may_bind. destruct (R8 O) as [Hv _]. apply may_int_add; [intros Sf; specialize (Hsafe Sf); unfold from_ok in F1; pose proof (zlen_nonneg rest); unfold INT_MIN, INT_MAX; lia|].
      cbn [may after]. splits; auto; [lia|intros x Hx; inv Hx; auto|]. intros _. split; [|intros; lia]. split; [intros x Hx; inv Hx; auto|].
      cbn [i_state iset_st]. split; [auto|]. split; [auto|]. split; [auto|]. split; [auto|]. split; [auto|]. split; [auto|].
      exists r1, rest1, (A - Z.abs v). split; [auto|]. split; [auto|]. split; [auto|]. split; [lia|]. split; [lia|].
      unfold fields_ok. cbn [i_state iset_st]. split; [exact S0|]. split; [unfold from_ok in *; cbn; lia|].
      intros k. cbn [i_to_pos iset_st iset_seg iset_reader i_rsize]. unfold szrest. rewrite U2.
      destruct (R8 (Datatypes.S k)) as [_ X]. specialize (X Hnd). unfold flds in X. cbn [ip_fields] in X.
      destruct (Z.eqb_spec (i_to_pos s) (stop s)) as [Y|_]; [exfalso; unfold stop in Y; lia|]. exact X.
  - intros v z1 r1 rest1 U1 U2 U3 U4 U5. cbn iota beta. cbv zeta. change (negb (1 =? 0)) with true. cbn [may].
    apply after_more; auto; [rewrite Es; splits; discriminate|].
    split; [auto|]. split; [auto|]. split; [auto|]. split; [auto|]. split; [auto|]. split; [auto|].
    exists r1, rest1, A. split; [auto|]. split; [auto|]. split; [auto|]. split; [auto|]. split; [lia|].
    unfold fields_ok. cbn [i_state iset_reader]. rewrite Es. split; [exact S0|]. split; [unfold from_ok in *; cbn [i_seg iset_reader]; lia|].
    cbn [i_rsize iset_reader]. rewrite U3. exact R6.
  - intros res v z1 r1 m1 U1 U2. cbn iota beta. cbv zeta. destruct (Z.eqb_spec res 0); [lia|]. cbn [negb may].
    apply after_neg; auto. intros x Hx; inv Hx; auto.
Qed.

(** ** Calls *)

Definition settled (f : list Z) (x : Z * ip * W) : Prop :=
  let '(res, s1, w1) := x in L w1 /\ iinv f s1 /\ (res = 1 -> i_left s1 = []) /\ (res < 0 \/ 1 < res -> i_state s1 = SDone \/ i_state s1 = SFailed).

Lemma once_may : forall f s w, bytes_ok f -> L w -> iinv f s -> may (ip_process_once E s w) (settled f).
Proof.
  intros f s w Hf HL [Hd Hi]. unfold ip_process_once.
  assert (K : forall m, may m (after f) -> i_state s <> SDone ->
     may (obind m (fun x => let '(res, s1, w1) := x in match i_state s with SDone => Ret (res, s1, w1) | _ => Ret (res, if res <? 0 then iset_st s1 SFailed else s1, w1) end)) (settled f)).
  { intros m Hm Hnd. apply may_bind. eapply may_imp; [exact Hm|]. intros [[res s1] w1] (A1 & A2 & A3 & A4).
    assert (Hx : may (Ret (res, if res <? 0 then iset_st s1 SFailed else s1, w1)) (settled f)); [|destruct (i_state s); auto; congruence].
    cbn [may settled]. split; [auto|]. destruct (Z.ltb_spec res 0) as [Hr|Hr].
    - split; [split; [exact A3|exact I]|]. split; [lia|auto].
    - destruct (A4 Hr) as [A5 A6]. split; [auto|]. split; [auto|lia]. }
  destruct (i_state s) eqn:Es; try (apply K; [|discriminate]).
  - apply init_may; auto.
  - apply dfpatch_may; auto.
  - apply size_may; auto.
  - apply data_may; auto.
  - apply size_may; auto.
  - apply data_may; auto.
  - apply adjust_may; auto.
  - cbn. splits; auto; [|intros; discriminate]. split; [exact Hd|]. rewrite Es. exact I.
  - apply after_neg; auto. unfold E_ALREADY_FAILED. lia.
Qed.

Lemma iinv_chunk : forall f s p, bytes_ok p -> iinv (p ++ f) (iset_chunk s []) -> iinv f (iset_chunk s p).
Proof.
  intros f s p Hp [Hd H]. split; [exact Hd|]. cbn [i_state iset_chunk] in *. destruct (i_state s) eqn:Es; auto.
  1:{ destruct H as (A & B' & C). split; [exact Hp|]. split; [exact B'|]. cbn [i_init iset_chunk] in *. destruct (i_init s); exact C. }
  all: destruct H as (T1 & T2 & T3 & T4 & T5 & T6 & r & rest & A & R1 & (R2 & R2' & R2'') & R3 & R4 & R5 & R6);
    (split; [auto|]; split; [auto|]; split; [auto|]; split; [auto|]; split; [auto|]; split; [auto|]);
    exists r, rest, A; (split; [auto|]; split; [split; [exact Hp|split; [auto|exact R2'']]|]; split; [auto|]; split; [auto|]; split; [lia|]);
    unfold fields_ok in *; cbn [i_state iset_chunk] in *; rewrite Es in *; exact R6.
Qed.

Lemma iinv_left : forall f s, iinv f s -> (i_left s = [] \/ i_state s = SDone \/ i_state s = SFailed) -> iinv f (iset_chunk s []).
Proof.
  intros f s [Hd H] Hl. split; [exact Hd|]. cbn [i_state iset_chunk]. destruct (i_state s) eqn:Es; auto;
    (destruct Hl as [Hl|[Hl|Hl]]; [|congruence..]).
  1:{ destruct H as (A & B' & C). split; [constructor|]. split; [exact B'|]. cbn [i_init iset_chunk i_left]. unfold pend in *. cbn [i_left i_size i_compression iset_chunk i_memory_size i_segment_size i_shift_size i_from_size].
      rewrite Hl in C. exact C. }
  all: destruct H as (T1 & T2 & T3 & T4 & T5 & T6 & r & rest & A & R1 & R2 & R3 & R4 & R5 & R6);
    (split; [auto|]; split; [auto|]; split; [auto|]; split; [auto|]; split; [auto|]; split; [auto|]);
    exists r, rest, A; (split; [auto|]; split; [rewrite Hl in R2; exact R2|]; split; [auto|]; split; [auto|]; split; [lia|]);
    unfold fields_ok in *; cbn [i_state iset_chunk] in *; rewrite Es in *; exact R6.
Qed.

Definition rested (f : list Z) (x : Z * ip * W) : Prop := let '(res, s1, w1) := x in L w1 /\ iinv f (iset_chunk s1 []).

Lemma loop_may : forall fuel f res s w, bytes_ok f -> L w -> iinv f s -> (res < 0 -> i_state s = SDone \/ i_state s = SFailed) ->
  may (ip_process_loop E fuel res s w) (rested f).
Proof.
  induction fuel; intros f res s w Hf HL Hi Hr; cbn [ip_process_loop].
  - destruct (i_left s) eqn:El; [cbn; split; [auto|apply iinv_left; auto]|]. destruct (Z.ltb_spec res 0); [cbn; split; [auto|apply iinv_left; auto]|exact I].
  - destruct (i_left s) eqn:El; [cbn; split; [auto|apply iinv_left; auto]|]. destruct (Z.ltb_spec res 0); [cbn; split; [auto|apply iinv_left; auto]|].
    apply may_bind. eapply may_imp; [apply once_may; eauto|]. intros [[r1 s1] w1] (A1 & A2 & A3 & A4). apply IHfuel; auto.
Qed.

Lemma finloop_may : forall fuel f s w, bytes_ok f -> L w -> iinv f s -> may (ip_finalize_loop E fuel s w) (rested f).
Proof.
  induction fuel; intros f s w Hf HL Hi; cbn [ip_finalize_loop]; [exact I|].
  apply may_bind. eapply may_imp; [apply once_may; eauto|]. intros [[r1 s1] w1] (A1 & A2 & A3 & A4).
  destruct (Z.eqb_spec r1 0); [apply IHfuel; auto|]. cbn. split; [auto|]. apply iinv_left; auto.
  destruct (Z.eq_dec r1 1); [auto|right; apply A4; lia].
Qed.

Lemma process_may : forall fuel f s w p, bytes_ok f -> bytes_ok p -> L w -> iinv (p ++ f) (iset_chunk s []) -> may (ip_process E fuel s w p) (rested f).
Proof.
  intros fuel f s w p Hf Hp HL Hi. unfold ip_process. apply may_bind. eapply may_imp; [apply (loop_may fuel f 0); auto; [|lia]|].
  { apply iinv_chunk; auto. }
  intros [[r1 s1] w1] X. exact X.
Qed.

Lemma finalize_may : forall fuel f s w, bytes_ok f -> L w -> iinv f (iset_chunk s []) -> may (ip_finalize E fuel s w) (rested f).
Proof.
  intros fuel f s w Hf HL Hi. unfold ip_finalize. apply may_bind. eapply may_imp; [apply (finloop_may fuel f); auto|].
  intros [[r1 s1] w1] X. pose proof X as [X1 [X2 X3]]. unfold common_finalize. cbv zeta. destruct (i_reader s1) as [r|] eqn:Er; [|exact X].
  destruct (destroy_safe r (X2 r Er)) as [d Hv]. rewrite Hv. exact X.
Qed.

Lemma run_may : forall calls f fuel s w, bytes_ok (concat (pieces_of calls) ++ f) -> L w ->
  iinv (concat (pieces_of calls) ++ f) (iset_chunk s []) ->
  may (ip_run_calls E fuel s w calls) (fun x => L (snd x)).
Proof.
  induction calls as [|cl cs IH]; intros f fuel s w Hb HL Hi; cbn [ip_run_calls]; [exact HL|].
  unfold pieces_of in Hb, Hi. cbn [map concat] in Hb, Hi. rewrite <- app_assoc in Hb, Hi. apply Forall_app in Hb. destruct Hb as [Hp Hb].
  apply may_bind. eapply may_imp with (P := rested (concat (pieces_of cs) ++ f)).
  - destruct cl as [p|]; [apply process_may|apply finalize_may]; auto.
  - intros [[r1 s1] w1] [X1 X2]. apply may_bind. eapply may_imp; [apply (IH f); eauto|]. intros [[rs s2] w2] Y. exact Y.
Qed.

(** The callback API. *)
Lemma callbacks_may : forall fuel po s w, 0 <= po -> L w -> iinv (zdrop po patch) (iset_chunk s []) ->
  may (ip_callbacks_loop (ip_env_with E Z) fuel (patch_file patch) (zlen patch) po s (w, po)) (fun x => L (fst (snd x))).
Proof.
  assert (Fin : forall fuel f s w (x : Z) (Q : Z * ip * (W * Z) -> Prop), bytes_ok f -> L w -> iinv f (iset_chunk s []) ->
     (forall r s1 w1, L w1 -> Q (r, s1, (w1, x))) -> may (ip_finalize (ip_env_with E Z) fuel s (w, x)) Q).
  { intros fuel f s w x Q Hf HL Hi HQ. rewrite ifinalize_hom. pose proof (finalize_may fuel f s w Hf HL Hi) as M.
    destruct (ip_finalize E fuel s w) as [[[r s1] w1]| |]; cbn in *; auto. apply HQ. tauto. }
  assert (Hz : forall n, bytes_ok (zdrop n patch)) by (intros; apply bytes_ok_zdrop; exact Hpatch).
  induction fuel; intros po s w Hpo HL Hi; cbn [ip_callbacks_loop].
  - destruct (negb _); [|exact I]. eapply Fin; [apply (Hz po)|auto|auto|intros r1 s1 w1 H1; exact H1].
  - destruct (Z.ltb_spec po (zlen patch)); cbn [negb]; [|eapply Fin; [apply (Hz po)|auto|auto|intros r1 s1 w1 H1; exact H1]].
    cbv zeta. remember (Z.min (zlen patch - po) 512) as m eqn:Hm. unfold patch_file at 1.
    destruct (Z.leb_spec (po + m) (zlen patch)); [|lia]. change (negb (0 =? 0)) with false. cbv iota.
    replace (zlen (ztake m (zdrop po patch))) with m by (rewrite zlen_ztake, zlen_zdrop by lia; lia). rewrite Z.eqb_refl. cbn [negb].
    rewrite iprocess_hom.
    assert (Hi' : iinv (ztake m (zdrop po patch) ++ zdrop (po + m) patch) (iset_chunk s [])).
    { replace (zdrop (po + m) patch) with (zdrop m (zdrop po patch)) by (rewrite zdrop_zdrop by lia; f_equal; lia). rewrite ztake_zdrop. exact Hi. }
    pose proof (process_may (S fuel) (zdrop (po + m) patch) s w (ztake m (zdrop po patch)) (Hz _) (bytes_ok_ztake _ _ (Hz _)) HL Hi') as M.
    destruct (ip_process E (S fuel) s w _) as [[[r s1] w1]| |]; cbn in *; auto. destruct M as [M1 M2].
    destruct (r =? 0); [apply IHfuel; auto; lia|]. apply may_bind. eapply Fin; [apply (Hz (po + m))|auto|auto|]. intros r2 s2 w2 H2. exact H2.
Qed.

Lemma init_iinv : forall junk ps, iinv patch (iset_chunk (ip_init junk ps) []).
Proof. intros junk ps. split; [intros r Hr; discriminate Hr|]. cbn. unfold head_ok. cbn. splits; auto. constructor. Qed.

End Bound.

(** ** Results *)

Lemma announces_header : forall patch a, announces patch = Some a ->
  exists l1 l2 l3 l4, dec_magnitude (tl patch) = Some (n_memory a, l1) /\ dec_magnitude l1 = Some (n_segment a, l2) /\
    dec_magnitude l2 = Some (n_shift a, l3) /\ dec_magnitude l3 = Some (n_from a, l4) /\ dec_magnitude l4 = Some (n_to a, n_stream a).
Proof.
  intros patch a H. unfold announces in H.
  destruct (dec_magnitude (tl patch)) as [[x1 m1]|] eqn:D1; [|discriminate]. destruct (dec_magnitude m1) as [[x2 m2]|] eqn:D2; [|discriminate].
  destruct (dec_magnitude m2) as [[x3 m3]|] eqn:D3; [|discriminate]. destruct (dec_magnitude m3) as [[x4 m4]|] eqn:D4; [|discriminate].
  destruct (dec_magnitude m4) as [[x5 m5]|] eqn:D5; [|discriminate]. inv H. exists m1, m2, m3, m4. cbn. auto.
Qed.

Lemma codes_fit : forall {W} (E : ip_env W), codes_ok E -> reads_all E -> callbacks_fit True E (fun _ => True) (fun _ _ => True).
Proof.
  intros W E (C1 & C2 & C3) R. unfold callbacks_fit. splits; auto.
  - intros w a n r b w1 D _. specialize (C1 w a n). specialize (R _ _ _ _ _ _ D). rewrite D in C1. auto.
  - intros w a d r w1 D _ _. specialize (C2 w a d). rewrite D in C2. auto.
  - intros w a n r w1 D _ _. specialize (C3 w a n). rewrite D in C3. auto.
Qed.

Lemma watching_fit : forall {W} (E : ip_env W) memory, codes_ok E ->
  callbacks_fit False (watching E) (fun wl => Forall (changes_within memory) (snd wl)) (fun a n => within (0, memory) a n).
Proof.
  intros W E memory (C1 & C2 & C3). unfold callbacks_fit. splits.
  - intros [w l] a n r b [w1 k] D HL. cbn in *. specialize (C1 w a n). destruct (mem_read E w a n) as [[r0 b0] w0]. inv D. cbn in *.
    splits; auto; [|intros []]. apply Forall_app. split; [auto|]. constructor; [exact I|constructor].
  - intros [w l] a d r [w1 k] D HL HB. cbn in *. specialize (C2 w a d). destruct (mem_write E w a d) as [r0 w0]. inv D. cbn in *.
    split; auto. apply Forall_app. split; [auto|]. constructor; [exact HB|constructor].
  - intros [w l] a n r [w1 k] D HL HB. cbn in *. specialize (C3 w a n). destruct (mem_erase E w a n) as [r0 w0]. inv D. cbn in *.
    split; auto. apply Forall_app. split; [auto|]. constructor; [exact HB|constructor].
  - intros f [w l] n r [w1 k] S D HL. cbn in *. destruct (step_set E) as [g|]; [|discriminate]. inv S. cbn in D. destruct (g w n) as [r0 w0]. inv D. exact HL.
  - intros f [w l] n r [w1 k] S D HL. cbn in *. destruct (step_get E) as [g|]; [|discriminate]. inv S. cbn in D. destruct (g w) as [[r0 n0] w0]. inv D. exact HL.
Qed.

Lemma ip_no_undef : forall (wb : WordBits), 32 <= word_bits ->
  forall (W : Type) (E : ip_env W) junk ps c body patch a more calls fuel w,
  codes_ok E -> reads_all E -> bytes_ok patch -> bytes_ok body ->
  announced_comp patch = comp_number c -> announces patch = Some a -> compressed c body (n_stream a) ->
  (0 < n_to a -> 0 < n_segment a) -> zlen body + moved (body_fields a body) < 2 ^ 30 ->
  concat (pieces_of calls) ++ more = patch ->
  ip_run_calls E fuel (ip_init junk ps) w calls <> Undef.
Proof.
  intros wb Hw W E junk ps c body patch a more calls fuel w HC HR Hp Hb Hc Ha Hcomp Hseg Hm Hf.
  destruct (announces_header _ _ Ha) as (l1 & l2 & l3 & l4 & Hh).
  pose proof (moved_nonneg (body_fields a body)) as Hmn.
  assert (M : may True (ip_run_calls E fuel (ip_init junk ps) w calls) (fun x => True)).
  { eapply may_imp; [|intros; exact I].
    eapply (run_may Hw True E (fun _ => True) (fun _ _ => True) (codes_fit E HC HR) patch a body c True l1 l2 l3 l4); eauto.
    - apply Forall_forall. auto.
    - intros _. split; [auto|]. lia.
    - rewrite Hf. exact Hp.
    - rewrite Hf. apply init_iinv; auto. }
  intros U. rewrite U in M. apply M. exact I.
Qed.

Lemma ip_changes_within : forall (wb : WordBits), 32 <= word_bits ->
  forall (W : Type) (E : ip_env W) junk ps c body patch a more calls fuel w rs s1 w1 log,
  codes_ok E -> bytes_ok patch -> bytes_ok body ->
  announced_comp patch = comp_number c -> announces patch = Some a -> compressed c body (n_stream a) ->
  consistent a -> Forall size_nonneg (body_fields a body) ->
  concat (pieces_of calls) ++ more = patch ->
  ip_run_calls (watching E) fuel (ip_init junk ps) (w, []) calls = Ret (rs, s1, (w1, log)) ->
  Forall (changes_within (n_memory a)) log.
Proof.
  intros wb Hw W E junk ps c body patch a more calls fuel w rs s1 w1 log HC Hp Hb Hc Ha Hcomp (K1 & K2 & K3 & K4) Hs Hf R.
  destruct (announces_header _ _ Ha) as (l1 & l2 & l3 & l4 & Hh).
  assert (M : may False (ip_run_calls (watching E) fuel (ip_init junk ps) (w, []) calls) (fun x => Forall (changes_within (n_memory a)) (snd (snd x)))).
  { eapply (run_may Hw False (watching E) _ _ (watching_fit E (n_memory a) HC) patch a body c False l1 l2 l3 l4); eauto.
    - eapply Forall_impl; [|exact Hs]. auto.
    - intros [].
    - right. splits; auto. intros x n X1 X2 X3. unfold within. cbn. lia.
    - intros [].
    - rewrite Hf. exact Hp.
    - constructor.
    - rewrite Hf. apply init_iinv; auto. }
  rewrite R in M. exact M.
Qed.

(** ** The callback API *)

Lemma ip_callbacks_no_undef : forall (wb : WordBits), 32 <= word_bits ->
  forall (W : Type) (E : ip_env W) junk c body patch a fuel w,
  codes_ok E -> reads_all E -> bytes_ok patch -> bytes_ok body ->
  announced_comp patch = comp_number c -> announces patch = Some a -> compressed c body (n_stream a) ->
  (0 < n_to a -> 0 < n_segment a) -> zlen body + moved (body_fields a body) < 2 ^ 30 ->
  apply_patch_in_place_callbacks (ip_env_with E Z) fuel junk (patch_file patch) (zlen patch) (w, 0) <> Undef.
Proof.
  intros wb Hw W E junk c body patch a fuel w HC HR Hp Hb Hc Ha Hcomp Hseg Hm.
  destruct (announces_header _ _ Ha) as (l1 & l2 & l3 & l4 & Hh).
  pose proof (moved_nonneg (body_fields a body)) as Hmn.
  assert (M : may True (apply_patch_in_place_callbacks (ip_env_with E Z) fuel junk (patch_file patch) (zlen patch) (w, 0)) (fun x => True)).
  { eapply may_imp; [|intros; exact I].
    eapply (callbacks_may Hw True E (fun _ => True) (fun _ _ => True) (codes_fit E HC HR) patch a body c True l1 l2 l3 l4); eauto.
    - apply Forall_forall. auto.
    - intros _. split; [auto|]. lia.
    - lia.
    - apply init_iinv; auto. }
  intros U. rewrite U in M. apply M. exact I.
Qed.

Lemma ip_callbacks_changes_within : forall (wb : WordBits), 32 <= word_bits ->
  forall (W : Type) (E : ip_env W) junk c body patch a fuel w res s1 w1 log pos,
  codes_ok E -> bytes_ok patch -> bytes_ok body ->
  announced_comp patch = comp_number c -> announces patch = Some a -> compressed c body (n_stream a) ->
  consistent a -> Forall size_nonneg (body_fields a body) ->
  apply_patch_in_place_callbacks (ip_env_with (watching E) Z) fuel junk (patch_file patch) (zlen patch) (w, [], 0) = Ret (res, s1, (w1, log, pos)) ->
  Forall (changes_within (n_memory a)) log.
Proof.
  intros wb Hw W E junk c body patch a fuel w res s1 w1 log pos HC Hp Hb Hc Ha Hcomp (K1 & K2 & K3 & K4) Hs R.
  destruct (announces_header _ _ Ha) as (l1 & l2 & l3 & l4 & Hh).
  assert (M : may False (apply_patch_in_place_callbacks (ip_env_with (watching E) Z) fuel junk (patch_file patch) (zlen patch) (w, [], 0))
                (fun x => Forall (changes_within (n_memory a)) (snd (fst (snd x))))).
  { eapply (callbacks_may Hw False (watching E) (fun wl => Forall (changes_within (n_memory a)) (snd wl)) _ (watching_fit E (n_memory a) HC) patch a body c False l1 l2 l3 l4); eauto.
    - eapply Forall_impl; [|exact Hs]. auto.
    - intros [].
    - right. splits; auto. intros x n X1 X2 X3. unfold within. cbn. lia.
    - intros [].
    - lia.
    - constructor.
    - apply init_iinv; auto. }
  rewrite R in M. exact M.
Qed.
