(** bsdiff creates a correct patch, in bounds, without overflow, and terminates. *)

From Coq Require Import ZArith List Bool Lia ZifyBool ZifyNat ZifyN.
From Verif Require Import Prelude Lib Spec PySize SizeCodec Bsdiff BsdiffSpec.
Import ListNotations.
Open Scope Z_scope.

Ltac Zify.zify_post_hook ::= Z.to_euclidean_division_equations.

Lemma ci_ok : forall v, -2147483648 <= v <= 2147483647 -> ci v = Ret v.
Proof. intros v Hv. unfold ci, in_int, INT_MIN, INT_MAX. destruct (Z.leb_spec (-2147483648) v); [|lia]. destruct (Z.leb_spec v 2147483647); [reflexivity|lia]. Qed.

Lemma rd_ok : forall l i, 0 <= i < zlen l -> exists b, rd l i = Ret b /\ znth l i = Some b.
Proof. intros l i Hi. destruct (znth_range_some l i Hi) as (b & E). exists b. unfold rd. rewrite E. auto. Qed.

Lemma rd_some : forall l i b, znth l i = Some b -> rd l i = Ret b.
Proof. intros l i b E. unfold rd. rewrite E. auto. Qed.

Lemma lcp_nonneg : forall a b, 0 <= lcp a b <= zlen a /\ lcp a b <= zlen b.
Proof.
  induction a as [|x a IH]; intros [|y b]; cbn [lcp]; change (zlen (@nil Z)) with 0; rewrite ?zlen_cons; try (pose proof (zlen_nonneg a)); try (pose proof (zlen_nonneg b)); try lia.
  specialize (IH b). destruct (x =? y); lia.
Qed.

Lemma lcp_firstn : forall k a b, (k >= length a)%nat \/ (k >= length b)%nat -> lcp (firstn k a) (firstn k b) = lcp a b.
Proof.
  induction k; intros [|x a] [|y b] H; cbn [firstn lcp length] in *; try reflexivity; [lia|].
  rewrite IHk by lia. reflexivity.
Qed.

Lemma matchlen_loop_spec : forall k from fo to t i, 0 <= i -> 0 <= fo -> 0 <= t ->
  fo + i + Z.of_nat k <= zlen from -> t + i + Z.of_nat k <= zlen to ->
  matchlen_loop k from fo to t i = Ret (i + lcp (firstn k (zdrop (fo + i) from)) (firstn k (zdrop (t + i) to))).
Proof.
  induction k; intros from fo to t i Hi Hf Ht H1 H2; cbn [matchlen_loop].
  - cbn [firstn lcp]. f_equal. lia.
  - destruct (znth_range_some from (fo + i)) as (x & X); [lia|]. destruct (znth_range_some to (t + i)) as (y & Y); [lia|].
    rewrite (rd_some _ _ _ X), (rd_some _ _ _ Y). cbn [obind].
    rewrite (zdrop_znth_cons _ _ _ X), (zdrop_znth_cons _ _ _ Y). cbn [firstn lcp]. destruct (Z.eqb_spec x y).
    + rewrite IHk by lia. rewrite !Z.add_assoc. f_equal.
    + f_equal. lia.
Qed.

Lemma matchlen_spec : forall from fo to t, 0 <= fo <= zlen from -> 0 <= t <= zlen to ->
  matchlen from fo (zlen from - fo) to t (zlen to - t) = Ret (lcp (zdrop fo from) (zdrop t to)).
Proof.
  intros from fo to t Hf Ht. unfold matchlen. rewrite matchlen_loop_spec by lia. rewrite !Z.add_0_r. rewrite Z.add_0_l. f_equal. apply lcp_firstn.
  pose proof (zlen_zdrop fo from). pose proof (zlen_zdrop t to). unfold zlen in *. lia.
Qed.

Lemma memcmp_less_ok : forall n from fo to t, 0 <= fo -> 0 <= t -> fo + Z.of_nat n <= zlen from -> t + Z.of_nat n <= zlen to ->
  exists b, memcmp_less n from fo to t = Ret b.
Proof.
  induction n; intros from fo to t Hf Ht H1 H2; cbn [memcmp_less]; [eauto|].
  destruct (rd_ok from fo) as (x & X & _); [lia|]. destruct (rd_ok to t) as (y & Y & _); [lia|]. rewrite X, Y. cbn [obind].
  destruct (x =? y); [|eauto]. apply IHn; lia.
Qed.

Section Create.
Variables sa from to : list Z.
Hypothesis Hsa : array_ok sa from.
Hypothesis HF : zlen from < 1073741824.
Hypothesis HT : zlen to < 1073741824.
Hypothesis Hto : bytes_ok to.

Ltac ck := repeat (match goal with |- context [obind (ci ?v) _] => rewrite (ci_ok v) by lia end; cbn [obind]).
Ltac nn := pose proof (zlen_nonneg from); pose proof (zlen_nonneg to).

Lemma sa_rd : forall i, 0 <= i <= zlen from -> exists p, rd sa i = Ret p /\ 0 <= p <= zlen from /\ In p sa.
Proof.
  intros i Hi. destruct Hsa as (L & A). destruct (rd_ok sa i) as (p & E & N); [lia|]. exists p. split; [auto|].
  assert (I : In p sa). { unfold znth in N. destruct (i <? 0); [discriminate|]. eapply nth_error_In. eauto. }
  rewrite Forall_forall in A. auto.
Qed.

Lemma search_spec : forall fuel t begin end_, 0 <= t <= zlen to -> 0 <= begin <= end_ -> end_ <= zlen from -> end_ - begin <= Z.of_nat fuel ->
  exists len pos, search fuel sa from (zlen from) to t (zlen to - t) begin end_ = Ret (len, pos) /\
    0 <= pos <= zlen from /\ In pos sa /\ len = lcp (zdrop pos from) (zdrop t to).
Proof.
  nn. induction fuel; intros t begin end_ Ht Hb He Hf; cbn [search]; ck; destruct (Z.ltb_spec (end_ - begin) 2) as [L|L].
  2: lia.
  1, 2: destruct (sa_rd begin) as (pb & E1 & R1 & I1); [lia|]; destruct (sa_rd end_) as (pe & E2 & R2 & I2); [lia|];
    rewrite E1; cbn [obind]; ck; rewrite matchlen_spec by lia; cbn [obind];
    rewrite E2; cbn [obind]; ck; rewrite matchlen_spec by lia; cbn [obind];
    destruct (lcp (zdrop pe from) (zdrop t to) <? lcp (zdrop pb from) (zdrop t to)); eauto 10.
  destruct (sa_rd (begin + (end_ - begin) / 2)) as (p & E1 & R1 & _); [lia|]. rewrite E1. cbn [obind]. ck.
  destruct (memcmp_less_ok (Z.to_nat (Z.min (zlen from - p) (zlen to - t))) from p to t) as (b & E); [lia..|]. rewrite E. cbn [obind].
  destruct b; apply IHfuel; lia.
Qed.

Lemma to_int_from : to_int (zlen from) = zlen from.
Proof. nn. apply to_int_small. unfold INT_MIN, INT_MAX. lia. Qed.
Lemma to_int_to : to_int (zlen to) = zlen to.
Proof. nn. apply to_int_small. unfold INT_MIN, INT_MAX. lia. Qed.

Lemma forward_loop_spec : forall k scan ls lp s sf d i,
  0 <= ls -> 0 <= lp <= zlen from -> scan <= zlen to -> 0 <= i -> 0 <= s <= i -> 0 <= sf <= d -> d <= i ->
  ls + i <= scan -> lp + i <= zlen from -> scan - ls - i <= Z.of_nat k ->
  exists r, forward_loop k from to scan ls lp s sf d i = Ret r /\ 0 <= r /\ ls + r <= scan /\ lp + r <= zlen from.
Proof.
  nn. induction k; intros scan ls lp s sf d i H1 H2 H3 H4 H5 H6 H7 H8 H9 Hk; cbn [forward_loop]; ck;
    (destruct (Z.ltb_spec (ls + i) scan); [|exists d; split; [reflexivity|lia]]); [lia|].
  ck. destruct (Z.ltb_spec (lp + i) (zlen from)); [|exists d; split; [reflexivity|lia]].
  destruct (rd_ok from (lp + i)) as (x & X & _); [lia|]. destruct (rd_ok to (ls + i)) as (y & Y & _); [lia|]. rewrite X, Y. cbn [obind].
  assert (S1 : exists s1, (if x =? y then ci (s + 1) else Ret s) = Ret s1 /\ 0 <= s1 <= i + 1).
  { destruct (x =? y); [exists (s + 1); rewrite ci_ok by lia; split; [reflexivity|lia]|exists s; split; [reflexivity|lia]]. }
  destruct S1 as (s1 & -> & Hs1). cbn [obind]. ck.
  destruct (sf * 2 - d <? s1 * 2 - (i + 1)); apply IHk; lia.
Qed.

Lemma backward_loop_spec : forall k scan pos ls s sb b i,
  0 <= ls -> 0 <= pos <= zlen from -> scan <= zlen to -> 1 <= i -> 0 <= s <= i - 1 -> 0 <= sb <= b -> b <= i - 1 ->
  ls + (i - 1) <= scan -> i - 1 <= pos -> scan - ls - i < Z.of_nat k ->
  exists r, backward_loop k from to scan pos ls s sb b i = Ret r /\ 0 <= r /\ ls + r <= scan /\ r <= pos.
Proof.
  nn. induction k; intros scan pos ls s sb b i H1 H2 H3 H4 H5 H6 H7 H8 H9 Hk; cbn [backward_loop]; ck;
    (destruct (Z.leb_spec (ls + i) scan); cbn [andb]; [|exists b; split; [reflexivity|lia]]); [lia|].
  destruct (Z.leb_spec i pos); [|exists b; split; [reflexivity|lia]].
  destruct (rd_ok from (pos - i)) as (x & X & _); [lia|]. destruct (rd_ok to (scan - i)) as (y & Y & _); [lia|]. rewrite X, Y. cbn [obind].
  assert (S1 : exists s1, (if x =? y then ci (s + 1) else Ret s) = Ret s1 /\ 0 <= s1 <= i).
  { destruct (x =? y); [exists (s + 1); rewrite ci_ok by lia; split; [reflexivity|lia]|exists s; split; [reflexivity|lia]]. }
  destruct S1 as (s1 & -> & Hs1). cbn [obind]. ck.
  destruct (sb * 2 - b <? s1 * 2 - i); apply IHk; lia.
Qed.

Lemma overlap_loop_spec : forall k p1 q1 p2 q2 s ss lens i,
  0 <= p1 -> 0 <= q1 -> 0 <= p2 -> 0 <= q2 -> 0 <= i -> - i <= s <= i -> 0 <= lens <= i ->
  p1 + i + Z.of_nat k <= zlen to -> q1 + i + Z.of_nat k <= zlen from -> p2 + i + Z.of_nat k <= zlen to -> q2 + i + Z.of_nat k <= zlen from ->
  exists r, overlap_loop k from to p1 q1 p2 q2 s ss lens i = Ret r /\ 0 <= r <= i + Z.of_nat k.
Proof.
  nn. induction k; intros p1 q1 p2 q2 s ss lens i H1 H2 H3 H4 H5 H6 H7 B1 B2 B3 B4; cbn [overlap_loop].
  - exists lens. split; [reflexivity|lia].
  - destruct (rd_ok to (p1 + i)) as (x & X & _); [lia|]. destruct (rd_ok from (q1 + i)) as (y & Y & _); [lia|].
    destruct (rd_ok to (p2 + i)) as (x2 & X2 & _); [lia|]. destruct (rd_ok from (q2 + i)) as (y2 & Y2 & _); [lia|].
    rewrite X, Y. cbn [obind].
    assert (S1 : exists s1, (if x =? y then ci (s + 1) else Ret s) = Ret s1 /\ s <= s1 <= s + 1).
    { destruct (x =? y); [exists (s + 1); rewrite ci_ok by lia; split; [reflexivity|lia]|exists s; split; [reflexivity|lia]]. }
    destruct S1 as (s1 & -> & Hs1). cbn [obind]. rewrite X2, Y2. cbn [obind].
    assert (S2 : exists s2, (if x2 =? y2 then ci (s1 - 1) else Ret s1) = Ret s2 /\ s1 - 1 <= s2 <= s1).
    { destruct (x2 =? y2); [exists (s1 - 1); rewrite ci_ok by lia; split; [reflexivity|lia]|exists s1; split; [reflexivity|lia]]. }
    destruct S2 as (s2 & -> & Hs2). cbn [obind].
    destruct (ss <? s2).
    + destruct (IHk p1 q1 p2 q2 s2 s2 (i + 1) (i + 1)) as (r & E & R); [lia..|]. exists r. split; [exact E|lia].
    + destruct (IHk p1 q1 p2 q2 s2 ss lens (i + 1)) as (r & E & R); [lia..|]. exists r. split; [exact E|lia].
Qed.

Lemma diff_loop_spec : forall k ls lp i, 0 <= ls -> 0 <= lp -> 0 <= i -> ls + i + Z.of_nat k <= zlen to -> lp + i + Z.of_nat k <= zlen from ->
  exists l, diff_loop k from to ls lp i = Ret l /\ length l = k /\ bytes_ok l /\
    add_mod l (ztake (Z.of_nat k) (zdrop (lp + i) from)) = ztake (Z.of_nat k) (zdrop (ls + i) to).
Proof.
  nn. induction k; intros ls lp i H1 H2 H3 B1 B2; cbn [diff_loop].
  - exists []. split; [reflexivity|]. split; [reflexivity|]. split; [constructor|reflexivity].
  - ck. destruct (znth_range_some to (ls + i)) as (y & Y); [lia|]. destruct (znth_range_some from (lp + i)) as (x & X); [lia|].
    rewrite (rd_some _ _ _ X), (rd_some _ _ _ Y). cbn [obind].
    destruct (IHk ls lp (i + 1)) as (l & A & B & C & D); [lia..|]. rewrite A. cbn [obind]. eexists. split; [reflexivity|].
    split; [cbn [length]; congruence|]. split; [constructor; [unfold byte_ok; lia|auto]|].
    rewrite (zdrop_znth_cons _ _ _ X), (zdrop_znth_cons _ _ _ Y). rewrite !ztake_cons by lia.
    replace (Z.of_nat (S k) - 1) with (Z.of_nat k) by lia. cbn [add_mod]. rewrite !Z.add_assoc in D. rewrite D. f_equal.
    assert (byte_ok y) by (eapply Forall_znth; [exact Hto|exact Y]). unfold byte_ok in *. lia.
Qed.

Lemma extra_loop_spec : forall k ep i, 0 <= ep -> 0 <= i -> ep + i + Z.of_nat k <= zlen to ->
  extra_loop k to ep i = Ret (ztake (Z.of_nat k) (zdrop (ep + i) to)).
Proof.
  nn. induction k; intros ep i H1 H2 B; cbn [extra_loop]; [reflexivity|].
  ck. destruct (znth_range_some to (ep + i)) as (y & Y); [lia|]. rewrite (rd_some _ _ _ Y). cbn [obind].
  rewrite IHk by lia. cbn [obind]. rewrite (zdrop_znth_cons _ _ _ Y). rewrite ztake_cons by lia.
  replace (Z.of_nat (S k) - 1) with (Z.of_nat k) by lia. rewrite Z.add_assoc. reflexivity.
Qed.

Lemma append_buffer_ok : forall room data size, zlen data = size -> size <= room -> size < 9223372036854775808 ->
  append_buffer room data size = Ret (Some [enc_size size; data]).
Proof.
  intros room data size H1 H2 H3. unfold append_buffer. pose proof (zlen_nonneg data). destruct (Z.ltb_spec room (zlen data)); [lia|].
  rewrite pack_size_enc by (change (2 ^ 63) with 9223372036854775808; lia). cbn [obind]. destruct (Z.ltb_spec size 0); [lia|reflexivity].
Qed.

(** The chunks of one record. *)
Definition rec_chunks (r : prec) : list (list Z) :=
  [enc_size (zlen (r_diff r)); r_diff r; enc_size (zlen (r_extra r)); r_extra r; enc_size (r_adj r)].

Lemma concat_rec_chunks : forall r, concat (rec_chunks r) = enc_rec r.
Proof. intros. unfold rec_chunks, enc_rec. cbn [concat]. rewrite app_nil_r. reflexivity. Qed.

Definition rec_fits (r : prec) : Prop :=
  bytes_ok (r_diff r) /\ bytes_ok (r_extra r) /\ - zlen from <= r_adj r <= zlen from.

Definition winv (w : wstate) : Prop := 0 <= last_scan w <= zlen to /\ 0 <= last_pos w <= zlen from.

Lemma write_record_spec : forall scan pos w, winv w -> last_scan w <= scan <= zlen to -> 0 <= pos <= zlen from ->
  exists r w1, write_record (zlen to + 1) from to scan pos w = Ret (Some (rec_chunks r, w1)) /\ rec_fits r /\
    winv w1 /\ last_scan w <= last_scan w1 <= scan /\ (scan = zlen to -> last_scan w1 = scan) /\ last_offset w1 = pos - scan /\
    last_pos w + zlen (r_diff r) <= zlen from /\
    last_pos w1 = last_pos w + zlen (r_diff r) + r_adj r /\
    rec_size r = last_scan w1 - last_scan w /\
    add_mod (r_diff r) (ztake (zlen (r_diff r)) (zdrop (last_pos w) from)) ++ r_extra r =
      ztake (rec_size r) (zdrop (last_scan w) to).
Proof.
  nn. intros scan pos [ls lp lo] (W1 & W2) Hs Hp. cbn [last_scan last_pos last_offset] in *. unfold write_record. cbn [last_scan last_pos last_offset]. cbv zeta.
  destruct (forward_loop_spec (S (length to)) scan ls lp 0 0 0 0) as (d0 & -> & D1 & D2 & D3); [unfold zlen in *; lia..|]. cbn [obind].
  assert (B : exists b0, (if scan <? zlen to then backward_loop (S (length to)) from to scan pos ls 0 0 0 1 else Ret 0) = Ret b0 /\
    0 <= b0 /\ ls + b0 <= scan /\ b0 <= pos /\ (scan = zlen to -> b0 = 0)).
  { destruct (Z.ltb_spec scan (zlen to)).
    - destruct (backward_loop_spec (S (length to)) scan pos ls 0 0 0 1) as (b0 & -> & B1 & B2 & B3); [unfold zlen in *; lia..|]. exists b0. split; [reflexivity|lia].
    - exists 0. split; [reflexivity|lia]. }
  destruct B as (b0 & -> & B1 & B2 & B3 & B4). cbn [obind]. ck.
  assert (O : exists d b, trim_overlap from to scan pos lp d0 b0 (ls + d0) (ls + d0 - (scan - b0)) = Ret (d, b) /\ 0 <= d /\ 0 <= b <= pos /\ ls + d <= scan - b /\ lp + d <= zlen from /\ (scan = zlen to -> b = 0)).
  { unfold trim_overlap. destruct (Z.ltb_spec 0 (ls + d0 - (scan - b0))).
    - ck. destruct (overlap_loop_spec (Z.to_nat (ls + d0 - (scan - b0))) (ls + d0 - (ls + d0 - (scan - b0))) (lp + d0 - (ls + d0 - (scan - b0)))
        (scan - b0) (pos - b0) 0 0 0 0) as (lens & E & L); [lia..|]. rewrite E. cbn [obind]. ck. eexists _, _. split; [reflexivity|]. lia.
    - exists d0, b0. split; [reflexivity|]. lia. }
  destruct O as (d & b & E & O1 & O2 & O3 & O4 & O5). rewrite E. cbn [obind]. clear E.
  destruct (diff_loop_spec (Z.to_nat d) ls lp 0) as (diff & E & L & Bd & A); [lia..|]. rewrite E. cbn [obind].
  assert (Ld : zlen diff = d) by (unfold zlen; lia).
  rewrite append_buffer_ok by lia. cbn [obind]. ck. rewrite extra_loop_spec by lia. cbn [obind].
  set (extra := ztake (Z.of_nat (Z.to_nat (scan - b - (ls + d)))) (zdrop (ls + d + 0) to)).
  assert (Le : zlen extra = scan - b - (ls + d)).
  { unfold extra. rewrite zlen_ztake, zlen_zdrop by lia. lia. }
  rewrite append_buffer_ok by lia. cbn [obind]. ck. rewrite pack_size_enc by (change (2 ^ 63) with 9223372036854775808; lia). cbn [obind]. ck.
  exists (mkrec diff extra (pos - b - (lp + d))). eexists. split.
  { unfold rec_chunks. cbn [r_diff r_extra r_adj app]. rewrite Ld, Le. reflexivity. }
  unfold rec_fits, winv, rec_size. cbn [r_diff r_extra r_adj last_scan last_pos last_offset]. rewrite Ld, Le.
  split. { split; [exact Bd|]. split; [apply Forall_ztake, Forall_zdrop; exact Hto|lia]. }
  split; [lia|]. split; [lia|]. split; [lia|]. split; [reflexivity|]. split; [lia|]. split; [lia|]. split; [lia|].
  rewrite Z.add_0_r in A. rewrite Z2Nat.id in A by lia. rewrite Z.add_0_r in A. rewrite A. unfold extra. rewrite Z2Nat.id by lia. rewrite Z.add_0_r.
  rewrite ztake_add by lia. f_equal. rewrite zdrop_zdrop by lia. f_equal. f_equal. lia.
Qed.

Lemma old_match_ok : forall off a, 0 <= a < zlen to -> 0 <= a + off <= 2147483647 -> exists m, old_match from to off a = Ret m.
Proof.
  nn. intros off a Ha Ho. unfold old_match. ck. destruct (Z.ltb_spec (a + off) (zlen from)); [|eauto].
  destruct (rd_ok from (a + off)) as (x & X & _); [lia|]. destruct (rd_ok to a) as (y & Y & _); [lia|]. rewrite X, Y. cbn [obind]. eauto.
Qed.

Lemma score_loop_spec : forall k off limit scsc score, 0 <= scsc -> limit <= zlen to -> 0 <= scsc + off -> off <= zlen from ->
  - 1073741824 <= score -> score + (zlen to - scsc) <= 1073741824 -> scsc <= zlen to -> limit - scsc <= Z.of_nat k ->
  exists scsc1 score1, score_loop k from to off limit scsc score = Ret (scsc1, score1) /\
    scsc1 = Z.max scsc limit /\ score <= score1 <= score + (scsc1 - scsc).
Proof.
  nn. induction k; intros off limit scsc score H1 H2 H3 H4 H5 H6 H7 Hk; cbn [score_loop]; (destruct (Z.ltb_spec scsc limit); [|exists scsc, score; split; [reflexivity|lia]]); [lia|].
  destruct (old_match_ok off scsc) as (m & M); [lia..|]. rewrite M. cbn [obind].
  assert (S1 : exists s1, (if m then ci (score + 1) else Ret score) = Ret s1 /\ score <= s1 <= score + 1).
  { destruct m; [exists (score + 1); rewrite ci_ok by lia; split; [reflexivity|lia]|exists score; split; [reflexivity|lia]]. }
  destruct S1 as (s1 & -> & Hs1). cbn [obind]. ck.
  destruct (IHk off limit (scsc + 1) s1) as (a & b & E & R1 & R2); [lia..|]. exists a, b. split; [exact E|lia].
Qed.

Lemma scan_loop_spec : forall k off scan0 scan len pos scsc score,
  0 <= scan0 <= scan -> scan <= zlen to -> scan0 <= scsc <= zlen to -> 0 <= scan0 + off -> off <= zlen from ->
  - (scan - scan0) <= score <= scsc - scan0 -> zlen to - scan <= Z.of_nat k -> 0 <= pos <= zlen from ->
  exists scan2 len2 pos2 score2, scan_loop k sa from to off scan len pos scsc score = Ret (scan2, len2, pos2, score2) /\
    scan <= scan2 <= zlen to /\ 0 <= pos2 <= zlen from /\
    (scan2 < zlen to -> 0 <= len2 /\ scan2 + len2 <= zlen to /\ (scan2 = scan0 -> 0 < len2)).
Proof.
  nn. induction k; intros off scan0 scan len pos scsc score H1 H2 H3 H4 H5 H6 Hk Hp; cbn [scan_loop]; cbv zeta;
    (destruct (Z.ltb_spec scan (zlen to)); [|exists scan, len, pos, score; split; [reflexivity|lia]]); [lia|].
  rewrite to_int_to, to_int_from. ck.
  destruct (search_spec (length sa) scan 0 (zlen from)) as (len1 & pos1 & S1 & S2 & _ & S3); [lia|lia|lia|destruct Hsa as (L & _); unfold zlen in *; lia|].
  rewrite S1. cbn [obind].
  assert (L1 : 0 <= len1 <= zlen to - scan).
  { subst len1. pose proof (lcp_nonneg (zdrop pos1 from) (zdrop scan to)) as (A & B). rewrite zlen_zdrop in B by lia. lia. }
  ck. destruct (score_loop_spec (S (length to)) off (scan + len1) scsc score) as (scsc1 & score1 & E & R1 & R2); [unfold zlen in *; lia..|].
  rewrite E. cbn [obind].
  assert (Done : (scan = scan0 -> 0 < len1) -> exists scan2 len2 pos2 score2, Ret (scan, len1, pos1, score1) = Ret (scan2, len2, pos2, score2) /\
    scan <= scan2 <= zlen to /\ 0 <= pos2 <= zlen from /\
    (scan2 < zlen to -> 0 <= len2 /\ scan2 + len2 <= zlen to /\ (scan2 = scan0 -> 0 < len2))).
  { intros D. exists scan, len1, pos1, score1. split; [reflexivity|]. lia. }
  destruct (Z.eqb_spec len1 score1), (Z.eqb_spec len1 0); cbn [andb negb]; try (apply Done; lia);
    ck; destruct (Z.ltb_spec (score1 + 8) len1); try (apply Done; lia);
    destruct (old_match_ok off scan) as (m & M); try lia; rewrite M; cbn [obind];
    (assert (S4 : exists s1, (if m then ci (score1 - 1) else Ret score1) = Ret s1 /\ score1 - 1 <= s1 <= score1);
      [destruct m; [exists (score1 - 1); rewrite ci_ok by lia; split; [reflexivity|lia]|exists score1; split; [reflexivity|lia]]|]);
    destruct S4 as (s1 & -> & Hs1); cbn [obind]; ck;
    (destruct (IHk off scan0 (scan + 1) len1 pos1 scsc1 s1) as (a & b & c & d & G1 & G2 & G3 & G4); [lia..|];
     exists a, b, c, d; split; [exact G1|]; split; [lia|]; split; [lia|]; intros G5; destruct (G4 G5) as (G6 & G7 & G8); lia).
Qed.

Lemma create_loop_spec : forall fuel scan len pos w acc,
  0 <= scan < zlen to -> 0 <= len -> scan + len <= zlen to -> 0 <= pos <= zlen from ->
  winv w -> last_scan w <= scan -> 0 <= scan + last_offset w -> last_offset w <= zlen from ->
  2 * (zlen to - scan) - (if 0 <? len then 1 else 0) <= Z.of_nat fuel ->
  exists recs, create_loop fuel (zlen to + 1) sa from to scan len pos w acc = Ret (Some (acc ++ flat_map rec_chunks recs)) /\
    last_nonempty recs /\ Forall rec_fits recs /\ recs_size recs = zlen to - last_scan w /\
    Forall (fun p => 0 <= p <= zlen from) (positions (last_pos w) recs) /\
    apply_recs from (last_pos w) recs = Some (zdrop (last_scan w) to).
Proof.
  nn. induction fuel; intros scan len pos w acc H1 H2 H3 H4 H5 H6 H7 H8 Hf; cbn [create_loop]; destruct (Z.ltb_spec scan (zlen to)); try lia.
  { destruct (0 <? len); lia. }
  ck. destruct (scan_loop_spec (length to) (last_offset w) (scan + len) (scan + len) len pos (scan + len) 0)
    as (scan2 & len2 & pos2 & score & E & R1 & R2 & R3); [unfold zlen in *; lia..|]. rewrite E. cbn [obind].
  assert (Go : forall w1 acc1, scan2 < zlen to -> winv w1 -> last_scan w1 <= scan2 -> 0 <= scan2 + last_offset w1 -> last_offset w1 <= zlen from ->
    exists recs, create_loop fuel (zlen to + 1) sa from to scan2 len2 pos2 w1 acc1 = Ret (Some (acc1 ++ flat_map rec_chunks recs)) /\
    last_nonempty recs /\ Forall rec_fits recs /\ recs_size recs = zlen to - last_scan w1 /\
    Forall (fun p => 0 <= p <= zlen from) (positions (last_pos w1) recs) /\
    apply_recs from (last_pos w1) recs = Some (zdrop (last_scan w1) to)).
  { intros w1 acc1 L1 L2 L3 L4 L5. destruct (R3 L1) as (R4 & R5 & R6). apply IHfuel; try lia; [exact L2|].
    destruct (Z.ltb_spec 0 len2), (Z.ltb_spec 0 len); lia. }
  destruct (Z.eqb_spec scan2 (zlen to)) as [Heq|Hne].
  - rewrite orb_true_r. destruct (write_record_spec scan2 pos2 w) as (r & w1 & W & F & I & S1 & S2 & S3 & S4 & S5 & S6 & S7); [auto|lia|lia|]. rewrite W. cbn [obind].
    exists [r]. cbn [flat_map]. rewrite app_nil_r.
    assert (Cl : create_loop fuel (zlen to + 1) sa from to scan2 len2 pos2 w1 (acc ++ rec_chunks r) = Ret (Some (acc ++ rec_chunks r))).
    { destruct fuel; cbn [create_loop]; destruct (Z.ltb_spec scan2 (zlen to)); try lia; reflexivity. }
    rewrite Cl. split; [reflexivity|]. specialize (S2 Heq).
    split; [exists [], r; split; [reflexivity|lia]|]. split; [constructor; auto|]. cbn [recs_size fold_right]. split; [lia|].
    destruct I as (I1 & I2). cbn [positions]. split; [pose proof (zlen_nonneg (r_diff r)); destruct H5; repeat constructor; lia|].
    cbn [apply_recs]. unfold slice. destruct H5 as (H5 & H5').
    assert (Sl : (if zlen (r_diff r) =? 0 then Some [] else if (0 <=? last_pos w) && (last_pos w + zlen (r_diff r) <=? zlen from) then Some (ztake (zlen (r_diff r)) (zdrop (last_pos w) from)) else None) = Some (ztake (zlen (r_diff r)) (zdrop (last_pos w) from))).
    { destruct (Z.eqb_spec (zlen (r_diff r)) 0) as [->|]; [reflexivity|]. destruct (Z.leb_spec 0 (last_pos w)); [|lia].
      destruct (Z.leb_spec (last_pos w + zlen (r_diff r)) (zlen from)); [reflexivity|lia]. }
    rewrite Sl. destruct (Z.ltb_spec (last_pos w + zlen (r_diff r) + r_adj r) 0); [lia|]. rewrite app_nil_r. rewrite S7. f_equal. apply ztake_all. rewrite zlen_zdrop by lia. lia.
  - rewrite orb_false_r. destruct (len2 =? score); cbn [negb].
    + apply Go; auto; lia.
    + destruct (write_record_spec scan2 pos2 w) as (r & w1 & W & F & I & S1 & S2 & S3 & S4 & S5 & S6 & S7); [auto|lia|lia|]. rewrite W. cbn [obind].
      destruct (Go w1 (acc ++ rec_chunks r)) as (recs & G1 & (rs & rl & G2 & G2') & G3 & G4 & G5 & G6); [lia|auto|lia|lia|lia|].
      exists (r :: recs). rewrite G1. cbn [flat_map]. rewrite <- app_assoc. split; [reflexivity|].
      split; [exists (r :: rs), rl; split; [rewrite G2; reflexivity|auto]|]. split; [constructor; auto|].
      cbn [recs_size fold_right]. fold (recs_size recs). split; [lia|]. destruct I as (I1 & I2). destruct H5 as (H5 & H5'). pose proof (zlen_nonneg (r_diff r)).
      cbn [positions]. rewrite <- S5. split; [constructor; [lia|]; constructor; [lia|auto]|].
      cbn [apply_recs]. unfold slice.
      assert (Sl : (if zlen (r_diff r) =? 0 then Some [] else if (0 <=? last_pos w) && (last_pos w + zlen (r_diff r) <=? zlen from) then Some (ztake (zlen (r_diff r)) (zdrop (last_pos w) from)) else None) = Some (ztake (zlen (r_diff r)) (zdrop (last_pos w) from))).
      { destruct (Z.eqb_spec (zlen (r_diff r)) 0) as [->|]; [reflexivity|]. destruct (Z.leb_spec 0 (last_pos w)); [|lia].
        destruct (Z.leb_spec (last_pos w + zlen (r_diff r)) (zlen from)); [reflexivity|lia]. }
      rewrite Sl. rewrite <- S5. destruct (Z.ltb_spec (last_pos w1) 0); [lia|]. rewrite G6. f_equal. rewrite app_assoc, S7, S6.
      replace (zdrop (last_scan w1) to) with (zdrop (last_scan w1 - last_scan w) (zdrop (last_scan w) to)).
      * apply ztake_zdrop.
      * rewrite zdrop_zdrop by lia. f_equal. lia.
Qed.

Lemma create_patch_spec : to <> [] ->
  exists recs, create_patch sa from to = Ret (Some (flat_map rec_chunks recs)) /\
    last_nonempty recs /\ Forall rec_fits recs /\ recs_size recs = zlen to /\
    Forall (fun p => 0 <= p <= zlen from) (positions 0 recs) /\ apply_recs from 0 recs = Some to.
Proof.
  nn. intros Hne. assert (0 < zlen to). { destruct to; [congruence|]. rewrite zlen_cons in *. pose proof (zlen_nonneg l). lia. }
  unfold create_patch. destruct (create_loop_spec (2 * length to + 1) 0 0 0 (mkws 0 0 0) []) as (recs & A & B & C & D & E & F);
    unfold winv; cbn [last_scan last_pos last_offset]; try lia.
  - change (0 <? 0) with false. cbv iota. unfold zlen. lia.
  - exists recs. cbn [last_scan last_pos last_offset] in *. rewrite zdrop_0 in F. rewrite Z.sub_0_r in D. auto 10.
Qed.

Lemma create_patch_empty : to = [] -> create_patch sa from to = Ret (Some []).
Proof. intros ->. reflexivity. Qed.

End Create.
