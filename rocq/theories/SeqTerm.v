(** Termination of the sequential applier for arbitrary input and callbacks. *)

From Coq Require Import ZArith List Bool Lia ZifyBool ZifyNat ZifyN.
From Verif Require Import Prelude Lib Heatshrink HsProofs CReader ReaderProofs SizeProofs CSeq Spec SeqSim SeqRun.
Import ListNotations.
Open Scope Z_scope.

Ltac Zify.zify_post_hook ::= Z.to_euclidean_division_equations.

(** ** CRLE *)

Definition ccost (s : crle_st) : Z :=
  match s with CScatData k | CRepRead k _ => k + 1 | _ => 0 end.

Definition cm (s : crle_st) (left : list Z) : Z := zlen left * 2 ^ 30 + ccost s.

Lemma cm_nonneg : forall s l, cok s -> 0 <= cm s l.
Proof.
  intros s l H. unfold cm. pose proof (zlen_nonneg l). destruct s; cbn [cok ccost] in *; lia.
Qed.

Lemma suffix_len : forall (used l1 left : list Z), left = used ++ l1 -> zlen l1 <= zlen left.
Proof. intros used l1 left ->. rewrite zlen_app. pose proof (zlen_nonneg used). lia. Qed.

Lemma usize_consumes : forall left u v u1 l1, unpack_usize_loop left u = Ret (0, v, u1, l1) ->
  zlen l1 + 1 <= zlen left.
Proof.
  induction left; intros u v u1 l1 E; cbn [unpack_usize_loop] in E; [discriminate|].
  rewrite zlen_cons. destruct (is_overflow _); [discriminate|].
  apply obind_ret in E. destruct E as (x & A & E). destruct (Z.land a 128 =? 0).
  - inv E. lia.
  - apply IHleft in E. lia.
Qed.

Lemma crle_step_term : forall s left n, cok s -> bytes_ok left -> 0 <= n ->
  exists res out s1 l1, crle_step s left n = Ret (res, out, s1, l1) /\
    cok s1 /\ bytes_ok l1 /\ res <= 2 /\ zlen out <= n /\ (res = 1 -> l1 = []) /\
    cm s1 l1 <= cm s left /\ (res = 2 -> (rank s1 < rank s)%nat) /\
    (res = 0 -> 1 <= n -> cm s1 l1 < cm s left).
Proof.
  intros s left n Hs Hb Hn. destruct s; cbn [crle_step cok] in *.
  - destruct left as [|k l].
    { do 4 eexists. split; [reflexivity|]. repeat (split; [cbn; auto; lia|]). lia. }
    inv Hb. unfold cm. rewrite !zlen_cons.
    destruct (k =? 0); [|destruct (k =? 1)]; do 4 eexists; (split; [reflexivity|]); cbn [cok ccost rank uok usize_init u_cons];
      unfold E_CORRUPT_PATCH_CRLE_KIND; repeat (split; [auto; try discriminate; try lia|]); try discriminate; try lia;
      change (zlen (@nil Z)) with 0; lia.
  - destruct (usize_total left u Hs) as (res & v & u1 & l1 & E & A & (used & B) & C). rewrite E. cbn [obind].
    pose proof (suffix_len _ _ _ B). assert (Hl1 : bytes_ok l1) by (subst left; apply Forall_app in Hb; tauto).
    unfold cm. destruct (Z.eqb_spec res 0).
    + subst res. apply usize_consumes in E. do 4 eexists. split; [reflexivity|]. cbn [cok ccost rank].
      assert (0 <= v < 2 ^ 28) by (destruct C as [(X & _)|([(_ & X)|X] & _)]; [lia|auto|discriminate]).
      change (zlen (@nil Z)) with 0. repeat (split; [auto; try discriminate; try lia|]). discriminate.
    + assert (res = 1 /\ l1 = [] \/ res = - E_CORRUPT_PATCH_OVERFLOW).
      { destruct C as [(X & Y & _)|([(X & _)|X] & _)]; auto. lia. }
      do 4 eexists. split; [reflexivity|]. cbn [cok ccost rank]. change (zlen (@nil Z)) with 0.
      unfold E_CORRUPT_PATCH_OVERFLOW in *.
      split; [auto|]. split; [auto|]. split; [lia|]. split; [lia|].
      split; [destruct H0 as [[_ X]|X]; [auto|intros; lia]|]. repeat (split; [lia|]). lia.
  - destruct left as [|b l].
    { do 4 eexists. split; [reflexivity|]. change (zlen (@nil Z)) with 0. repeat (split; [cbn; auto; lia|]). lia. }
    do 4 eexists. split; [reflexivity|]. cbv zeta. set (m := Z.min (Z.min n bytes_left) (zlen (b :: l))).
    pose proof (zlen_nonneg l). assert (Em : m = Z.min (Z.min n bytes_left) (1 + zlen l)) by (unfold m; rewrite zlen_cons; reflexivity).
    clearbody m.
    assert (zlen (zdrop m (b :: l)) = zlen (b :: l) - m) as Hd by (rewrite zlen_zdrop, zlen_cons by lia; lia).
    split; [destruct (Z.eqb_spec (bytes_left - m) 0); cbn; auto; lia|].
    split; [apply Forall_zdrop; auto|]. split; [lia|].
    split; [rewrite zlen_ztake, zlen_cons by lia; lia|]. split; [lia|].
    unfold cm. rewrite Hd.
    split; [destruct (Z.eqb_spec (bytes_left - m) 0); cbn [ccost]; lia|]. split; [lia|].
    intros _ Hn1. destruct (Z.eqb_spec (bytes_left - m) 0); cbn [ccost]; lia.
  - destruct (usize_total left u Hs) as (res & v & u1 & l1 & E & A & (used & B) & C). rewrite E. cbn [obind].
    pose proof (suffix_len _ _ _ B). assert (Hl1 : bytes_ok l1) by (subst left; apply Forall_app in Hb; tauto).
    unfold cm. destruct (Z.eqb_spec res 0).
    + subst res. apply usize_consumes in E. do 4 eexists. split; [reflexivity|]. cbn [cok ccost rank].
      assert (0 <= v < 2 ^ 28) by (destruct C as [(X & _)|([(_ & X)|X] & _)]; [lia|auto|discriminate]).
      change (zlen (@nil Z)) with 0. repeat (split; [auto; try discriminate; try lia|]). discriminate.
    + assert (res = 1 /\ l1 = [] \/ res = - E_CORRUPT_PATCH_OVERFLOW).
      { destruct C as [(X & Y & _)|([(X & _)|X] & _)]; auto. lia. }
      do 4 eexists. split; [reflexivity|]. cbn [cok ccost rank]. change (zlen (@nil Z)) with 0.
      unfold E_CORRUPT_PATCH_OVERFLOW in *.
      split; [auto|]. split; [auto|]. split; [lia|]. split; [lia|].
      split; [destruct H0 as [[_ X]|X]; [auto|intros; lia]|]. repeat (split; [lia|]). lia.
  - destruct left as [|b l].
    { do 4 eexists. split; [reflexivity|]. change (zlen (@nil Z)) with 0. repeat (split; [cbn; auto; lia|]). lia. }
    inv Hb. do 4 eexists. split; [reflexivity|]. unfold cm. rewrite zlen_cons. cbn [cok ccost rank].
    change (zlen (@nil Z)) with 0. repeat (split; [auto; try discriminate; try lia|]). discriminate.
  - destruct Hs as [Hs Hv]. do 4 eexists. split; [reflexivity|]. cbv zeta. set (m := Z.min n bytes_left).
    split; [destruct (Z.eqb_spec (bytes_left - m) 0); cbn; auto; split; [lia|auto]|].
    split; [auto|]. split; [lia|]. split; [rewrite zlen_zrepeat by lia; lia|]. split; [lia|].
    unfold cm.
    split; [destruct (Z.eqb_spec (bytes_left - m) 0); cbn [ccost]; lia|]. split; [lia|].
    intros _ Hn1. destruct (Z.eqb_spec (bytes_left - m) 0); cbn [ccost]; lia.
Qed.

Lemma crle_loop_term : forall k s left n, cok s -> bytes_ok left -> 0 <= n -> (rank s <= k)%nat ->
  exists res out s1 l1, crle_loop k s left n = Ret (res, out, s1, l1) /\
    cok s1 /\ bytes_ok l1 /\ res <= 1 /\ zlen out <= n /\ (res = 1 -> l1 = []) /\
    cm s1 l1 <= cm s left /\ (res = 0 -> 1 <= n -> cm s1 l1 < cm s left).
Proof.
  induction k; intros s left n Hs Hb Hn Hk.
  { destruct s; cbn in Hk; lia. }
  cbn [crle_loop].
  destruct (crle_step_term s left n Hs Hb Hn) as (res & out & s1 & l1 & E & A & B & C & D & F & G & H & I).
  rewrite E. cbn [obind]. destruct (Z.eqb_spec res 2).
  - destruct (IHk s1 l1 n A B Hn ltac:(specialize (H e); lia)) as (res2 & out2 & s2 & l2 & E2 & A2 & B2 & C2 & D2 & F2 & G2 & I2).
    exists res2, out2, s2, l2. split; [auto|]. repeat (split; [auto; lia|]). intros X Y. specialize (I2 X Y). lia.
  - exists res, out, s1, l1. split; [auto|]. repeat (split; [auto; lia|]). auto.
Qed.

(** ** Heatshrink *)

Definition oc (d : hsd) : Z := match h_state d with YIELD_BACKREF => h_output_count d | _ => 0 end.
Definition hm (d : hsd) (i : list Z) : Z := 129 * (zlen (dbits d) + 8 * zlen i) + oc d.

Lemma oc_range : forall d, hinv87 d -> 0 <= oc d <= 128.
Proof.
  intros d (_ & _ & _ & _ & H). unfold oc, state_inv in *. destruct (h_state d); try lia.
Qed.

Lemma hm_nonneg : forall d i, hinv87 d -> 0 <= hm d i.
Proof.
  intros d i H. unfold hm. pose proof (oc_range d H). pose proof (zlen_nonneg (dbits d)).
  pose proof (zlen_nonneg i). lia.
Qed.

Lemma silent_hm : forall d d1 i, hinv87 d -> silent 8 7 d d1 -> hm d1 i <= hm d i.
Proof.
  intros d d1 i H Hs. pose proof (silent_inv 8 7 H8 H7 _ _ H Hs) as H1. destruct Hs as (He & Hs & Hne).
  destruct (starved_dec 8 7 d) as [S|S].
  - rewrite (hs_step_starved 8 7 H8 H7) in Hs by auto. inv Hs. congruence.
  - destruct (hs_step_silent 8 7 H8 H7 0 d [] H He S) as (d' & Hs' & _ & Hb & _ & _ & _ & Hn & _).
    rewrite Hs in Hs'. inv Hs'. unfold hm. rewrite Hb.
    assert (1 <= need 8 7 (h_state d)).
    { destruct H as (_ & _ & _ & _ & Hst). unfold state_inv in Hst. unfold emitting in He.
      destruct (h_state d); cbn; try lia. exfalso; auto. }
    rewrite zlen_zdrop by lia. pose proof (oc_range d' H1).
    assert (0 <= oc d) by (apply oc_range; auto). lia.
Qed.

Lemma emit1_hm : forall d c d1 i, hinv87 d -> emit1 8 7 d c d1 -> hm d1 i < hm d i.
Proof.
  intros d c d1 i H [[E|E] Hs].
  - destruct (starved_dec 8 7 d) as [S|S].
    + rewrite (hs_step_starved 8 7 H8 H7) in Hs by auto. discriminate.
    + destruct (hs_step_literal 8 7 H8 d H E S) as (c' & d' & Hst & Hi & Hc & Hb & Hl & Ht & _).
      rewrite Hst in Hs by reflexivity. inv Hs. unfold hm, oc. rewrite Hb, zlen_zdrop, E, Ht by lia. lia.
  - destruct (hs_step_backref1 8 7 H8 d H E) as (c' & Ec & Hc & Hs' & Hi).
    rewrite Hs' in Hs. inv Hs. unfold hm.
    change (dbits (bdone (bstep 8 d c) (h_output_count d - 1))) with (dbits d).
    unfold oc. rewrite E. destruct H as (_ & _ & _ & _ & Hst). unfold state_inv in Hst. rewrite E in Hst.
    cbn [bdone set_state h_state h_output_count set_output_count].
    destruct (Z.eqb_spec (h_output_count d - 1) 0); lia.
Qed.

Lemma msteps_hm : forall d i o d1 i1, msteps d i o d1 i1 -> hinv87 d -> bytes_ok i ->
  hm d1 i1 + zlen o <= hm d i.
Proof.
  induction 1; intros Hd Hi.
  - change (zlen (@nil Z)) with 0. lia.
  - pose proof (silent_hm d d1 i Hd H). specialize (IHmsteps (silent_inv 8 7 H8 H7 _ _ Hd H) Hi). lia.
  - inv Hi. specialize (IHmsteps (sink_inv _ _ _ Hd H H4 H0) H5).
    destruct (hs_sink_starved 8 7 H8 H7 d b Hd H H4) as (d3 & E2 & _ & Hb & Hr & _).
    rewrite E2 in H0. inv H0. assert (hm d1 i = hm d (b :: i)); [|lia].
    unfold hm, oc. rewrite Hb, zlen_app, zlen_cons. destruct Hr as (R1 & _ & _ & R2 & _).
    rewrite R1, R2. change (zlen (to_bits 8 b)) with 8. destruct (h_state d); lia.
  - pose proof (emit1_hm d c d1 i Hd H). destruct (emit1_inv 8 7 H8 H7 _ _ _ Hd H) as [A _].
    specialize (IHmsteps A Hi). rewrite zlen_cons. lia.
Qed.

Ltac fin := repeat split; auto; try lia; try discriminate; try (intros; exfalso; lia).

Section Term.
Context {WBits : WordBits}.
Hypothesis Hword : 32 <= word_bits.

(** ** Readers *)

Definition rok0 (r : reader) : Prop :=
  match r with
  | RNone _ _ => True
  | RCrle s => cok s
  | RHs h =>
      hr_window h = -1 /\ hr_ptr h = false \/
      hr_window h <> -1 /\ hr_ptr h = true /\ exists d, hr_dec h = Some d /\ hinv87 d
  end.

Definition rm (r : reader) (left : list Z) : Z :=
  match r with
  | RNone _ _ => zlen left
  | RCrle s => cm s left
  | RHs h => match hr_dec h with
             | Some d => if hr_window h =? -1 then 2000 * zlen left else hm d left
             | None => 2000 * zlen left
             end
  end.

Definition is_crle (r : reader) : Prop := match r with RCrle _ => True | _ => False end.

Lemma rm_nonneg : forall r l, rok0 r -> 0 <= rm r l.
Proof.
  intros [ps po|s|h] l H; cbn [rm rok0] in *.
  - apply zlen_nonneg.
  - apply cm_nonneg; auto.
  - pose proof (zlen_nonneg l). destruct H as [[A B]|(A & B & d & C & D)].
    + destruct (hr_dec h); rewrite ?A; change (-1 =? -1) with true; cbv iota; lia.
    + rewrite C. destruct (Z.eqb_spec (hr_window h) (-1)); [lia|]. apply hm_nonneg; auto.
Qed.

Lemma hs_loop_term : forall left d n, hinv87 d -> bytes_ok left -> 1 <= n ->
  exists res out d1 l1, hs_decompress_loop left d n [] = Ret (res, out, d1, l1) /\
    hinv87 d1 /\ bytes_ok l1 /\ res <= 1 /\ zlen out <= n /\ (res = 1 -> l1 = []) /\
    hm d1 l1 <= hm d left /\ (res = 0 -> out <> [] /\ hm d1 l1 < hm d left).
Proof.
  intros left d n Hd Hb Hn.
  destruct (hs_loop_msteps left d n [] Hd Hb ltac:(change (zlen (@nil Z)) with 0; lia))
    as (res & o & d1 & l1 & E & A & B & C).
  exists res, o, d1, l1. split; [auto|]. split; [auto|]. split; [auto|].
  destruct C as [(C1 & C2 & _ & C3 & C4)|(C1 & o1 & C2 & C3 & C4 & C5 & C6)].
  - subst. specialize (C4 []). rewrite app_nil_r in C4. pose proof (msteps_hm _ _ _ _ _ C4 Hd Hb).
    change (zlen (@nil Z)) with 0 in *. repeat (split; [auto; lia|]). discriminate.
  - cbn [app] in C2. subst res o1. specialize (C6 []). rewrite !app_nil_r in C6.
    pose proof (msteps_hm _ _ _ _ _ C6 Hd Hb).
    assert (1 <= zlen o) by (destruct o; [congruence|rewrite zlen_cons; pose proof (zlen_nonneg o); lia]).
    split; [lia|]. split; [auto|]. split; [lia|]. split; [lia|]. intros _. split; [auto|lia].
Qed.

Lemma dec_term : forall r left n, rok0 r -> bytes_ok left -> 0 <= n -> (n = 0 -> is_crle r) ->
  exists res out r1 l1, decompress r left n = Ret (res, out, r1, l1) /\
    (0 <= res -> rok0 r1) /\ bytes_ok l1 /\ res <= 1 /\ zlen out <= n /\ (res = 1 -> l1 = []) /\
    (0 <= res -> rm r1 l1 <= rm r left) /\ (res = 0 -> out = [] -> is_crle r1) /\
    (res = 0 -> 1 <= n -> rm r1 l1 < rm r left).
Proof.
  intros [ps po|s|h] left n Hr Hb Hn Hz; cbn [decompress rok0 rm is_crle] in *.
  - unfold none_decompress. assert (1 <= n) by (destruct (Z.eq_dec n 0) as [X|]; [destruct (Hz X)|lia]).
    destruct (ps <? _).
    { do 4 eexists. split; [reflexivity|]. unfold E_CORRUPT_PATCH. change (zlen (@nil Z)) with 0. fin. }
    destruct left as [|b l].
    { do 4 eexists. split; [reflexivity|]. change (zlen (@nil Z)) with 0. fin. }
    do 4 eexists. split; [reflexivity|]. cbn [rm rok0].
    pose proof (zlen_nonneg l). rewrite zlen_cons. set (m := Z.min n (1 + zlen l)).
    rewrite zlen_zdrop, zlen_ztake, zlen_cons by lia.
    split; [auto|]. split; [apply Forall_zdrop; auto|]. split; [lia|]. split; [lia|]. split; [lia|].
    split; [lia|]. split; [|lia].
    intros _ X. apply (f_equal zlen) in X. rewrite zlen_ztake, zlen_cons in X by lia.
    change (zlen (@nil Z)) with 0 in X. lia.
  - unfold crle_decompress.
    destruct (crle_loop_term 5 s left n Hr Hb Hn ltac:(destruct s; cbn; lia))
      as (res & out & s1 & l1 & E & A & B & C & D & F & G & H). rewrite E. cbn [obind].
    do 4 eexists. split; [reflexivity|]. fin.
  - assert (1 <= n) by (destruct (Z.eq_dec n 0) as [X|]; [destruct (Hz X)|lia]).
    unfold hs_decompress. destruct Hr as [[Hw Hp]|(Hw & Hp & d & Hd & Hi)]; destruct h as [w l p dec]; cbn in Hw, Hp; subst p.
    + subst w. cbn [hr_window hr_ptr hr_dec hr_lookahead Z.eqb Pos.eqb].
      destruct left as [|b left].
      { cbn [obind]. do 4 eexists. split; [reflexivity|]. cbn [rm rok0 hr_window hr_ptr hr_dec].
        split; [auto|]. fin. intros _. destruct dec; change (-1 =? -1) with true; cbv iota; lia. }
      destruct (negb _ || negb _) eqn:Eh.
      { cbn [obind]. inv Hb. do 4 eexists. split; [reflexivity|]. unfold E_HEATSHRINK_HEADER.
        change (zlen (@nil Z)) with 0. fin. }
      inv Hb. cbn [hr_window hr_ptr hr_dec hr_lookahead].
      assert (Ew : Z.land (Z.shiftr b 4) 15 + 4 = 8) by (unfold HS_WINDOW, HS_LOOKAHEAD in Eh; lia).
      rewrite Ew.
      destruct (hs_loop_term left (hs_reset 8) n) as (res & o & d1 & l1 & E & A & B & C & D & F & G & I);
        auto; [apply hs_reset_inv; lia|].
      rewrite E. cbn [obind]. do 4 eexists. split; [reflexivity|]. cbn [rm rok0 hr_window hr_ptr hr_dec is_crle].
      change (8 =? -1) with false. change (-1 =? -1) with true.
      assert (Hm : (match dec with Some _ => 2000 * zlen (b :: left) | None => 2000 * zlen (b :: left) end) = 2000 * (1 + zlen left))
        by (rewrite zlen_cons; destruct dec; reflexivity).
      cbv iota. rewrite Hm.
      assert (hm (hs_reset 8) left = 1032 * zlen left).
      { unfold hm. change (zlen (dbits (hs_reset 8))) with 0. change (oc (hs_reset 8)) with 0. lia. }
      pose proof (zlen_nonneg left).
      split; [intros _; right; split; [lia|]; split; [auto|]; eauto|].
      fin. intros X Y. destruct (I X). congruence.
    + cbn in Hd. subst dec. cbn [hr_window hr_ptr hr_dec hr_lookahead].
      destruct (Z.eqb_spec w (-1)) as [X|_]; [cbn in Hw; lia|].
      destruct (hs_loop_term left d n) as (res & o & d1 & l1 & E & A & B & C & D & F & G & I); auto.
      rewrite E. cbn [obind]. do 4 eexists. split; [reflexivity|]. cbn [rm rok0 hr_window hr_ptr hr_dec is_crle].
      cbn in Hw. destruct (Z.eqb_spec w (-1)) as [X|_]; [lia|].
      split; [intros _; right; eauto|]. fin;
      intros X Y; destruct (I X); congruence.
Qed.

(** ** Size fields *)

Lemma unpack_size_term : forall K z r left byte n, rok0 r -> bytes_ok left -> zok z ->
  (zneed z <= K)%nat -> n = 1 \/ n = 0 /\ is_crle r ->
  unpack_size_loop K z r left byte n = Undef \/
  exists res v z1 r1 l1, unpack_size_loop K z r left byte n = Ret (res, v, z1, r1, l1) /\
    res <= 1 /\ (res = 1 -> l1 = []) /\ bytes_ok l1 /\ zok z1 /\
    (0 <= res -> rok0 r1 /\ rm r1 l1 <= rm r left /\ (res = 0 -> n = 1 -> rm r1 l1 < rm r left)).
Proof.
  induction K; intros z r left byte n Hr Hb Hz HK Hn.
  { unfold zneed in HK; destruct (z_cons z); lia. }
  cbn [unpack_size_loop].
  destruct (dec_term r left n Hr Hb ltac:(lia) ltac:(intros; destruct Hn as [|[]]; [lia|auto]))
    as (res & out & r1 & l1 & E & A & B & C & D & F & G & H & I).
  rewrite E. cbn [obind]. destruct (Z.eqb_spec res 0); cbn [negb].
  2:{ right. exists res, 0, z, r1, l1. split; [auto|]. split; [auto|]. split; [auto|]. split; [auto|]. split; [auto|].
      intros X. split; [auto|]. split; [auto|]. lia. }
  subst res. cbv zeta.
  set (byte1 := match out with [] => byte | b :: _ => Some b end).
  destruct byte1 as [b|]; [|left; reflexivity].
  destruct (size_byte_spec z b Hz) as [(_ & _ & S)|(z1 & S & Ec & Hz1 & Hnd & _)]; rewrite S; cbn [obind].
  { right. do 5 eexists. split; [reflexivity|]. unfold E_CORRUPT_PATCH_OVERFLOW.
    split; [lia|]. split; [lia|]. split; [auto|]. split; [auto|]. intros; lia. }
  destruct (Z.land b 128 =? 0).
  { right. do 5 eexists. split; [reflexivity|]. split; [lia|]. split; [lia|]. split; [auto|]. split; [discriminate|].
    intros _. split; [apply A; lia|]. split; [apply G; lia|]. intros _ ->. apply I; auto; lia. }
  destruct (IHK z1 r1 l1 (Some b) (zlen out)) as [U|(res & v & z2 & r2 & l2 & U & V & V1 & V2 & V3 & V4)];
    [apply A; lia|auto|auto|lia| | |].
  { destruct out as [|x out]; [right; split; [reflexivity|auto]|].
    rewrite zlen_cons in D. pose proof (zlen_nonneg out). left. rewrite zlen_cons. lia. }
  { left; auto. }
  right. exists res, v, z2, r2, l2. split; [auto|]. split; [auto|]. split; [auto|]. split; [auto|]. split; [auto|].
  intros X. destruct (V4 X) as (W1 & W2 & W3). split; [auto|].
  specialize (G ltac:(lia)). split; [lia|]. intros _ ->. specialize (I eq_refl ltac:(lia)). lia.
Qed.

(** ** One call *)

Context {W : Type} (E : seq_env W).

Definition tinv (s : ap) : Prop :=
  bytes_ok (a_left s) /\
  match a_state s with
  | SInit => a_to_init s = true -> zok (a_size s)
  | SDone | SFailed => True
  | _ => zok (a_rsize s) /\ exists r, a_reader s = Some r /\ rok0 r
  end /\
  (match a_state s with SDiffData | SExtraData => 0 <= a_chunk_size s | _ => True end).

Definition rms (s : ap) : Z := match a_reader s with Some r => rm r (a_left s) | None => 0 end.

Definition tmeas (s : ap) : Z :=
  match a_state s with
  | SInit => zlen (a_left s) * 2 ^ 40 + 1
  | SDone | SFailed => 0
  | SDiffData | SExtraData => 2 * rms s + 1
  | _ => 2 * rms s
  end.

Lemma tmeas_nonneg : forall s, tinv s -> 0 <= tmeas s.
Proof.
  intros s (A & B & C). unfold tmeas, rms. pose proof (zlen_nonneg (a_left s)).
  destruct (a_state s); try lia; destruct B as (_ & r & Hr & Hk); rewrite Hr; pose proof (rm_nonneg r (a_left s) Hk); lia.
Qed.

Definition once_ok (s : ap) (out : outcome (Z * ap * W)) : Prop :=
  out = Undef \/
  exists res s1 w1, out = Ret (res, s1, w1) /\ tinv s1 /\ res <= 1 /\
    (res = 1 -> a_left s1 = []) /\ (res = 0 -> tmeas s1 < tmeas s).

Definition init_ok (s : ap) (out : outcome (Z * ap)) : Prop :=
  out = Undef \/
  exists res s1, out = Ret (res, s1) /\ bytes_ok (a_left s1) /\ (0 <= res -> tinv s1) /\ res <= 1 /\
    (res = 1 -> a_left s1 = []) /\ (res = 0 -> tmeas s1 < tmeas s).

Lemma tinv_failed : forall s, bytes_ok (a_left s) -> tinv (set_st s SFailed).
Proof. intros s H. split; [auto|]. cbn. auto. Qed.

Lemma size_term : forall s r, a_reader s = Some r -> rok0 r -> zok (a_rsize s) -> bytes_ok (a_left s) ->
  unpack_size (a_rsize s) r (a_left s) = Undef \/
  exists res v z1 r1 l1, unpack_size (a_rsize s) r (a_left s) = Ret (res, v, z1, r1, l1) /\
    res <= 1 /\ (res = 1 -> l1 = []) /\ bytes_ok l1 /\ zok z1 /\
    (0 <= res -> rok0 r1 /\ rm r1 l1 <= rm r (a_left s) /\ (res = 0 -> rm r1 l1 < rm r (a_left s))).
Proof.
  intros s r Hr Hk Hz Hb. unfold unpack_size. pose proof (zneed_le _ Hz).
  destruct (unpack_size_term 6 (a_rsize s) r (a_left s) None 1 Hk Hb Hz ltac:(lia) ltac:(auto))
    as [U|(res & v & z2 & r2 & l2 & U & V & V1 & V2 & V3 & V4)]; [auto|].
  right. exists res, v, z2, r2, l2. split; [auto|]. split; [auto|]. split; [auto|]. split; [auto|]. split; [auto|]. intros X. destruct (V4 X) as (W1 & W2 & W3). auto.
Qed.

Lemma rm_init_le : forall ps c r l, reader_init ps c = Some r -> rok0 r /\ rm r l <= zlen l * 2 ^ 30.
Proof.
  intros ps c r l H. unfold reader_init in H. pose proof (zlen_nonneg l).
  destruct (c =? 0); [inv H; cbn; split; [auto|lia]|].
  destruct (c =? 2); [inv H; cbn [rok0 cok rm]; unfold cm; cbn [ccost]; split; [auto|lia]|].
  destruct (c =? 4); inv H. cbn [rok0 rm hr_dec hr_window hr_ptr]. split; [left; auto|]. lia.
Qed.

Lemma init_term : forall s, a_state s = SInit -> tinv s -> init_ok s (process_init s).
Proof.
  intros s Es (Hb & Hz & _). rewrite Es in Hz. unfold init_ok, process_init.
  destruct (a_to_init s) eqn:Et.
  - specialize (Hz eq_refl). unfold process_init_to_size.
    destruct (uhs_app (a_left s) (a_size s) [] Hz)
      as [(z1 & P & Q & _)|[(v & z1 & l1 & used & P & Q & R & _)|(z1 & l1 & P & _)]]; rewrite P; cbn [obind];
      cbv zeta.
    + right. do 2 eexists. split; [reflexivity|]. split; [constructor|]. split; [|split; [lia|split; [auto|lia]]].
      intros _. split; [constructor|]. cbn. rewrite Es. auto.
    + assert (Hl1 : bytes_ok l1) by (rewrite R in Hb; apply Forall_app in Hb; tauto).
      assert (Hlt : zlen l1 + 1 <= zlen (a_left s)).
      { rewrite R, zlen_app. destruct used; [|rewrite zlen_cons; pose proof (zlen_nonneg used); lia].
        cbn in R. exfalso. clear -P R. rewrite R in P.
        assert (K : forall left z v z1 l1, unpack_header_size left z = Ret (0, v, z1, l1) -> zlen l1 < zlen left).
        { induction left; intros z' v' z1' l1' E'; [discriminate|]. rewrite uhs_unfold in E'.
          apply obind_ret in E'. destruct E' as (oz & A & B). destruct oz; [|discriminate].
          rewrite zlen_cons. destruct (Z.land a 128 =? 0); [inv B; lia|]. apply IHleft in B. lia. }
        apply K in P. lia. }
      change (negb (0 =? 0)) with false. cbv iota.
      destruct (reader_init _ _) as [r|] eqn:Er.
      2:{ right. do 2 eexists. split; [reflexivity|]. unfold E_BAD_COMPRESSION. split; [exact Hl1|].
          fin. }
      destruct (v <? 0) eqn:Ev; [lia|].
      right. do 2 eexists. split; [reflexivity|]. split; [exact Hl1|].
      destruct (rm_init_le _ _ _ l1 Er) as [K1 K2]. pose proof (zlen_nonneg l1).
      split; [|split; [lia|split; [lia|]]].
      * intros _. split; [exact Hl1|].
        cbn [a_state set_st set_to_size set_reader a_rsize a_reader a_chunk_size].
        destruct (0 <? v); cbn; [|auto]. split; [|auto]. split; [discriminate|eauto].
      * intros _. unfold tmeas, rms. rewrite Es.
        cbn [a_state set_st set_to_size set_reader a_rsize a_reader a_chunk_size a_left set_header].
        destruct (0 <? v); lia.
    + right. do 2 eexists. split; [reflexivity|]. unfold E_CORRUPT_PATCH_OVERFLOW.
      split; [|fin].
      cbn [a_left set_header].
      assert (K : forall left z v z1 l1 e, unpack_header_size left z = Ret (e, v, z1, l1) -> bytes_ok left -> bytes_ok l1).
      { induction left; intros z' v' z1' l1' e' E' B'; [inv E'; auto|]. inv B'. rewrite uhs_unfold in E'.
        apply obind_ret in E'. destruct E' as (oz & A & B). destruct oz; [|inv B; auto].
        destruct (Z.land a 128 =? 0); [inv B; auto|]. eapply IHleft; eauto. }
      eapply K; eauto.
  - unfold process_init_fixed_header. destruct (a_left s) as [|b l] eqn:El.
    { right. do 2 eexists. split; [reflexivity|]. unfold E_SHORT_HEADER. rewrite El.
      split; [constructor|]. fin. }
    inv Hb. destruct (negb _).
    { right. do 2 eexists. split; [reflexivity|]. unfold E_BAD_PATCH_TYPE. split; [cbn; auto|].
      fin. }
    right. do 2 eexists. split; [reflexivity|]. split; [cbn; auto|]. split; [|split; [lia|split; [lia|]]].
    + intros _. split; [cbn; auto|]. cbn. rewrite Es. split; [intros _; discriminate|auto].
    + intros _. unfold tmeas. cbn [a_state set_header a_left]. rewrite Es, El, zlen_cons. lia.
Qed.

Lemma dfpatch_term : forall s, a_state s = SDfpatchSize -> tinv s -> init_ok s (process_dfpatch_size s).
Proof.
  intros s Es (Hb & Hz & _). rewrite Es in Hz. destruct Hz as (Hz & r & Hr & Hk).
  unfold init_ok, process_dfpatch_size. rewrite Hr.
  destruct (size_term s r Hr Hk Hz Hb) as [U|(res & v & z2 & r2 & l2 & U & V & V1 & V2 & V3 & V4)];
    rewrite U; cbn [obind]; [auto|]. cbv zeta.
  destruct (Z.eqb_spec res 0); cbn [negb].
  2:{ right. do 2 eexists. split; [reflexivity|]. split; [exact V2|]. split; [|split; [auto|split; [cbn; auto|lia]]].
      intros X. destruct (V4 X) as (W1 & _). split; [exact V2|]. cbn. rewrite Es. eauto 6. }
  subst res. destruct (V4 ltac:(lia)) as (W1 & W2 & W3). specialize (W3 eq_refl).
  destruct (0 <? v).
  { right. do 2 eexists. split; [reflexivity|]. unfold E_NOT_IMPLEMENTED. split; [exact V2|]. fin. }
  right. do 2 eexists. split; [reflexivity|]. split; [exact V2|]. split; [|split; [lia|split; [lia|]]].
  - intros _. split; [exact V2|]. cbn. eauto 6.
  - intros _. unfold tmeas, rms. cbn [a_state set_st a_reader set_reader a_left]. rewrite Es, Hr. lia.
Qed.

Lemma process_size_term : forall s st next, a_state s = st -> tinv s ->
  (st = SDiffSize /\ next = SDiffData \/ st = SExtraSize /\ next = SExtraData) ->
  init_ok s (process_size s next).
Proof.
  intros s st next Es (Hb & Hz & _) Hst.
  assert (Hz' : zok (a_rsize s) /\ exists r, a_reader s = Some r /\ rok0 r).
  { rewrite Es in Hz. destruct Hst as [[-> _]|[-> _]]; exact Hz. }
  clear Hz. destruct Hz' as (Hz & r & Hr & Hk).
  unfold init_ok, process_size, common_process_size. rewrite Hr.
  destruct (size_term s r Hr Hk Hz Hb) as [U|(res & v & z2 & r2 & l2 & U & V & V1 & V2 & V3 & V4)];
    rewrite U; cbn [obind]; [auto|]. cbv zeta.
  destruct (Z.eqb_spec res 0); cbn [negb].
  2:{ cbn [obind]. assert (negb (res =? 0) = true) as -> by lia.
      right. do 2 eexists. split; [reflexivity|]. split; [exact V2|]. split; [|split; [auto|split; [cbn; auto|lia]]].
      intros X. destruct (V4 X) as (W1 & _). split; [exact V2|]. cbn. rewrite Es.
      destruct Hst as [[-> _]|[-> _]]; eauto 6. }
  subst res. destruct (V4 ltac:(lia)) as (W1 & W2 & W3). specialize (W3 eq_refl).
  destruct (_ <? wrap _); cbn [obind].
  { change (negb (- E_CORRUPT_PATCH =? 0)) with true. cbv iota.
    right. do 2 eexists. split; [reflexivity|]. unfold E_CORRUPT_PATCH. split; [exact V2|]. fin. }
  change (negb (0 =? 0)) with false. cbv iota.
  right. do 2 eexists. split; [reflexivity|]. split; [exact V2|]. split; [|split; [lia|split; [lia|]]].
  - intros _. split; [exact V2|].
    pose proof (wrap_range v Hword). cbn. destruct Hst as [[_ ->]|[_ ->]]; (split; [eauto 6|lia]).
  - intros _. unfold tmeas, rms. cbn [a_state set_st set_chunk_size a_reader set_reader a_left]. rewrite Es, Hr.
    destruct Hst as [[-> ->]|[-> ->]]; lia.
Qed.

Definition data_ok3 (s : ap) (out : outcome (Z * ap * W)) : Prop :=
  out = Undef \/
  exists res s1 w1, out = Ret (res, s1, w1) /\ bytes_ok (a_left s1) /\ (0 <= res -> tinv s1) /\ res <= 1 /\
    (res = 1 -> a_left s1 = []) /\ (res = 0 -> tmeas s1 < tmeas s).

Lemma process_data_term : forall B s w next, 1 <= B -> data_next (a_state s) = Some next -> tinv s ->
  data_ok3 s (process_data E B s w next).
Proof.
  intros B s w next HB Hn (Hb & Hz & Hc).
  assert (Hz' : zok (a_rsize s) /\ exists r, a_reader s = Some r /\ rok0 r).
  { destruct (a_state s); try discriminate Hn; exact Hz. }
  assert (Hc' : 0 <= a_chunk_size s) by (destruct (a_state s); try discriminate Hn; exact Hc).
  clear Hz Hc. destruct Hz' as (Hz & r & Hr & Hk).
  destruct (data_next_cases _ _ Hn) as (Hx & Hnd & Hni).
  assert (Hm : tmeas s = 2 * rm r (a_left s) + 1).
  { unfold tmeas, rms. rewrite Hr. destruct (a_state s); try discriminate Hn; reflexivity. }
  assert (Hti : forall r1 l1 s1, a_state s1 = a_state s -> a_reader s1 = Some r1 -> a_left s1 = l1 ->
    a_rsize s1 = a_rsize s -> 0 <= a_chunk_size s1 -> rok0 r1 -> bytes_ok l1 ->
    tinv s1 /\ tmeas s1 = 2 * rm r1 l1 + 1).
  { intros r1 l1 s1 E1 E2 E3 E4 E5 E6 E7. split.
    - split; [congruence|]. rewrite E1, E4. destruct (a_state s); try discriminate Hn; (split; [eauto|auto]).
    - unfold tmeas, rms. rewrite E1, E2, E3. destruct (a_state s); try discriminate Hn; reflexivity. }
  unfold data_ok3, process_data. cbv zeta.
  destruct (Z.eqb_spec (Z.min B (a_chunk_size s)) 0).
  { right. do 3 eexists. split; [reflexivity|]. split; [exact Hb|]. split; [|split; [lia|split; [lia|]]].
    - intros _. split; [exact Hb|]. cbn. destruct Hx; subst next; eauto 6.
    - intros _. rewrite Hm. unfold tmeas, rms. cbn [a_state set_st a_reader a_left]. rewrite Hr.
      destruct Hx; subst next; lia. }
  rewrite Hr.
  destruct (dec_term r (a_left s) (Z.min B (a_chunk_size s)) Hk Hb ltac:(lia) ltac:(lia))
    as (res & out & r1 & l1 & Ed & A & A1 & C & D & F & G & H & I).
  rewrite Ed. cbn [obind]. destruct (Z.eqb_spec res 0); cbn [negb].
  2:{ right. do 3 eexists. split; [reflexivity|]. split; [exact A1|]. split; [|split; [auto|split; [cbn; auto|lia]]].
      intros X. apply (Hti r1 l1); auto. }
  subst res.
  set (m := zlen out) in *. set (s1 := set_reader s (Some r1) (a_rsize s) l1).
  specialize (I eq_refl ltac:(lia)). specialize (A ltac:(lia)).
  assert (Hdone : forall s2 w2 data, (a_state s2 = a_state s /\ a_reader s2 = Some r1 /\ a_left s2 = l1 /\ a_rsize s2 = a_rsize s) ->
     exists res s1 w1,
      (let s3 := set_chunk_size (set_to_offset s2 (wrap (a_to_offset s2 + m))) (wrap (a_chunk_size s2 - m)) in
       let '(rw, w3) := to_write E w2 data in
       if negb (rw =? 0) then Ret (- E_IO_FAILED, s3, w3) else Ret (0, s3, w3)) = Ret (res, s1, w1) /\
      bytes_ok (a_left s1) /\ (0 <= res -> tinv s1) /\ res <= 1 /\
      (res = 1 -> a_left s1 = []) /\ (res = 0 -> tmeas s1 < tmeas s)).
  { intros s2 w2 data (E1 & E2 & E3 & E4). cbv zeta. destruct (to_write E w2 data) as [rw w3].
    pose proof (wrap_range (a_chunk_size s2 - m) Hword) as Hwr.
    destruct (Hti r1 l1 (set_chunk_size (set_to_offset s2 (wrap (a_to_offset s2 + m))) (wrap (a_chunk_size s2 - m))))
      as [T1 T2]; auto; [cbn; lia|].
    destruct (negb (rw =? 0)).
    - do 3 eexists. split; [reflexivity|]. unfold E_IO_FAILED. split; [rewrite <- E3 in A1; exact A1|].
      fin.
    - do 3 eexists. split; [reflexivity|]. split; [rewrite <- E3 in A1; exact A1|]. split; [auto|]. split; [lia|].
      split; [lia|]. intros _. rewrite T2, Hm. lia. }
  destruct Hx; subst next.
  - destruct (from_read E w m) as [[rr from] w1]. destruct (negb (rr =? 0)).
    + cbn [obind]. right. do 3 eexists. split; [reflexivity|]. unfold E_IO_FAILED. split; [exact A1|].
      fin.
    + destruct (add_data out from) as [d| |] eqn:Ea; cbn [obind].
      * destruct (Hdone (set_from_offset s1 (to_int (a_from_offset s1 + m))) w1 d) as (res & s2 & w2 & X1 & X2);
          [repeat split|]. right. exists res, s2, w2. auto.
      * auto.
      * exfalso. clear -Ea. revert from Ea. induction out; intros from Ea; destruct from; cbn in Ea; try discriminate.
        destruct (add_data out from) eqn:X; cbn in Ea; try discriminate. eapply IHout; eauto.
  - cbn [obind]. destruct (Hdone s1 w out) as (res & s2 & w2 & X1 & X2); [repeat split|].
    right. exists res, s2, w2. auto.
Qed.

Lemma adjustment_term : forall s w, a_state s = SAdjustment -> tinv s -> data_ok3 s (process_adjustment E s w).
Proof.
  intros s w Es (Hb & Hz & _). rewrite Es in Hz. destruct Hz as (Hz & r & Hr & Hk).
  unfold data_ok3, process_adjustment. rewrite Hr.
  destruct (size_term s r Hr Hk Hz Hb) as [U|(res & v & z2 & r2 & l2 & U & V & V1 & V2 & V3 & V4)];
    rewrite U; cbn [obind]; [auto|]. cbv zeta.
  destruct (Z.eqb_spec res 0); cbn [negb].
  2:{ right. do 3 eexists. split; [reflexivity|]. split; [exact V2|]. split; [|split; [auto|split; [cbn; auto|lia]]].
      intros X. destruct (V4 X) as (W1 & _). split; [exact V2|]. cbn. rewrite Es. eauto 6. }
  subst res. destruct (V4 ltac:(lia)) as (W1 & W2 & W3). specialize (W3 eq_refl).
  destruct (from_seek E w v) as [rs w1]. destruct (negb (rs =? 0)).
  { right. do 3 eexists. split; [reflexivity|]. unfold E_IO_FAILED. split; [exact V2|]. fin. }
  unfold int_add. destruct (in_int _); cbn [obind]; [|auto].
  right. do 3 eexists. split; [reflexivity|]. split; [exact V2|].
  pose proof (rm_nonneg r2 l2 W1).
  split; [|split; [lia|split; [lia|]]].
  - intros _. split; [exact V2|].
    cbn [a_state set_st set_from_offset a_to_offset a_to_size set_reader a_reader a_rsize].
    destruct (_ =? _); eauto 7.
  - intros _. unfold tmeas, rms.
    cbn [a_state set_st set_from_offset a_to_offset a_to_size set_reader a_reader a_left].
    rewrite Es, Hr. destruct (_ =? _); lia.
Qed.

Lemma once_term : forall B s w, 1 <= B -> tinv s -> once_ok s (process_once E B s w).
Proof.
  intros B s w HB Ht.
  assert (Hi : forall o, a_state s <> SDone -> init_ok s o ->
    once_ok s (letm (res, s1, w1) := (letm (r, s1) := o in Ret (r, s1, w)) in
               Ret (res, if res <? 0 then set_st s1 SFailed else s1, w1))).
  { intros o _ [->|(res & s1 & -> & A & B' & C & D & F)]; [left; reflexivity|]. cbn [obind].
    right. do 3 eexists. split; [reflexivity|]. destruct (Z.ltb_spec res 0).
    - split; [apply tinv_failed; auto|]. fin.
    - split; [apply B'; lia|]. auto. }
  assert (Hd : forall o, a_state s <> SDone -> data_ok3 s o ->
    once_ok s (letm (res, s1, w1) := o in Ret (res, if res <? 0 then set_st s1 SFailed else s1, w1))).
  { intros o _ [->|(res & s1 & w1 & -> & A & B' & C & D & F)]; [left; reflexivity|]. cbn [obind].
    right. do 3 eexists. split; [reflexivity|]. destruct (Z.ltb_spec res 0).
    - split; [apply tinv_failed; auto|]. fin.
    - split; [apply B'; lia|]. auto. }
  unfold process_once. destruct (a_state s) eqn:Es.
  - apply Hi; [congruence|]. apply init_term; auto.
  - apply Hi; [congruence|]. apply dfpatch_term; auto.
  - apply Hi; [congruence|]. eapply process_size_term; eauto.
  - apply Hd; [congruence|]. apply process_data_term; auto. rewrite Es; reflexivity.
  - apply Hi; [congruence|]. eapply process_size_term; eauto.
  - apply Hd; [congruence|]. apply process_data_term; auto. rewrite Es; reflexivity.
  - apply Hd; [congruence|]. apply adjustment_term; auto.
  - cbn [obind]. right. do 3 eexists. split; [reflexivity|]. split; [auto|]. unfold E_ALREADY_DONE.
    fin.
  - cbn [obind]. right. do 3 eexists. split; [reflexivity|]. unfold E_ALREADY_FAILED.
    split; [apply tinv_failed; destruct Ht; auto|]. fin.
Qed.

(** ** Loops *)

Lemma loop_term : forall fuel B s w res, 1 <= B -> tinv s -> tmeas s < Z.of_nat fuel ->
  (res = 1 -> a_left s = []) -> res <= 1 ->
  process_loop E fuel B res s w = Undef \/
  exists res' s' w', process_loop E fuel B res s w = Ret (res', s', w') /\ tinv s'.
Proof.
  induction fuel; intros B s w res HB Ht Hf Hr Hr1.
  { pose proof (tmeas_nonneg s Ht). lia. }
  cbn [process_loop]. destruct (a_left s) eqn:El; [right; eauto|].
  destruct (Z.ltb_spec res 0); [right; eauto|].
  destruct (once_term B s w HB Ht) as [->|(res1 & s1 & w1 & -> & A & B' & C & D)]; cbn [obind]; [auto|].
  destruct (Z.eq_dec res1 0).
  - apply IHfuel; auto. specialize (D e). lia.
  - right. assert (Hx : process_loop E fuel B res1 s1 w1 = Ret (res1, s1, w1)).
    { destruct (Z.eq_dec res1 1) as [X|X].
      - specialize (C X). destruct fuel; cbn [process_loop]; rewrite C; reflexivity.
      - destruct fuel; cbn [process_loop]; destruct (a_left s1); auto;
          assert (res1 <? 0 = true) as -> by lia; reflexivity. }
    rewrite Hx. eauto.
Qed.

Lemma finloop_term : forall fuel B s w, 1 <= B -> tinv s -> tmeas s < Z.of_nat fuel ->
  finalize_loop E fuel B s w = Undef \/
  exists res' s' w', finalize_loop E fuel B s w = Ret (res', s', w') /\ tinv s'.
Proof.
  induction fuel; intros B s w HB Ht Hf.
  { pose proof (tmeas_nonneg s Ht). lia. }
  cbn [finalize_loop].
  destruct (once_term B s w HB Ht) as [->|(res1 & s1 & w1 & -> & A & B' & C & D)]; cbn [obind]; [auto|].
  destruct (Z.eqb_spec res1 0); [|right; eauto]. apply IHfuel; auto. specialize (D e). lia.
Qed.

Lemma loop_mono : forall f B res s w x, process_loop E f B res s w = x -> x <> OutOfFuel ->
  forall f', (f <= f')%nat -> process_loop E f' B res s w = x.
Proof.
  clear. induction f; intros B res s w x Ex Hx f' Hf.
  - cbn in Ex. destruct f'; cbn [process_loop]; destruct (a_left s); auto; destruct (res <? 0); auto; congruence.
  - destruct f' as [|f']; [lia|]. cbn [process_loop] in *. destruct (a_left s); auto. destruct (res <? 0); auto.
    destruct (process_once E B s w) as [[[r1 s1] w1]| |]; cbn [obind] in *; auto. apply IHf; auto. lia.
Qed.

Lemma finloop_mono : forall f B s w x, finalize_loop E f B s w = x -> x <> OutOfFuel ->
  forall f', (f <= f')%nat -> finalize_loop E f' B s w = x.
Proof.
  clear. induction f; intros B s w x Ex Hx f' Hf.
  - cbn in Ex. congruence.
  - destruct f' as [|f']; [lia|]. cbn [finalize_loop] in *.
    destruct (process_once E B s w) as [[[r1 s1] w1]| |]; cbn [obind] in *; auto.
    destruct (r1 =? 0); auto. apply IHf; auto. lia.
Qed.

Lemma process_mono : forall f B s w c x, process E f B s w c = x -> x <> OutOfFuel ->
  forall f', (f <= f')%nat -> process E f' B s w c = x.
Proof.
  clear. intros f B s w c x Ex Hx f' Hf. unfold process in *. cbv zeta in *.
  destruct (process_loop E f B 0 _ w) eqn:P; [| |cbn in Ex; congruence];
    (rewrite (loop_mono _ _ _ _ _ _ P) by (auto; discriminate); exact Ex).
Qed.

Lemma finalize_mono : forall f B s w x, finalize E f B s w = x -> x <> OutOfFuel ->
  forall f', (f <= f')%nat -> finalize E f' B s w = x.
Proof.
  clear. intros f B s w x Ex Hx f' Hf. unfold finalize in *. cbv zeta in *.
  destruct (finalize_loop E f B _ w) eqn:P; [| |cbn in Ex; congruence];
    (rewrite (finloop_mono _ _ _ _ _ P) by (auto; discriminate); exact Ex).
Qed.

Lemma feed_mono : forall chunks f B s w x, feed E f B s w chunks = x -> x <> OutOfFuel ->
  forall f', (f <= f')%nat -> feed E f' B s w chunks = x.
Proof.
  clear. induction chunks as [|c cs IH]; intros f B s w x Ex Hx f' Hf; cbn [feed] in *.
  - eapply finalize_mono; eauto.
  - destruct (process E f B s w c) as [[[res s1] w1]| |] eqn:P; [| |cbn in Ex; congruence];
      rewrite (process_mono _ _ _ _ _ _ P) by (auto; discriminate); [|exact Ex].
    cbn [obind] in *. destruct (res =? 0); [eapply IH; eauto|].
    destruct (finalize E f B s1 w1) as [[[r2 s2] w2]| |] eqn:Q; [| |cbn in Ex; congruence];
      (rewrite (finalize_mono _ _ _ _ _ Q) by (auto; discriminate); exact Ex).
Qed.

Lemma destroy_fuel : forall r, destroy r <> OutOfFuel.
Proof.
  intros [ps po|s|h]; cbn; try discriminate. destruct (hr_ptr h); [|discriminate]. destruct (hr_dec h); discriminate.
Qed.

Lemma tinv_rechunk : forall s c x, tinv (set_chunk s []) -> bytes_ok c -> tinv (set_chunk (set_patch_offset s x) c).
Proof. intros s c x (A & B & C) Hc. split; [exact Hc|]. exact (conj B C). Qed.

Lemma tinv_set_chunk : forall s c, tinv s -> bytes_ok c -> tinv (set_chunk s c).
Proof. intros s c (A & B & C) Hc. split; [exact Hc|]. exact (conj B C). Qed.

Lemma finalize_term : forall B s w, 1 <= B -> tinv (set_chunk s []) -> exists n, forall fuel, (n <= fuel)%nat ->
  finalize E fuel B s w <> OutOfFuel.
Proof.
  intros B s w HB Ht'. exists (S (Z.to_nat (tmeas (set_chunk s [])))). intros fuel Hf. unfold finalize. cbv zeta.
  destruct (finloop_term fuel B (set_chunk s []) w HB Ht') as [->|(res & s' & w' & -> & _)].
  - pose proof (tmeas_nonneg _ Ht'). lia.
  - discriminate.
  - cbn [obind]. destruct (common_finalize res (a_reader s') (a_to_size s')) eqn:X; cbn [obind]; try discriminate.
    exfalso. unfold common_finalize in X. cbv zeta in X. destruct (a_reader s') as [r|]; [|discriminate].
    destruct (destroy r) eqn:Y; cbn [obind] in X; try discriminate. eapply destroy_fuel; eauto.
Qed.

Lemma process_term : forall B s w c, 1 <= B -> tinv (set_chunk s []) -> bytes_ok c -> exists n,
  (forall fuel, (n <= fuel)%nat -> process E fuel B s w c = Undef) \/
  (exists res s' w', tinv (set_chunk s' []) /\ forall fuel, (n <= fuel)%nat -> process E fuel B s w c = Ret (res, s', w')).
Proof.
  intros B s w c HB Ht Hc.
  set (s1 := set_chunk (set_patch_offset s (wrap (a_patch_offset s + zlen c))) c).
  assert (Ht1 : tinv s1) by (apply tinv_rechunk; auto).
  set (n := S (Z.to_nat (tmeas s1))). exists n.
  destruct (loop_term n B s1 w 0 HB Ht1) as [U|(res & s' & w' & U & T)].
  - pose proof (tmeas_nonneg _ Ht1). lia.
  - lia.
  - lia.
  - left. intros fuel Hf. unfold process. cbv zeta. fold s1. rewrite (loop_mono _ _ _ _ _ _ U) by (auto; discriminate). reflexivity.
  - right. do 3 eexists. split; [apply tinv_set_chunk; [exact T|constructor]|]. intros fuel Hf. unfold process. cbv zeta. fold s1.
    rewrite (loop_mono _ _ _ _ _ _ U) by (auto; discriminate). reflexivity.
Qed.

Lemma feed_term : forall B chunks s w, 1 <= B -> tinv (set_chunk s []) -> Forall bytes_ok chunks ->
  exists n, forall fuel, (n <= fuel)%nat -> feed E fuel B s w chunks <> OutOfFuel.
Proof.
  induction chunks as [|c cs IH]; intros s w HB Ht Hc.
  - cbn [feed]. apply finalize_term; auto.
  - inv Hc. destruct (process_term B s w c HB Ht H1) as (n & [U|(res & s' & w' & T & U)]).
    + exists n. intros fuel Hf. cbn [feed]. rewrite U by auto. discriminate.
    + destruct (Z.eqb_spec res 0) as [->|Hr].
      * destruct (IH s' w' HB T H2) as (n2 & K). exists (max n n2). intros fuel Hf. cbn [feed].
        rewrite U by lia. cbn [obind]. change (0 =? 0) with true. cbv iota. apply K. lia.
      * destruct (finalize_term B s' w' HB T) as (n2 & K). exists (max n n2). intros fuel Hf. cbn [feed].
        rewrite U by lia. cbn [obind]. destruct (Z.eqb_spec res 0); [lia|].
        specialize (K fuel ltac:(lia)). destruct (finalize E fuel B s' w') as [[[a b] c']| |]; cbn [obind]; congruence.
Qed.

Lemma tinv_init : forall junk ps, tinv (set_chunk (ap_init junk ps) []).
Proof. intros junk ps. split; [constructor|]. cbn. split; [discriminate|auto]. Qed.

(** ** The callback API *)

Lemma callbacks_mono : forall patch_read ps f po s w x, callbacks_loop E f patch_read ps po s w = x -> x <> OutOfFuel ->
  forall f', (f <= f')%nat -> callbacks_loop E f' patch_read ps po s w = x.
Proof.
  clear. induction f; intros po s w x Ex Hx f' Hf.
  - cbn in Ex. destruct f'; cbn [callbacks_loop]; destruct (negb _); auto; congruence.
  - destruct f' as [|f']; [lia|]. cbn [callbacks_loop] in *. destruct (negb _).
    { eapply finalize_mono; eauto. }
    cbv zeta in *. destruct (patch_read w _) as [[rr buf] w1]. destruct (negb (rr =? 0)).
    { destruct (finalize E (S f) 128 s w1) as [[[r2 s2] w2]| |] eqn:Q; [| |cbn in Ex; congruence];
        (rewrite (finalize_mono _ _ _ _ _ Q) by (auto; discriminate); exact Ex). }
    destruct (negb (zlen buf =? _)); [exact Ex|].
    destruct (process E (S f) 128 s w1 buf) as [[[res s1] w2]| |] eqn:P; [| |cbn in Ex; congruence];
      rewrite (process_mono _ _ _ _ _ _ P) by (auto; discriminate); [|exact Ex].
    cbn [obind] in *. destruct (res =? 0); [apply IHf; auto; lia|].
    destruct (finalize E (S f) 128 s1 w2) as [[[r2 s2] w3]| |] eqn:Q; [| |cbn in Ex; congruence];
      (rewrite (finalize_mono _ _ _ _ _ Q) by (auto; discriminate); exact Ex).
Qed.

Lemma callbacks_term : forall patch_read ps,
  (forall w n rr buf w1, patch_read w n = (rr, buf, w1) -> bytes_ok buf) ->
  forall k po s w, tinv (set_chunk s []) -> ps - po <= Z.of_nat k ->
  exists n, forall fuel, (n <= fuel)%nat -> callbacks_loop E fuel patch_read ps po s w <> OutOfFuel.
Proof.
  intros patch_read ps Hpr. induction k; intros po s w Ht Hk.
  { destruct (finalize_term 128 s w ltac:(lia) Ht) as (n & K). exists n. intros fuel Hf.
    destruct fuel; cbn [callbacks_loop]; assert (negb (po <? ps) = true) as -> by lia; apply K; auto. }
  destruct (po <? ps) eqn:Ep.
  2:{ destruct (finalize_term 128 s w ltac:(lia) Ht) as (n & K). exists n. intros fuel Hf.
      destruct fuel; cbn [callbacks_loop]; rewrite Ep; apply K; auto. }
  set (m := Z.min (ps - po) 512).
  destruct (patch_read w m) as [[rr buf] w1] eqn:Er.
  pose proof (Hpr _ _ _ _ _ Er) as Hbuf.
  destruct (finalize_term 128 s w1 ltac:(lia) Ht) as (n1 & K1).
  assert (Hgo : forall n, (forall f, (n <= f)%nat ->
     (let '(rr, buf, w1) := patch_read w m in
        if negb (rr =? 0) then
          letm (r2, s2, w2) := finalize E (S f) 128 s w1 in Ret (- E_IO_FAILED, s2, w2)
        else if negb (zlen buf =? m) then Undef
        else
          letm (res, s1, w2) := process E (S f) 128 s w1 buf in
          if res =? 0
          then callbacks_loop E f patch_read ps (po + m) s1 w2
          else
            letm (r2, s2, w3) := finalize E (S f) 128 s1 w2 in
            Ret (res, s2, w3)) <> OutOfFuel) ->
     exists n, forall fuel, (n <= fuel)%nat -> callbacks_loop E fuel patch_read ps po s w <> OutOfFuel).
  { intros n Hn. exists (S n). intros fuel Hf. destruct fuel as [|f]; [lia|]. cbn [callbacks_loop]. rewrite Ep.
    cbn [negb]. cbv zeta. fold m. apply Hn. lia. }
  rewrite Er in Hgo.
  destruct (negb (rr =? 0)).
  { apply (Hgo n1). intros f Hf. specialize (K1 (S f) ltac:(lia)).
    destruct (finalize E (S f) 128 s w1) as [[[r2 s2] w2]| |]; cbn [obind]; congruence. }
  destruct (negb (zlen buf =? m)).
  { apply (Hgo O). intros; discriminate. }
  destruct (process_term 128 s w1 buf ltac:(lia) Ht Hbuf) as (n & [U|(res & s' & w' & T & U)]).
  { apply (Hgo n). intros f Hf. rewrite U by lia. discriminate. }
  destruct (Z.eqb_spec res 0) as [->|Hr].
  - destruct (IHk (po + m) s' w' T ltac:(lia)) as (n2 & K). apply (Hgo (max n n2)). intros f Hf.
    rewrite U by lia. cbn [obind]. change (0 =? 0) with true. cbv iota. apply K. lia.
  - destruct (finalize_term 128 s' w' ltac:(lia) T) as (n2 & K). apply (Hgo (max n n2)). intros f Hf.
    rewrite U by lia. cbn [obind]. destruct (Z.eqb_spec res 0); [lia|].
    specialize (K (S f) ltac:(lia)). destruct (finalize E (S f) 128 s' w') as [[[a b] c']| |]; cbn [obind]; congruence.
Qed.

End Term.
