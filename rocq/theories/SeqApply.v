(** Runs of the whole sequential applier. *)

From Coq Require Import ZArith List Bool Lia ZifyBool ZifyNat ZifyN.
From Verif Require Import Prelude Lib Heatshrink HsProofs CReader ReaderProofs SizeProofs CSeq Spec HsSpec SeqSim SeqRun SeqTerm SeqMeaning.
Import ListNotations.
Open Scope Z_scope.

Ltac Zify.zify_post_hook ::= Z.to_euclidean_division_equations.

(** ** Streams without empty segments never deliver zero bytes *)

Lemma dec_usize_loop : forall l c v o x u1 rest, bytes_ok l -> 0 <= o -> o mod 7 = 0 -> 0 <= v < 2 ^ o ->
  unpack_usize_loop l (mkuz c v o) = Ret (0, x, u1, rest) ->
  exists y, dec_usize l = Some (y, rest) /\ x = v + y * 2 ^ o /\ 0 <= y.
Proof.
  induction l as [|b l IH]; intros c v o x u1 rest Hl Ho Hm Hv E; [discriminate|]. inv Hl.
  cbn [unpack_usize_loop u_offset u_value u_cons] in E. destruct (is_overflow o) eqn:Eo; [discriminate|].
  assert (o <= 21) by (apply is_overflow_false in Eo; clear - Eo Hm Ho; lia).
  destruct (acc_bits_ok v b o ltac:(lia) Hv) as [A B]. rewrite A in E. cbn [obind] in E.
  rewrite land_128_byte in E by auto. cbn [dec_usize]. unfold byte_ok in H1.
  destruct (Z.ltb_spec b 128).
  - injection E as E1 E2 E3. exists b. split; [congruence|]. split; [|lia]. rewrite <- E1. rewrite Z.mod_small by lia. reflexivity.
  - destruct (IH c (v + b mod 128 * 2 ^ o) (o + 7) x u1 rest H2 ltac:(lia) ltac:(lia) B E) as (y & Y1 & Y2 & Y3). rewrite Y1.
    exists (b - 128 + 128 * y). split; [auto|]. split; [|lia]. rewrite Y2.
    assert (Hp : 2 ^ (o + 7) = 2 ^ o * 128) by (rewrite Z.pow_add_r by lia; reflexivity). rewrite Hp.
    replace (b mod 128) with (b - 128) by lia. ring.
Qed.

Section Apply.
Context {WBits : WordBits}.
Hypothesis Hword : 32 <= word_bits.

Lemma nozero_back : forall r i o r1 i1, pulls r i o r1 i1 -> nozero r1 i1 -> nozero r i.
Proof.
  intros r i o r1 i1 P N o' r3 i3 r4 i4 Q X.
  destruct (pulls_det _ _ _ _ _ P _ _ _ Q) as [(o3 & _ & A)|(o3 & _ & A)].
  - apply (N o3 r3 i3 r4 i4); auto.
  - inv A; [eapply (N []); [constructor|eauto]|]. rewrite X in H. discriminate.
Qed.

Lemma nozero_stop : forall r i e x r2 i2, pull r i = Ret (e, x, r2, i2) -> e <> 0 -> nozero r i.
Proof. intros. eapply nozero_end; [constructor|eauto|auto]. Qed.

Lemma nozero_undef : forall r i, (forall e x r2 i2, pull r i <> Ret (e, x, r2, i2)) -> nozero r i.
Proof.
  intros r i H o r1 i1 r2 i2 P X. inv P; [eapply H; eauto|]. eapply H; eauto.
Qed.

Lemma crle_nozero : forall k l, (length l <= k)%nat -> bytes_ok l -> crle_clean k l = true -> nozero (RCrle CIdle) l.
Proof.
  induction k; intros l Hk Hl Hc.
  { destruct l; [|cbn in Hk; lia]. eapply nozero_stop; [reflexivity|discriminate]. }
  destruct l as [|kind l]; [eapply nozero_stop; [reflexivity|discriminate]|]. inv Hl. cbn [crle_clean] in Hc. cbn [length] in Hk.
  destruct (Z.eqb_spec kind 0) as [->|K0]; [|destruct (Z.eqb_spec kind 1) as [->|K1]]; cbn [orb] in Hc.
  - (* scattered *)
    destruct (usize_total l usize_init ltac:(discriminate)) as (e & n & u1 & rest & U & _ & (used & Hu) & Hcase).
    assert (P : forall r, r = e -> r <> 0 -> nozero (RCrle CIdle) (0 :: l)).
    { intros r -> He. eapply nozero_stop with (e := e); [|auto]. unfold pull, decompress, crle_decompress.
      rewrite (crle_loop_go 4 CIdle _ 1 (CScatSize usize_init) l) by reflexivity.
      erewrite crle_loop_stop; [reflexivity| |].
      - cbn [crle_step]. rewrite U. cbn [obind]. destruct (Z.eqb_spec e 0); [congruence|reflexivity].
      - intros ->. destruct Hcase as [(X & _)|[[(X & _)|X] _]]; discriminate. }
    destruct (Z.eq_dec e 0) as [->|He]; [clear P|apply (P e); auto].
    destruct Hcase as [(X & _)|[[(_ & Hn)|X] _]]; try discriminate.
    destruct (dec_usize_loop l true 0 0 n u1 rest) as (y & Y1 & Y2 & Y3); auto; try lia.
    rewrite Y1 in Hc. change (2 ^ 0) with 1 in Y2. assert (y = n) by lia. subst y.
    destruct (Z.eqb_spec n 0); [discriminate|].
    assert (Hrest : bytes_ok rest). { rewrite Hu in H2. apply Forall_app in H2. tauto. }
    assert (Hlen : (length rest <= length l)%nat). { rewrite Hu, app_length. lia. }
    apply (nozero_eq (RCrle (CScatData n)) rest).
    2:{ unfold pull, decompress, crle_decompress.
        rewrite (crle_loop_go 4 CIdle _ 1 (CScatSize usize_init) l) by reflexivity.
        rewrite (crle_loop_go 3 _ _ 1 (CScatData n) rest) by (cbn [crle_step]; rewrite U; reflexivity).
        f_equal. destruct rest; (erewrite crle_loop_stop; [|reflexivity|discriminate]);
          (erewrite crle_loop_stop; [|reflexivity|discriminate]); reflexivity. }
    destruct (Z.leb_spec n (zlen rest)).
    + pose proof (cpulls_scat (ztake n rest) n (zdrop n rest)) as P.
      rewrite ztake_zdrop in P. rewrite zlen_ztake in P by lia. rewrite Z.min_l, Z.sub_diag in P by lia.
      eapply nozero_back; [apply cpulls_pulls, P; lia|]. change (0 =? 0) with true. cbv iota.
      apply IHk; auto.
      * unfold zdrop. rewrite skipn_length. lia.
      * apply Forall_zdrop. auto.
    + destruct rest as [|b rest]; [eapply nozero_stop; [reflexivity|discriminate]|].
      pose proof (cpulls_scat (b :: rest) n []) as P. rewrite app_nil_r in P.
      assert (0 < zlen (b :: rest)) by (rewrite zlen_cons; pose proof (zlen_nonneg rest); lia).
      eapply nozero_back; [apply cpulls_pulls, P; lia|].
      destruct (Z.eqb_spec (n - zlen (b :: rest)) 0); [lia|].
      eapply nozero_stop; [reflexivity|discriminate].
  - (* repeated *)
    destruct (usize_total l usize_init ltac:(discriminate)) as (e & n & u1 & rest & U & _ & (used & Hu) & Hcase).
    assert (P : forall r, r = e -> r <> 0 -> nozero (RCrle CIdle) (1 :: l)).
    { intros r -> He. eapply nozero_stop with (e := e); [|auto]. unfold pull, decompress, crle_decompress.
      rewrite (crle_loop_go 4 CIdle _ 1 (CRepSize usize_init) l) by reflexivity.
      erewrite crle_loop_stop; [reflexivity| |].
      - cbn [crle_step]. rewrite U. cbn [obind]. destruct (Z.eqb_spec e 0); [congruence|reflexivity].
      - intros ->. destruct Hcase as [(X & _)|[[(X & _)|X] _]]; discriminate. }
    destruct (Z.eq_dec e 0) as [->|He]; [clear P|apply (P e); auto].
    destruct Hcase as [(X & _)|[[(_ & Hn)|X] _]]; try discriminate.
    destruct (dec_usize_loop l true 0 0 n u1 rest) as (y & Y1 & Y2 & Y3); auto; try lia.
    rewrite Y1 in Hc. change (2 ^ 0) with 1 in Y2. assert (y = n) by lia. subst y.
    destruct (Z.eqb_spec n 0); [discriminate|].
    assert (Hrest : bytes_ok rest). { rewrite Hu in H2. apply Forall_app in H2. tauto. }
    assert (Hlen : (length rest <= length l)%nat). { rewrite Hu, app_length. lia. }
    destruct rest as [|v rest].
    { eapply nozero_stop with (e := 1); [|discriminate]. unfold pull, decompress, crle_decompress.
      rewrite (crle_loop_go 4 CIdle _ 1 (CRepSize usize_init) l) by reflexivity.
      rewrite (crle_loop_go 3 _ _ 1 (CRepData n) []) by (cbn [crle_step]; rewrite U; reflexivity).
      erewrite crle_loop_stop; [|reflexivity|discriminate]. reflexivity. }
    apply (nozero_eq (RCrle (CRepRead n v)) rest).
    2:{ unfold pull, decompress, crle_decompress.
        rewrite (crle_loop_go 4 CIdle _ 1 (CRepSize usize_init) l) by reflexivity.
        rewrite (crle_loop_go 3 _ _ 1 (CRepData n) (v :: rest)) by (cbn [crle_step]; rewrite U; reflexivity).
        rewrite (crle_loop_go 2 _ _ 1 (CRepRead n v) rest) by reflexivity.
        reflexivity. }
    pose proof (cpulls_rep (Z.to_nat n) n v rest) as P. rewrite Z2Nat.id in P by lia. rewrite Z.sub_diag in P.
    eapply nozero_back; [apply cpulls_pulls, P; lia|]. change (0 =? 0) with true. cbv iota.
    inv Hrest. cbn [length] in Hlen. apply IHk; auto. lia.
  - eapply nozero_stop with (e := - E_CORRUPT_PATCH_CRLE_KIND); [|discriminate].
    unfold pull, decompress, crle_decompress. cbn [crle_loop crle_step].
    destruct (Z.eqb_spec kind 0); [lia|]. destruct (Z.eqb_spec kind 1); [lia|]. reflexivity.
Qed.

Notation once := (process_once file_env).

(** ** The header *)

Lemma uhs_complete : forall l z v z1 l1, bytes_ok l -> existsb (fun b => b <? 128) l = true -> zok z ->
  unpack_header_size l z <> Ret (1, v, z1, l1).
Proof.
  induction l as [|b l IH]; intros z v z1 l1 Hl He Hz; [discriminate|]. inv Hl. cbn [existsb] in He. rewrite uhs_unfold.
  destruct (hdr_byte_spec z b Hz) as [(_ & _ & E)|(z2 & E & Hc & Hz1 & _ & Hv & _)]; rewrite E; cbn [obind]; [discriminate|].
  rewrite land_128_byte by auto. destruct (b <? 128); [discriminate|]. apply IH; auto.
Qed.

Lemma uhs_after : forall l z v z1 l1, bytes_ok l -> zok z -> unpack_header_size l z = Ret (0, v, z1, l1) ->
  l1 = after_size l.
Proof.
  induction l as [|b l IH]; intros z v z1 l1 Hl Hz E; [discriminate|]. inv Hl. rewrite uhs_unfold in E. cbn [after_size].
  destruct (hdr_byte_spec z b Hz) as [(_ & _ & A)|(z2 & A & Hc & Hz1 & _ & Hv & _)]; rewrite A in E; cbn [obind] in E; [discriminate|].
  rewrite land_128_byte in E by auto. destruct (b <? 128); [inv E; auto|]. eapply IH; eauto.
Qed.

(** The conditions on a patch and a way of cutting it into pieces. *)
Definition chunks_ok (patch : list Z) (chunks : list (list Z)) : Prop :=
  patch <> [] -> announced_comp patch = 0 -> header_complete (hd [] chunks) = true \/ chunks = [patch].

Definition crle_ok (patch : list Z) : Prop :=
  announced_comp patch = 2 -> no_empty_segment (body_of patch) = true.

Lemma bytes_ok_after : forall l, bytes_ok l -> bytes_ok (after_size l).
Proof. induction 1; cbn [after_size]; [constructor|]. destruct (x <? 128); auto. Qed.

Lemma crle_ok_nz : forall patch, bytes_ok patch -> crle_ok patch -> body_nz patch.
Proof.
  intros patch Hb Hc b l z v z1 l1 -> Hk Hz E. inv Hb.
  apply uhs_after in E; [|auto|intros X; congruence]. subst l1.
  apply (crle_nozero (length (after_size l))); [auto|apply bytes_ok_after; auto|]. apply Hc. exact Hk.
Qed.

Lemma bytes_ok_concat : forall cs, Forall bytes_ok cs <-> bytes_ok (concat cs).
Proof.
  induction cs as [|c cs IH]; cbn [concat]; [split; constructor|]. split; intros H.
  - inv H. apply Forall_app. tauto.
  - apply Forall_app in H. constructor; tauto.
Qed.

Definition start (junk : ap) (ps : Z) (patch : list Z) : ap := set_chunk (ap_init junk ps) patch.

Lemma start_ready : forall junk junk0 ps chunks, a_chunk_size junk = a_chunk_size junk0 -> a_rsize junk = a_rsize junk0 ->
  a_size junk = a_size junk0 ->
  bytes_ok (concat chunks) -> chunks_ok (concat chunks) chunks -> body_nz (concat chunks) ->
  zlen (concat chunks) <= ps -> ps + 128 < 2 ^ word_bits ->
  ready chunks (ap_init junk ps) (start junk0 ps (concat chunks)).
Proof.
  intros junk junk0 ps chunks J1 J2 J3 Hb Hc Hn Hp1 Hp2.
  destruct chunks as [|c cs]; cbn [ready concat] in *.
  - left. unfold isrel, start. cbn. split; [auto|]. split; [auto|]. split; [auto|]. split; [auto|].
    do 4 (split; [auto|]). do 4 (split; [auto|]).
    split; [constructor|]. split; [constructor|]. split; [auto|]. split; [cbn in *; lia|].
    split; [auto|]. split; [auto|]. split; [auto|]. split; [right; left; auto|]. split; [auto|auto].
  - left. unfold isrel, start. cbn.
    do 4 (split; [auto|]). do 4 (split; [auto|]). do 4 (split; [auto|]).
    assert (Hb2 := Hb). apply Forall_app in Hb2. destruct Hb2 as [Hb1 Hb2].
    split; [auto|]. split; [auto|]. split; [auto|]. split; [split; [lia|auto]|].
    split; [auto|]. split; [auto|]. split; [auto|].
    split; [|split; [auto|auto]].
    destruct (c ++ concat cs) as [|b l] eqn:El; [right; left; apply app_eq_nil in El; tauto|].
    destruct (Z.eq_dec (Z.land b 15) 0) as [E0|E0]; [|left; eauto].
    destruct (Hc ltac:(discriminate) E0) as [X|X].
    + right; right. cbn [hd] in X. destruct c as [|b' c]; [discriminate|]. exists b', c. split; [auto|].
      intros z v z1 l1 Hz. inv Hb1. apply uhs_complete; auto. intros Y; congruence.
    + right; left. inv X. auto.
Qed.

Theorem apply_sim : forall junk ps from chunks fuel,
  bytes_ok (concat chunks) -> chunks_ok (concat chunks) chunks -> body_nz (concat chunks) ->
  zlen (concat chunks) <= ps -> ps + 128 < 2 ^ word_bits ->
  c_apply fuel junk ps from chunks <> OutOfFuel ->
  let s0 := start junk ps (concat chunks) in
  let w := mkfiles from 0 [] in
  (exists sd wd s', refdone s0 w sd wd /\ c_apply fuel junk ps from chunks = letm v := fin_value sd in Ret (v, s', wd)) \/
  ((forall sd wd, ~ refdone s0 w sd wd) /\
   (c_apply fuel junk ps from chunks = Undef \/
    exists e s' w', c_apply fuel junk ps from chunks = Ret (e, s', w') /\ e < 0)).
Proof.
  intros junk ps from chunks fuel Hb Hc Hk Hp1 Hp2 Ho s0 w. unfold c_apply in *.
  apply (feed_sim Hword); auto.
  - apply bytes_ok_concat; auto.
  - apply start_ready; auto.
Qed.

Ltac fields :=
  cbv beta iota zeta delta [set_st set_left set_chunk set_patch_offset set_header set_reader
    set_to_size set_from_offset set_chunk_size set_to_offset a_patch_size a_state a_to_init
    a_compression a_patch_offset a_to_offset a_to_size a_from_offset a_chunk_size a_reader
    a_rsize a_csize a_left a_size] in *.

(** ** The contents of the struct before init do not matter *)

Definition zsame (z z' : size_st) : Prop := z = z' \/ z_cons z = false /\ z_cons z' = false.

Definition jrel (s s' : ap) : Prop :=
  a_patch_size s = a_patch_size s' /\ a_state s = a_state s' /\ a_to_offset s = a_to_offset s' /\
  a_from_offset s = a_from_offset s' /\ a_left s = a_left s' /\
  match a_state s with
  | SInit => a_csize s = a_csize s' /\ a_reader s = a_reader s' /\ a_to_init s = a_to_init s' /\
             (a_to_init s = true -> a_compression s = a_compression s' /\
                z_cons (a_size s) = z_cons (a_size s') /\
                (z_cons (a_size s) = true -> z_value (a_size s) = z_value (a_size s') /\ z_offset (a_size s) = z_offset (a_size s')))
  | st => a_reader s = a_reader s' /\ a_to_size s = a_to_size s' /\ zsame (a_rsize s) (a_rsize s') /\
          (data_next st <> None -> a_chunk_size s = a_chunk_size s')
  end.

Lemma uhs_same : forall l z z' res v z1 l1, z_cons z = z_cons z' ->
  (z_cons z = true -> z_value z = z_value z' /\ z_offset z = z_offset z') ->
  unpack_header_size l z = Ret (res, v, z1, l1) ->
  exists z1', unpack_header_size l z' = Ret (res, v, z1', l1).
Proof.
  induction l as [|b l IH]; intros z z' res v z1 l1 Hc Hv E.
  { cbn in *. inv E. eauto. }
  rewrite uhs_unfold in *. unfold hdr_byte in *. rewrite <- Hc. destruct (z_cons z).
  - destruct (Hv eq_refl) as [V1 V2]. rewrite <- V1, <- V2.
    destruct (is_overflow (z_offset z)); cbn [obind] in *; [inv E; eauto|].
    destruct (acc_bits (z_value z) b (z_offset z)) as [x| |]; cbn [obind] in *; try discriminate.
    destruct (Z.land b 128 =? 0); [inv E; cbn; eauto|]. eapply IH; [| |exact E]; cbn; auto.
  - cbn [obind] in *. destruct (Z.land b 128 =? 0); [inv E; cbn; eauto|].
    eapply IH; [| |exact E]; cbn; auto.
Qed.

Lemma usl_same : forall z z' r i byte n v z1 r1 i1, zsame z z' ->
  unpack_size_loop 6 z r i byte n = Ret (0, v, z1, r1, i1) -> unpack_size_loop 6 z' r i byte n = Ret (0, v, z1, r1, i1).
Proof.
  intros z z' r i byte n v z1 r1 i1 [->|[H H']] E; [auto|].
  destruct five as (f & Ef). change 6%nat with (S 5) in *. rewrite <- Ef in *. cbn [unpack_size_loop] in *.
  destruct (decompress r i n) as [[[[res o] r2] l2]| |]; cbn [obind] in *; try discriminate.
  destruct (Z.eqb_spec res 0); cbn [negb] in *; [|inv E; congruence].
  destruct (match o with [] => byte | b :: _ => Some b end) as [b|]; [|discriminate].
  unfold size_byte in *. rewrite H, H' in *. cbn [obind] in *. exact E.
Qed.

Lemma jrel_data : forall s s' w s1 w1 next, jrel s s' -> data_next (a_state s) = Some next ->
  process_data file_env 1 s w next = Ret (0, s1, w1) ->
  exists s1', process_data file_env 1 s' w next = Ret (0, s1', w1) /\ jrel s1 s1'.
Proof.
  intros s s' w s1 w1 next (A1 & A2 & A3 & A4 & A5 & A6) Hn E.
  assert (B : a_reader s = a_reader s' /\ a_to_size s = a_to_size s' /\ zsame (a_rsize s) (a_rsize s') /\
              a_chunk_size s = a_chunk_size s').
  { destruct (a_state s) eqn:Es; try discriminate Hn; destruct A6 as (B1 & B2 & B3 & B4);
      do 3 (split; [auto|]); apply B4; discriminate. }
  clear A6. destruct B as (B1 & B2 & B3 & B4). destruct (data_next_cases _ _ Hn) as (Hx & _ & _).
  unfold process_data in *. cbv zeta in *. rewrite <- B4, <- B1, <- A5.
  destruct (Z.min 1 (a_chunk_size s) =? 0).
  { inv E. eexists. split; [reflexivity|]. unfold jrel. destruct s, s'. fields. subst.
    destruct Hx as [-> | ->]; do 7 (split; [reflexivity|]); (split; [auto|]); auto. }
  destruct (a_reader s) as [r|] eqn:Er; [|discriminate].
  destruct (decompress r (a_left s) _) as [[[[res out] r1] l1]| |]; cbn [obind] in *; try discriminate.
  destruct (Z.eqb_spec res 0) as [->|]; cbn [negb] in *; [|exfalso; inv E; congruence].
  change (a_from_offset (set_reader s (Some r1) (a_rsize s) l1)) with (a_from_offset s) in E.
  change (a_from_offset (set_reader s' (Some r1) (a_rsize s') l1)) with (a_from_offset s'). rewrite <- A4.
  destruct Hx as [-> | ->].
  - destruct (from_read file_env w (zlen out)) as [[rr from] w2].
    destruct (negb (rr =? 0)); cbn [obind] in *; [discriminate|].
    destruct (add_data out from) as [d| |]; cbn [obind] in *; try discriminate.
    destruct (to_write file_env w2 d) as [rw w3]. destruct (negb (rw =? 0)); [discriminate|]. inv E.
    eexists. split; [reflexivity|]. unfold jrel. destruct s, s'. fields. subst.
    destruct a_state0; try discriminate Hn; do 7 (split; [reflexivity|]); (split; [auto|]); auto.
  - cbn [obind] in *.
    destruct (to_write file_env w out) as [rw w3]. destruct (negb (rw =? 0)); [discriminate|]. inv E.
    eexists. split; [reflexivity|]. unfold jrel. destruct s, s'. fields. subst.
    destruct a_state0; try discriminate Hn; do 7 (split; [reflexivity|]); (split; [auto|]); auto.
Qed.

Lemma jrel_once : forall s s' w s1 w1, jrel s s' -> once 1 s w = Ret (0, s1, w1) ->
  exists s1', once 1 s' w = Ret (0, s1', w1) /\ jrel s1 s1'.
Proof.
  intros s s' w s1 w1 J E. destruct (data_next (a_state s)) as [next|] eqn:Hn.
  { assert (Hn' : data_next (a_state s') = Some next) by (destruct J as (_ & <- & _); auto).
    rewrite (once_data _ _ _ _ Hn) in E. rewrite (once_data _ _ _ _ Hn').
    destruct (process_data file_env 1 s w next) as [[[res s2] w2]| |] eqn:P; cbn [obind] in *; try discriminate.
    injection E as -> E ->. change (0 <? 0) with false in E. cbv iota in E. subst s2.
    destruct (jrel_data _ _ _ _ _ _ J Hn P) as (s1' & P' & J'). rewrite P'. cbn [obind].
    change (0 <? 0) with false. cbv iota. eauto. }
  destruct J as (A1 & A2 & A3 & A4 & A5 & A6). unfold process_once in *. rewrite <- A2.
  destruct (a_state s) eqn:Es.
  - (* init *) destruct A6 as (B1 & B2 & B3 & B4).
    unfold process_init in *. rewrite <- B3. destruct (a_to_init s) eqn:Et.
    + destruct (B4 eq_refl) as (C1 & C2 & C3). unfold process_init_to_size in *. rewrite <- A5.
      destruct (unpack_header_size (a_left s) (a_size s)) as [[[[res v] z1] l1]| |] eqn:U; cbn [obind] in *; try discriminate.
      destruct (uhs_same _ _ _ _ _ _ _ C2 C3 U) as (z1' & U'). rewrite U'. cbn [obind].
      destruct (Z.eqb_spec res 0) as [->|]; cbn [negb] in *.
      2:{ exfalso. inv E. congruence. }
      replace (wrap (a_patch_size (set_header s' true (a_compression s') z1' l1) - chunk_offset (set_header s' true (a_compression s') z1' l1)))
        with (wrap (a_patch_size (set_header s true (a_compression s) z1 l1) - chunk_offset (set_header s true (a_compression s) z1 l1))).
      2:{ unfold chunk_offset. cbn. rewrite A1, B1. reflexivity. }
      cbn [a_compression set_header] in *. rewrite <- C1.
      destruct (reader_init _ _) as [r|]; [|discriminate].
      destruct (v <? 0); [discriminate|]. cbn [obind] in *. change (0 <? 0) with false in *. cbv iota in *. inv E.
      eexists. split; [reflexivity|].
      unfold jrel. destruct (0 <? v); destruct s, s'; fields; subst; (repeat (split; [reflexivity|])); unfold zsame; cbn; auto 10.
      all: split; [right; auto|]; intros X; exfalso; apply X; reflexivity.
    + unfold process_init_fixed_header in *. rewrite <- A5. destruct (a_left s) as [|b l]; [discriminate|].
      destruct (negb (Z.land (Z.shiftr b 4) 7 =? 0)); [discriminate|]. cbn [obind] in *. change (0 <? 0) with false in *. cbv iota in *. inv E.
      eexists. split; [reflexivity|]. unfold jrel. destruct s, s'. fields. subst.
      do 8 (split; [reflexivity|]). intros _. split; [reflexivity|]. split; [reflexivity|]. cbn. discriminate.
  - (* dfpatch *) destruct A6 as (B1 & B2 & B3 & B4).
    unfold process_dfpatch_size in *. rewrite <- B1, <- A5. destruct (a_reader s) as [r|] eqn:Er; [|discriminate].
    unfold unpack_size in *.
    destruct (unpack_size_loop 6 (a_rsize s) r (a_left s) None 1) as [[[[[res v] z1] r1] l1]| |] eqn:U; cbn [obind] in *; try discriminate.
    destruct (Z.eqb_spec res 0) as [->|]; cbn [negb] in *; [|exfalso; cbn [obind] in E; inv E; congruence].
    rewrite (usl_same _ _ _ _ _ _ _ _ _ _ B3 U). cbn [obind]. change (negb (0 =? 0)) with false. cbv iota.
    destruct (0 <? v); [discriminate|]. cbn [obind] in *. change (0 <? 0) with false in *. cbv iota in *. inv E.
    eexists. split; [reflexivity|]. unfold jrel. destruct s, s'. fields. subst.
    do 7 (split; [reflexivity|]). split; [left; reflexivity|]. intros X; exfalso; apply X; reflexivity.
  - (* diff size *) destruct A6 as (B1 & B2 & B3 & B4).
    unfold process_size, common_process_size in *. rewrite <- B1, <- A5, <- A3, <- B2. destruct (a_reader s) as [r|] eqn:Er; [|discriminate].
    unfold unpack_size in *.
    destruct (unpack_size_loop 6 (a_rsize s) r (a_left s) None 1) as [[[[[res v] z1] r1] l1]| |] eqn:U; cbn [obind] in *; try discriminate.
    destruct (Z.eqb_spec res 0) as [->|]; cbn [negb obind] in *.
    2:{ exfalso. destruct (Z.eqb_spec res 0); [congruence|]. cbn [negb obind] in E. inv E; congruence. }
    rewrite (usl_same _ _ _ _ _ _ _ _ _ _ B3 U). cbn [obind]. change (negb (0 =? 0)) with false. cbv iota.
    destruct (a_to_size s <? wrap (a_to_offset s + wrap v)); cbn [obind] in *; [discriminate|].
    change (negb (0 =? 0)) with false in *. cbv iota in *. cbn [obind] in *. change (0 <? 0) with false in *. cbv iota in *. inv E.
    eexists. split; [reflexivity|]. unfold jrel. destruct s, s'. fields. subst.
    do 7 (split; [reflexivity|]). split; [left; reflexivity|]. auto.
  - discriminate Hn.
  - (* extra size *) destruct A6 as (B1 & B2 & B3 & B4).
    unfold process_size, common_process_size in *. rewrite <- B1, <- A5, <- A3, <- B2. destruct (a_reader s) as [r|] eqn:Er; [|discriminate].
    unfold unpack_size in *.
    destruct (unpack_size_loop 6 (a_rsize s) r (a_left s) None 1) as [[[[[res v] z1] r1] l1]| |] eqn:U; cbn [obind] in *; try discriminate.
    destruct (Z.eqb_spec res 0) as [->|]; cbn [negb obind] in *.
    2:{ exfalso. destruct (Z.eqb_spec res 0); [congruence|]. cbn [negb obind] in E. inv E; congruence. }
    rewrite (usl_same _ _ _ _ _ _ _ _ _ _ B3 U). cbn [obind]. change (negb (0 =? 0)) with false. cbv iota.
    destruct (a_to_size s <? wrap (a_to_offset s + wrap v)); cbn [obind] in *; [discriminate|].
    change (negb (0 =? 0)) with false in *. cbv iota in *. cbn [obind] in *. change (0 <? 0) with false in *. cbv iota in *. inv E.
    eexists. split; [reflexivity|]. unfold jrel. destruct s, s'. fields. subst.
    do 7 (split; [reflexivity|]). split; [left; reflexivity|]. auto.
  - discriminate Hn.
  - (* adjustment *) destruct A6 as (B1 & B2 & B3 & B4).
    unfold process_adjustment in *. rewrite <- B1, <- A5. destruct (a_reader s) as [r|] eqn:Er; [|discriminate].
    unfold unpack_size in *.
    destruct (unpack_size_loop 6 (a_rsize s) r (a_left s) None 1) as [[[[[res v] z1] r1] l1]| |] eqn:U; cbn [obind] in *; try discriminate.
    destruct (Z.eqb_spec res 0) as [->|]; cbn [negb] in *; [|exfalso; cbn [obind] in E; inv E; congruence].
    rewrite (usl_same _ _ _ _ _ _ _ _ _ _ B3 U). cbn [obind]. change (negb (0 =? 0)) with false. cbv iota.
    destruct (from_seek file_env w v) as [rs w2]. destruct (negb (rs =? 0)); [discriminate|].
    change (a_from_offset (set_reader s' (Some r1) z1 l1)) with (a_from_offset s').
    change (a_from_offset (set_reader s (Some r1) z1 l1)) with (a_from_offset s) in E. rewrite <- A4.
    destruct (int_add (a_from_offset s) v) as [fo| |]; cbn [obind] in *; try discriminate.
    change (0 <? 0) with false in *. cbv iota in *. inv E.
    eexists. split; [reflexivity|]. unfold jrel. destruct s, s'. fields. subst.
    destruct (_ =? _); do 7 (split; [reflexivity|]); (split; [left; reflexivity|]); intros X; exfalso; apply X; reflexivity.
  - discriminate.
  - discriminate.
Qed.

Lemma jrel_refdone : forall s s' w sd wd, jrel s s' -> refdone s w sd wd ->
  exists sd', refdone s' w sd' wd /\ a_reader sd' = a_reader sd /\ a_to_size sd' = a_to_size sd /\ a_left sd' = a_left sd.
Proof.
  intros s s' w sd wd J [R D]. revert s' J. induction R; intros s' J.
  - exists s'. destruct J as (A1 & A2 & A3 & A4 & A5 & A6). rewrite D in A6. split; [split; [constructor|congruence]|]. intuition congruence.
  - destruct (jrel_once _ _ _ _ _ J H) as (s1' & E & J'). destruct (IHR D _ J') as (sd' & [R' D'] & K).
    exists sd'. split; [split; [econstructor; eauto|auto]|auto].
Qed.

Lemma start_jrel : forall junk junk' ps patch, jrel (start junk ps patch) (start junk' ps patch).
Proof. intros. unfold jrel, start. cbn. do 8 (split; [reflexivity|]). discriminate. Qed.

(** ** Success, whatever the amount of fuel *)

Definition succeeds (junk : ap) (patch_size : Z) (from : list Z) (chunks : list (list Z)) (v : Z) (to : list Z) : Prop :=
  exists fuel s w, c_apply fuel junk patch_size from chunks = Ret (v, s, w) /\ 0 <= v /\ f_to w = to.

Lemma succeeds_ref : forall junk ps from chunks v to,
  bytes_ok (concat chunks) -> chunks_ok (concat chunks) chunks -> body_nz (concat chunks) ->
  zlen (concat chunks) <= ps -> ps + 128 < 2 ^ word_bits ->
  (succeeds junk ps from chunks v to <->
   exists sd wd, refdone (start junk ps (concat chunks)) (mkfiles from 0 []) sd wd /\ fin_value sd = Ret v /\ 0 <= v /\ f_to wd = to).
Proof.
  intros junk ps from chunks v to H1 H2 H3 H4 H5. split.
  - intros (fuel & s & w & E & Hv & Hto).
    destruct (apply_sim junk ps from chunks fuel H1 H2 H3 H4 H5 ltac:(congruence)) as [(sd & wd & s' & R & X)|(_ & [X|(e & s' & w' & X & Y)])].
    + rewrite E in X. destruct (fin_value sd) as [x| |] eqn:F; cbn [obind] in X; try discriminate. inv X.
      exists sd, wd. auto.
    + congruence.
    + rewrite E in X. inv X. lia.
  - intros (sd & wd & R & F & Hv & Hto).
    destruct (feed_term Hword file_env 128 chunks (ap_init junk ps) (mkfiles from 0 []) ltac:(lia) (tinv_init junk ps)
                (proj2 (bytes_ok_concat chunks) H1)) as (n & N).
    specialize (N n (le_n n)).
    destruct (apply_sim junk ps from chunks n H1 H2 H3 H4 H5 N) as [(sd' & wd' & s' & R' & X)|(X & _)].
    + assert (sd' = sd /\ wd' = wd) as [-> ->].
      { destruct R' as [R1 D1]. pose proof (refdone_step _ _ _ _ _ _ R R1) as [R2 D2]. inv R2; [auto|].
        rewrite once_done in H by auto. discriminate. }
      rewrite F in X. cbn [obind] in X. exists n, s', wd. auto.
    + exfalso. eapply X; eauto.
Qed.

Lemma chunking_independent : forall junk1 junk2 ps from patch chunks1 chunks2 v to,
  bytes_ok patch -> zlen patch <= ps -> ps + 128 < 2 ^ word_bits ->
  concat chunks1 = patch -> concat chunks2 = patch -> chunks_ok patch chunks1 -> chunks_ok patch chunks2 -> body_nz patch ->
  succeeds junk1 ps from chunks1 v to -> succeeds junk2 ps from chunks2 v to.
Proof.
  intros junk1 junk2 ps from patch chunks1 chunks2 v to H1 H2 H3 <- E2 H4 H5 H6 S.
  apply succeeds_ref in S; auto. destruct S as (sd & wd & R & F & Hv & Hto).
  destruct (jrel_refdone _ _ _ _ _ (start_jrel junk1 junk2 ps _) R) as (sd' & R' & K1 & K2 & _).
  apply succeeds_ref; rewrite ?E2; auto.
  exists sd', wd. split; [auto|]. split; [|auto]. unfold fin_value in *. rewrite K1, K2. auto.
Qed.

Lemma not_succeeds_fails : forall junk ps from chunks, bytes_ok (concat chunks) ->
  (forall v to, ~ succeeds junk ps from chunks v to) ->
  exists n, forall fuel, (n <= fuel)%nat ->
    c_apply fuel junk ps from chunks = Undef \/ exists e s w, c_apply fuel junk ps from chunks = Ret (e, s, w) /\ e < 0.
Proof.
  intros junk ps from chunks Hb Hs.
  destruct (feed_term Hword file_env 128 chunks (ap_init junk ps) (mkfiles from 0 []) ltac:(lia) (tinv_init junk ps)
                (proj2 (bytes_ok_concat chunks) Hb)) as (n & N).
  exists n. intros fuel Hf. specialize (N fuel Hf). unfold c_apply.
  destruct (feed _ _ _ _ _ _) as [[[e s] w]| |] eqn:E; [|auto|congruence].
  right. exists e, s, w. split; [auto|]. destruct (Z.lt_ge_cases e 0); [auto|].
  exfalso. apply (Hs e (f_to w)). exists fuel, s, w. auto.
Qed.

(** ** Well formed patches *)

Lemma enc_body_ne : forall recs, enc_body recs <> [].
Proof. intros. unfold enc_body. cbn. discriminate. Qed.

Lemma header_steps : forall junk ps c v stream w r, bytes_ok stream -> 0 <= v < 2 ^ 27 ->
  ps = zlen (header_byte TYPE_SEQUENTIAL c :: enc_size v ++ stream) -> ps + 128 < 2 ^ word_bits ->
  reader_init (zlen stream) (comp_number c) = Some r ->
  exists s1, steps1 (start junk ps (header_byte TYPE_SEQUENTIAL c :: enc_size v ++ stream)) w s1 w /\
    a_state s1 = (if 0 <? v then SDfpatchSize else SDone) /\ a_to_offset s1 = 0 /\ a_to_size s1 = v /\
    a_from_offset s1 = 0 /\ a_reader s1 = Some r /\ a_left s1 = stream /\ z_cons (a_rsize s1) = false.
Proof.
  intros junk ps c v stream w r Hb Hv Hps Hw Hr.
  pose proof (zlen_nonneg stream). pose proof (pow2_32_le word_bits Hword).
  set (patch := header_byte TYPE_SEQUENTIAL c :: enc_size v ++ stream) in *.
  set (z0 := mksz false (z_value (a_size junk)) (z_offset (a_size junk)) (z_signed (a_size junk))).
  destruct (header_enc v z0 stream Hv eq_refl) as (z1 & U & V).
  set (s1 := set_header (start junk ps patch) true (comp_number c) z0 (enc_size v ++ stream)).
  assert (E1 : once 1 (start junk ps patch) w = Ret (0, s1, w)).
  { unfold process_once, start. cbn [a_state set_chunk ap_init]. unfold process_init. cbn [a_to_init set_chunk ap_init].
    unfold process_init_fixed_header. cbn [a_left set_chunk]. unfold patch at 1.
    assert (X : Z.land (Z.shiftr (header_byte TYPE_SEQUENTIAL c) 4) 7 = 0 /\ Z.land (header_byte TYPE_SEQUENTIAL c) 15 = comp_number c)
      by (destruct c; split; reflexivity).
    destruct X as [-> ->]. reflexivity. }
  set (s2 := set_header s1 true (comp_number c) z1 stream).
  set (s3 := set_reader s2 (Some r) (mksz false (z_value (a_rsize s2)) (z_offset (a_rsize s2)) (z_signed (a_rsize s2))) stream).
  set (s4 := set_st (set_to_size s3 (wrap v)) (if 0 <? v then SDfpatchSize else SDone)).
  assert (E2 : once 1 s1 w = Ret (0, s4, w)).
  { unfold process_once. change (a_state s1) with SInit. cbv iota. unfold process_init. change (a_to_init s1) with true. cbv iota.
    unfold process_init_to_size. change (a_left s1) with (enc_size v ++ stream). change (a_size s1) with z0.
    rewrite U. cbn [obind]. change (negb (0 =? 0)) with false. cbv iota.
    change (a_to_init s1) with true. change (a_compression s1) with (comp_number c).
    fold s2. change (a_compression s2) with (comp_number c).
    replace (wrap (a_patch_size s2 - chunk_offset s2)) with (zlen stream).
    2:{ change (a_patch_size s2) with ps. unfold chunk_offset. change (a_csize s2) with (zlen patch).
        change (a_left s2) with stream. rewrite <- Hps. rewrite wrap_small; [lia|].
        rewrite Hps in *. unfold patch in *. rewrite zlen_cons, zlen_app in *. pose proof (zlen_nonneg (enc_size v)). lia. }
    rewrite Hr. cbv zeta. fold s3.
    destruct (Z.ltb_spec v 0); [lia|]. cbn [obind]. change (0 <? 0) with false. cbv iota. reflexivity. }
  exists s4. split; [econstructor; [exact E1|]; econstructor; [exact E2|constructor]|].
  split; [reflexivity|]. split; [reflexivity|]. split; [apply wrap_small; lia|]. auto 10.
Qed.

Lemma ref_patch : forall junk c recs patch from to, seq_patch c recs patch -> recs_in_limits recs ->
  apply_recs from 0 recs = Some to -> bytes_ok patch -> zlen patch + 128 < 2 ^ word_bits ->
  exists sd wd, refdone (start junk (zlen patch) patch) (mkfiles from 0 []) sd wd /\ fin_value sd = Ret (zlen to) /\
    f_to wd = to /\ f_from wd = from /\ a_left sd = [] /\ (c = CompNone -> exists n, a_reader sd = Some (RNone n n)).
Proof.
  intros junk c recs patch from to H (L1 & L2 & L3) Ha Hb Hw. unfold size_limit in *.
  pose proof (apply_recs_pos _ _ _ _ Ha ltac:(lia)) as Hlen. pose proof (recs_size_nonneg recs).
  destruct H as [[-> ->]|(Hl & stream & Hc & ->)].
  - destruct (reader_init_comp (zlen (@nil Z)) c) as (r & Hr & Hrc).
    destruct (header_steps junk (zlen (header_byte TYPE_SEQUENTIAL c :: enc_size 0 ++ [])) c 0 [] (mkfiles from 0 []) r)
      as (s1 & S & A1 & A2 & A3 & A4 & A5 & A6 & A7); auto; try lia; [constructor|].
    change (enc_size 0 ++ []) with (enc_size 0) in S. change (0 <? 0) with false in A1. cbv iota in A1.
    cbn in Ha. inv Ha.
    exists s1, (mkfiles from 0 []). split; [split; auto|]. split.
    + unfold fin_value. rewrite A5, A3. destruct c; subst r; reflexivity.
    + do 3 (split; [auto|]). intros ->. subst r. rewrite A5. eauto.
  - assert (Hrs : 0 < recs_size recs).
    { assert (Hl2 : last_nonempty (mkrec [] [] 0 :: recs)).
      { destruct Hl as (rs & rl & E & Hrl). exists (mkrec [] [] 0 :: rs), rl. rewrite E. auto. }
      destruct (last_nonempty_tail _ _ Hl2) as [[_ X]|[_ X]]; [discriminate X|auto]. }
    assert (Hbs : bytes_ok stream). { inv Hb. apply Forall_app in H3. tauto. }
    destruct (reader_init_comp (zlen stream) c) as (r & Hr & _).
    destruct (header_steps junk _ c (recs_size recs) stream (mkfiles from 0 []) r Hbs ltac:(lia) eq_refl Hw Hr)
      as (s1 & S & A1 & A2 & A3 & A4 & A5 & A6 & A7).
    destruct (Z.ltb_spec 0 (recs_size recs)); [|lia].
    assert (Hw2 : zlen stream + 128 < 2 ^ word_bits).
    { rewrite zlen_cons, zlen_app in Hw. pose proof (zlen_nonneg (enc_size (recs_size recs))). lia. }
    destruct (stream_pulls Hword c (enc_body recs) stream r (zlen stream) Hc Hbs (enc_body_ne recs) Hr eq_refl Hw2)
      as (r1 & P & N & D & Dk).
    unfold enc_body in P. apply pulls_split in P. destruct P as (r2 & i2 & P1 & P2).
    assert (Hrok : rok r) by (eapply rok_init; [exact Hr|apply zlen_nonneg|auto]).
    assert (Hs1 : sat s1 SDfpatchSize 0 (recs_size recs) 0 r stream).
    { unfold sat. auto 20. }
    destruct (ref_dfpatch Hword s1 (mkfiles from 0 []) _ _ _ _ _ Hs1 P1) as (s2 & S2 & Hs2).
    destruct (ref_recs Hword recs s2 from 0 0 (recs_size recs) r2 i2 r1 [] [] to Hs2 P2 Ha Hl ltac:(lia) ltac:(lia) ltac:(lia) L2 L3 ltac:(lia))
      as (sd & wd & R & D2 & D3 & D4 & D5 & D6).
    exists sd, wd. split.
    + eapply refdone_steps; [exact S|]. eapply refdone_steps; eauto.
    + split.
      * unfold fin_value. rewrite D4, D5. unfold common_finalize. cbn. rewrite D. cbn.
        rewrite to_int_small by (unfold INT_MIN, INT_MAX; lia). congruence.
      * do 3 (split; [auto|]). intros ->. destruct Dk as (n & ->). eauto.
Qed.

Lemma seq_patch_comp : forall c recs patch, seq_patch c recs patch -> announced_comp patch = comp_number c.
Proof. intros c recs patch [[_ ->]|(_ & stream & _ & ->)]; destruct c; reflexivity. Qed.

Lemma seq_patch_nz : forall c recs patch, seq_patch c recs patch -> recs_size recs < size_limit -> bytes_ok patch ->
  zlen patch + 128 < 2 ^ word_bits -> body_nz patch.
Proof.
  intros c recs patch H L Hb Hw b l z v z1 l1 E Hk Hz U. unfold size_limit in L.
  destruct H as [[-> ->]|(Hl & stream & Hc & ->)].
  - inv E. destruct (header_enc 0 z [] ltac:(lia) Hz) as (z2 & U2 & _). change (enc_size 0 ++ []) with (enc_size 0) in U2.
    rewrite U in U2. inv U2. eapply nozero_stop; [reflexivity|discriminate].
  - inv E. inv Hb. apply Forall_app in H2. destruct H2 as [_ Hbs].
    destruct (header_enc (recs_size recs) z stream) as (z2 & U2 & _); auto; [pose proof (recs_size_nonneg recs); lia|].
    rewrite U in U2. inv U2.
    assert (c = CompCrle) as -> by (destruct c; [discriminate|auto|discriminate]).
    destruct (stream_pulls Hword CompCrle (enc_body recs) stream (RCrle CIdle) (zlen stream) Hc Hbs (enc_body_ne recs) eq_refl eq_refl)
      as (r1 & _ & N & _); auto.
    rewrite zlen_cons, zlen_app in Hw. pose proof (zlen_nonneg (enc_size (recs_size recs))). lia.
Qed.

Lemma apply_meaning : forall junk c recs patch from to chunks, seq_patch c recs patch -> recs_in_limits recs ->
  apply_recs from 0 recs = Some to -> bytes_ok patch -> zlen patch + 128 < 2 ^ word_bits ->
  concat chunks = patch -> (c = CompNone -> header_complete (hd [] chunks) = true) ->
  exists n, forall fuel, (n <= fuel)%nat ->
    exists s w, c_apply fuel junk (zlen patch) from chunks = Ret (zlen to, s, w) /\ f_to w = to.
Proof.
  intros junk c recs patch from to chunks H L Ha Hb Hw Hc Hh.
  assert (Hk : chunks_ok patch chunks).
  { intros _ X. left. apply Hh. rewrite (seq_patch_comp _ _ _ H) in X. destruct c; [auto|discriminate..]. }
  destruct (ref_patch junk c recs patch from to H L Ha Hb Hw) as (sd & wd & R & F & T & _).
  assert (S : succeeds junk (zlen patch) from chunks (zlen to) to).
  { apply succeeds_ref; rewrite ?Hc; auto; [|lia|].
    - eapply seq_patch_nz; eauto. apply L.
    - exists sd, wd. pose proof (zlen_nonneg to). auto. }
  destruct S as (n & s & w & E & _ & Ht). exists n. intros fuel Hf. exists s, w. split; [|auto].
  unfold c_apply in *. eapply feed_mono; [exact E|discriminate|auto].
Qed.

End Apply.
