(** Whole runs of the sequential applier against the 1 byte reference. *)

From Coq Require Import ZArith List Bool Lia ZifyBool ZifyNat ZifyN.
From Verif Require Import Prelude Lib Heatshrink HsProofs CReader ReaderProofs SizeProofs CSeq Spec SeqSim.
Import ListNotations.
Open Scope Z_scope.

Ltac Zify.zify_post_hook ::= Z.to_euclidean_division_equations.

Section Run.
Context {WBits : WordBits}.
Hypothesis Hword : 32 <= word_bits.

Notation once := (process_once file_env).

(** ** The header size field *)

Definition hdr_byte (z : size_st) (b : Z) : outcome (option size_st) :=
  if z_cons z then
    if is_overflow (z_offset z) then Ret None
    else letm v := acc_bits (z_value z) b (z_offset z) in
         Ret (Some (mksz true v (z_offset z + 7) (z_signed z)))
  else Ret (Some (mksz true (Z.land b 63) 6 (z_signed z))).

Lemma hdr_byte_spec : forall z b, zok z ->
  (z_cons z = true /\ z_offset z = 27 /\ hdr_byte z b = Ret None) \/
  (exists z1, hdr_byte z b = Ret (Some z1) /\ z_cons z1 = true /\ zok z1 /\ (S (zneed z1) = zneed z)%nat
     /\ 0 <= z_value z1 < 2 ^ 27 /\
     (z_cons z = true -> z_offset z <> 27 /\ z_offset z1 = z_offset z + 7 /\
        z_value z1 = z_value z + b mod 128 * 2 ^ z_offset z) /\
     (z_cons z = false -> z_offset z1 = 6 /\ z_value z1 = b mod 64)).
Proof.
  intros z b Hz. unfold hdr_byte. destruct (z_cons z) eqn:Ec.
  - destruct (Hz Ec) as (Hm & Ho & Hv).
    destruct (is_overflow (z_offset z)) eqn:Eo.
    + left. unfold is_overflow in Eo. split; [auto|]. split; [lia|reflexivity].
    + right. assert (Ho' : z_offset z <= 20) by (unfold is_overflow in Eo; lia).
      destruct (acc_bits_ok (z_value z) b (z_offset z)) as [A B]; [lia|lia|].
      rewrite A. cbn [obind]. eexists. split; [reflexivity|]. cbn [z_cons z_offset z_value z_signed].
      assert (2 ^ (z_offset z + 7) <= 2 ^ 27) by (apply Z.pow_le_mono_r; lia).
      split; [auto|]. split; [intros _; cbn; split; [lia|split; [lia|exact B]]|].
      split; [unfold zneed; cbn [z_cons z_offset]; rewrite Ec; lia|]. split; [lia|].
      split; [intros _; split; [lia|auto]|discriminate].
  - right. eexists. split; [reflexivity|]. cbn [z_cons z_offset z_value z_signed]. rewrite land_63.
    pose proof (Z.mod_pos_bound b 64 ltac:(lia)).
    split; [auto|]. split; [intros _; cbn; split; [reflexivity|split; [lia|change (2 ^ 6) with 64; lia]]|].
    split; [unfold zneed; cbn; rewrite Ec; reflexivity|]. split; [lia|]. split; [discriminate|].
    auto.
Qed.

Lemma uhs_unfold : forall b left z, unpack_header_size (b :: left) z =
  letm o := hdr_byte z b in
  match o with
  | None => Ret (- E_CORRUPT_PATCH_OVERFLOW, 0, z, left)
  | Some z1 => if Z.land b 128 =? 0
               then Ret (0, z_value z1, mksz false (z_value z1) (z_offset z1) (z_signed z1), left)
               else unpack_header_size left z1
  end.
Proof. reflexivity. Qed.

Lemma uhs_app : forall left z f, zok z ->
  (exists z1, unpack_header_size left z = Ret (1, 0, z1, []) /\ zok z1 /\
     unpack_header_size (left ++ f) z = unpack_header_size f z1) \/
  (exists v z1 l1 used, unpack_header_size left z = Ret (0, v, z1, l1) /\ 0 <= v < 2 ^ 27 /\
     left = used ++ l1 /\ unpack_header_size (left ++ f) z = Ret (0, v, z1, l1 ++ f)) \/
  (exists z1 l1, unpack_header_size left z = Ret (- E_CORRUPT_PATCH_OVERFLOW, 0, z1, l1) /\
     unpack_header_size (left ++ f) z = Ret (- E_CORRUPT_PATCH_OVERFLOW, 0, z1, l1 ++ f)).
Proof.
  induction left as [|b left IH]; intros z f Hz.
  - left. exists z. cbn. auto.
  - cbn [app]. rewrite !uhs_unfold.
    destruct (hdr_byte_spec z b Hz) as [(_ & _ & E)|(z1 & E & Hc & Hz1 & _ & Hv & _)]; rewrite E; cbn [obind].
    + right; right. eauto.
    + destruct (Z.land b 128 =? 0).
      * right; left. exists (z_value z1), (mksz false (z_value z1) (z_offset z1) (z_signed z1)), left, [b]. auto.
      * destruct (IH z1 f Hz1) as [(z2 & A & B & C)|[(v & z2 & l1 & used & A & B & C & D)|(z2 & l1 & A & B)]].
        -- left. eauto.
        -- right; left. exists v, z2, l1, (b :: used). cbn. rewrite C at 2. auto.
        -- right; right. eauto.
Qed.

(** ** Readers that never deliver zero bytes *)

Lemma nozero_none : forall ps po i, nozero (RNone ps po) i.
Proof.
  intros ps po i o r1 i1 r2 i2 P. 
  assert (X : exists ps po, r1 = RNone ps po).
  { remember (RNone ps po) as r. revert ps po Heqr. induction P; intros ps po ->; [eauto|].
    unfold pull, decompress, none_decompress in H.
    destruct (ps <? _); [discriminate|]. destruct i; [discriminate|]. inv H. eapply IHP; reflexivity. }
  destruct X as (ps1 & po1 & ->). unfold pull, decompress, none_decompress.
  destruct (ps1 <? _); [discriminate|]. destruct i1; [discriminate|]. intros E. inv E.
  rewrite zlen_cons in H0. pose proof (zlen_nonneg i1). rewrite ztake_cons in H0 by lia. discriminate.
Qed.

Lemma hs_loop_nonempty : forall left d n out o d1 l1, 1 <= n ->
  hs_decompress_loop left d n out = Ret (0, o, d1, l1) -> o <> [].
Proof.
  induction left; intros d n out o d1 l1 Hn E; rewrite hs_loop_unfold in E;
    apply obind_ret in E; destruct E as ([d2 o1] & A & E); cbv zeta in E;
    (destruct (Z.eqb_spec (n - zlen (out ++ o1)) 0);
     [inv E; intros X; rewrite X in *; change (zlen (@nil Z)) with 0 in *; lia|]).
  - destruct (Z.eqb_spec (zlen (out ++ o1)) 0); inv E. intros X. rewrite X in *.
    change (zlen (@nil Z)) with 0 in *. lia.
  - apply obind_ret in E. destruct E as (od & B & E). destruct od; [eauto|inv E].
Qed.

Lemma nozero_hs : forall h i, nozero (RHs h) i.
Proof.
  intros h i o r1 i1 r2 i2 P.
  assert (X : exists h, r1 = RHs h).
  { remember (RHs h) as r. revert h Heqr. induction P; intros h ->; [eauto|].
    unfold pull in H. cbn [decompress] in H. apply obind_ret in H. destruct H as ([[[a b] c1] d] & A & B).
    inv B. eauto. }
  destruct X as (h1 & ->). unfold pull. cbn [decompress]. intros E.
  apply obind_ret in E. destruct E as ([[[a b] c1] d] & A & B). inv B.
  unfold hs_decompress in A. destruct (hr_window h1 =? -1).
  - destruct i1; [discriminate|]. destruct (negb _ || negb _); [discriminate|]. cbn [hr_ptr hr_dec] in A.
    apply obind_ret in A. destruct A as ([[[r o2] d2] l3] & A & E). inv E.
    eapply hs_loop_nonempty in A; [congruence|lia].
  - destruct (hr_ptr h1); [|discriminate]. destruct (hr_dec h1); [|discriminate].
    apply obind_ret in A. destruct A as ([[[r o2] d2] l3] & A & E). inv E.
    eapply hs_loop_nonempty in A; [congruence|lia].
Qed.

(** ** Initial states *)

(** No empty segment in the crle body that follows the header. *)
Definition body_nz (i : list Z) : Prop :=
  forall b l z v z1 l1, i = b :: l -> Z.land b 15 = 2 -> z_cons z = false ->
    unpack_header_size l z = Ret (0, v, z1, l1) -> nozero (RCrle CIdle) l1.

Definition isrel (f : list Z) (s s0 : ap) : Prop :=
  a_state s = SInit /\ a_state s0 = SInit /\ a_to_init s = a_to_init s0 /\
  a_patch_size s = a_patch_size s0 /\ a_to_offset s = 0 /\ a_to_offset s0 = 0 /\
  a_from_offset s = 0 /\ a_from_offset s0 = 0 /\ a_chunk_size s = a_chunk_size s0 /\
  a_rsize s = a_rsize s0 /\ a_reader s = None /\ a_reader s0 = None /\
  bytes_ok (a_left s) /\ bytes_ok (a_left s0) /\
  a_patch_size s0 + 128 < 2 ^ word_bits /\ zlen (a_left s0) <= a_csize s0 <= a_patch_size s0 /\
  if a_to_init s0 then
    a_compression s = a_compression s0 /\ zok (a_size s) /\ zok (a_size s0) /\
    unpack_header_size (a_left s ++ f) (a_size s) = unpack_header_size (a_left s0) (a_size s0) /\
    (a_csize s + zlen f = a_csize s0 \/ a_compression s0 <> 0 \/ a_left s ++ f = []) /\
    (a_compression s0 <> 0 \/ f = [] \/
       forall v z1 l1, unpack_header_size (a_left s) (a_size s) <> Ret (1, v, z1, l1)) /\
    (a_compression s0 = 2 -> forall v z1 l1,
       unpack_header_size (a_left s ++ f) (a_size s) = Ret (0, v, z1, l1) ->
       nozero (RCrle CIdle) l1)
  else
    a_left s ++ f = a_left s0 /\ a_csize s = zlen (a_left s) /\ a_csize s0 = zlen (a_left s0) /\
    ((exists b l, a_left s0 = b :: l /\ Z.land b 15 <> 0) \/ f = [] \/
       exists b l, a_left s = b :: l /\ forall z v z1 l1, z_cons z = false ->
         unpack_header_size l z <> Ret (1, v, z1, l1)) /\
    body_nz (a_left s0) /\ a_size s = a_size s0.

Definition anyrel (f : list Z) (s s0 : ap) : Prop := isrel f s s0 \/ srel f s s0.

Definition averdict (f : list Z) (s0 : ap) (w : files) (out : outcome (Z * ap * files)) : Prop :=
  (exists s' w' s0', out = Ret (0, s', w') /\ steps1 s0 w s0' w' /\ anyrel f s' s0') \/
  (exists s', out = Ret (1, s', w) /\ anyrel f s' s0 /\ a_left s' = [] /\ a_state s0 <> SDone /\
     (f = [] -> forall sd wd, ~ refdone s0 w sd wd)) \/
  ((out = Undef \/ exists e s' w', out = Ret (e, s', w') /\ e < 0 /\ e <> - E_ALREADY_DONE) /\
   forall sd wd, ~ refdone s0 w sd wd).

Lemma rok_init : forall ps c r, reader_init ps c = Some r -> 0 <= ps -> ps + 128 < 2 ^ word_bits -> rok r.
Proof.
  intros ps c r E A B. unfold reader_init in E.
  destruct (c =? 0); [inv E; cbn; lia|]. destruct (c =? 2); [inv E; cbn; auto|].
  destruct (c =? 4); inv E. cbn. auto.
Qed.

Lemma sim_init : forall f s s0 w, bytes_ok f -> isrel f s s0 -> (a_left s <> [] \/ f = []) ->
  averdict f s0 w (once 128 s w).
Proof.
  intros f s s0 w Hf (A1 & A2 & A3 & A4 & A5 & A6 & A7 & A8 & A9 & A10 & A11 & A12 & A13 & A14 & A15 & A16 & A17) Hl.
  assert (L : forall B s, a_state s = SInit -> once B s w =
    letm (res, s1) := process_init s in Ret (res, if res <? 0 then set_st s1 SFailed else s1, w)).
  { intros B s' X. unfold process_once. rewrite X. destruct (process_init s') as [[res s1]| |]; reflexivity. }
  assert (Hnd : a_state s0 <> SDone) by congruence.
  rewrite (L _ _ A1). unfold process_init. rewrite A3. destruct (a_to_init s0) eqn:Eti.
  - (* to_size *)
    destruct A17 as (B1 & B2 & B3 & B4 & B5 & B6 & B7).
    assert (L0 : once 1 s0 w = letm (res, s1) := process_init_to_size s0 in
                   Ret (res, if res <? 0 then set_st s1 SFailed else s1, w)).
    { rewrite (L _ _ A2). unfold process_init. rewrite Eti. reflexivity. }
    unfold process_init_to_size in *.
    destruct (uhs_app (a_left s) (a_size s) f B2)
      as [(z1 & P & Q & R)|[(v & z1 & l1 & used & P & Q & R & S)|(z1 & l1 & P & R)]]; rewrite P.
    + (* needs more *)
      cbn [obind]. change (negb (1 =? 0)) with true. cbv iota zeta. cbn [obind]. change (1 <? 0) with false. cbv iota.
      right; left. eexists. split; [reflexivity|]. split; [|split; [reflexivity|split; [auto|]]].
      * left. unfold isrel. rewrite Eti. cbn.
        do 3 (split; [auto; congruence|]). do 9 (split; [auto|]). split; [constructor|]. do 3 (split; [auto|]).
        split; [auto|]. split; [auto|]. split; [auto|]. split; [congruence|].
        assert (K : a_compression s0 <> 0 \/ f = []).
        { destruct B6 as [|[|B6]]; auto. exfalso. eapply B6. exact P. }
        split; [|split].
        -- destruct K; auto.
        -- destruct K; auto.
        -- intros X v z2 l2 Y. eapply B7; auto. rewrite R. exact Y.
      * intros ->. rewrite app_nil_r in *. apply not_done_of; auto. intros s1 w1. rewrite L0.
        rewrite <- B4, P. cbn [obind]. discriminate.
    + (* complete *)
      rewrite <- B4, S in L0. cbn [obind] in *. change (negb (0 =? 0)) with false in *. cbv iota zeta in *.
      assert (Hps : reader_init (wrap (a_patch_size s - (a_csize s - zlen l1))) (a_compression s) =
                    reader_init (wrap (a_patch_size s0 - (a_csize s0 - zlen (l1 ++ f)))) (a_compression s0)).
      { rewrite A4, B1, zlen_app.
        destruct B5 as [B5|[B5|B5]].
        - replace (a_csize s0 - (zlen l1 + zlen f)) with (a_csize s - zlen l1) by lia. reflexivity.
        - unfold reader_init. destruct (Z.eqb_spec (a_compression s0) 0); [congruence|reflexivity].
        - apply app_eq_nil in B5. destruct B5 as [X Y]. rewrite X in R. symmetry in R.
          apply app_eq_nil in R. destruct R as [-> ->]. rewrite X in P. cbn in P. discriminate. }
      unfold chunk_offset in *. cbn [a_patch_size a_csize a_left a_compression a_reader a_rsize set_header] in *.
      rewrite Hps.
      assert (Hsuf : zlen (l1 ++ f) <= a_csize s0).
      { assert (zlen (l1 ++ f) <= zlen (a_left s0)); [|lia].
        rewrite B4 in S. destruct (uhs_app (a_left s0) (a_size s0) [] B3)
          as [(z2 & X & _ & _)|[(v2 & z2 & l2 & used2 & X & _ & Y & _)|(z2 & l2 & X & _)]];
          rewrite S in X; inv X. rewrite Y, (zlen_app used2). pose proof (zlen_nonneg used2). lia. }
      destruct (reader_init _ (a_compression s0)) as [r|] eqn:Er.
      2:{ right; right. split; [right; do 3 eexists; split; [reflexivity|split; [reflexivity|discriminate]]|].
          apply not_done_of; auto. intros s1 w1. rewrite L0. cbn [obind]. discriminate. }
      destruct (v <? 0) eqn:Ev; [lia|]. cbn [obind] in *. change (0 <? 0) with false in *. cbv iota in *.
      left. do 3 eexists. split; [reflexivity|]. split; [apply steps1_one; exact L0|].
      right. unfold srel.
      cbn [a_state a_to_offset a_to_size a_from_offset a_chunk_size a_reader
             a_rsize a_left set_st set_to_size set_reader set_header].
      rewrite A5, A6, A7, A8, A10.
      pose proof (pow2_32_le word_bits Hword).
      split; [auto|]. split; [auto|]. split; [auto|]. split; [auto|]. split; [auto|]. split; [lia|].
      split; [unfold INT_MIN, INT_MAX; lia|].
      exists r, r. split; [auto|]. split; [auto|].
      destruct (0 <? v); [|reflexivity].
      assert (Hr : rok r).
      { eapply rok_init; [exact Er|apply wrap_range; auto|].
        rewrite wrap_small; pose proof (zlen_nonneg (l1 ++ f)); lia. }
      assert (Hnz : nozero r (l1 ++ f)).
      { unfold reader_init in Er. destruct (a_compression s0 =? 0); [inv Er; apply nozero_none|].
        destruct (Z.eqb_spec (a_compression s0) 2); [inv Er; eapply B7; eauto|].
        destruct (a_compression s0 =? 4); inv Er. apply nozero_hs. }
      assert (Hl1 : bytes_ok l1) by (rewrite R in A13; apply Forall_app in A13; tauto).
      unfold szrel. do 2 (split; [auto|]). split; [auto|]. split; [apply Forall_app; auto|].
      split; [discriminate|]. split; [discriminate|]. auto.
    + (* overflow *)
      rewrite <- B4, R in L0. cbn [obind] in *.
      right; right. split; [right; do 3 eexists; split; [reflexivity|split; [reflexivity|discriminate]]|].
      apply not_done_of; auto. intros s1 w1. rewrite L0. discriminate.
  - (* fixed header *)
    destruct A17 as (B1 & B2 & B3 & B4 & B5 & B6).
    assert (L0 : once 1 s0 w = letm (res, s1) := process_init_fixed_header s0 in
                   Ret (res, if res <? 0 then set_st s1 SFailed else s1, w)).
    { rewrite (L _ _ A2). unfold process_init. rewrite Eti. reflexivity. }
    unfold process_init_fixed_header in *.
    destruct (a_left s) as [|b l] eqn:El.
    { destruct Hl as [Hl|Hl]; [congruence|]. subst f. cbn in B1. rewrite <- B1 in L0. cbn [obind] in *.
      right; right. split; [right; do 3 eexists; split; [reflexivity|split; [reflexivity|discriminate]]|].
      apply not_done_of; auto. intros s1 w1. rewrite L0. discriminate. }
    rewrite <- B1 in L0. cbn [app] in *. 
    destruct (negb (Z.land (Z.shiftr b 4) 7 =? 0)).
    + cbn [obind] in *. right; right. split; [right; do 3 eexists; split; [reflexivity|split; [reflexivity|discriminate]]|].
      apply not_done_of; auto. intros s1 w1. rewrite L0. discriminate.
    + cbn [obind] in *. change (0 <? 0) with false in *. cbv iota in *.
      left. do 3 eexists. split; [reflexivity|]. split; [apply steps1_one; exact L0|].
      left. unfold isrel. cbn. do 3 (split; [auto|]). do 9 (split; [auto|]).
      rewrite <- B1 in A14. inv A13. inv A14. do 3 (split; [auto|]).
      assert (B3' : a_csize s0 = 1 + zlen (l ++ f)) by (rewrite B3, <- B1; apply zlen_cons).
      split; [lia|]. split; [auto|].
      split; [discriminate|]. split; [discriminate|]. split; [rewrite B6; reflexivity|].
      rewrite B2, zlen_cons, B3', zlen_app. split; [left; lia|].
      rewrite <- B1 in B4.
      split.
      * destruct B4 as [(b' & l' & X & Y)|[X|(b' & l' & X & Y)]]; auto.
        -- inv X. auto.
        -- inv X. right; right. intros v z1 l1. apply Y. reflexivity.
      * intros X v z1 l1 Y. eapply B5; [symmetry; exact B1|exact X| |exact Y]. reflexivity.
Qed.

Lemma sim_any : forall f s s0 w, bytes_ok f -> anyrel f s s0 -> a_state s0 <> SDone ->
  (a_left s <> [] \/ f = []) -> averdict f s0 w (once 128 s w).
Proof.
  intros f s s0 w Hf [H|H] Hd Hl; [apply sim_init; auto|].
  destruct (sim_once Hword f s s0 w Hf H Hd)
    as [(s' & w' & s0' & A & B & C)|[(s' & A & B & C)|(A & B)]].
  - left. exists s', w', s0'. unfold anyrel. auto.
  - right; left. exists s'. unfold anyrel. auto.
  - right; right. auto.
Qed.

Lemma anyrel_state : forall f s s0, anyrel f s s0 -> a_state s = a_state s0.
Proof. intros f s s0 [(A & B & _)|(A & _)]; congruence. Qed.

(** ** Loops *)

Definition bad (out : outcome (Z * ap * files)) : Prop :=
  out = Undef \/ exists e s' w', out = Ret (e, s', w') /\ e < 0 /\ e <> - E_ALREADY_DONE.

Lemma loop_sim : forall fuel f s s0 w res, bytes_ok f -> anyrel f s s0 ->
  (res = 0 \/ res = 1 /\ a_left s = []) ->
  process_loop file_env fuel 128 res s w <> OutOfFuel ->
  (exists res' s' w' s0', process_loop file_env fuel 128 res s w = Ret (res', s', w') /\
     (res' = 0 \/ res' = 1 \/ res' = - E_ALREADY_DONE) /\
     steps1 s0 w s0' w' /\ anyrel f s' s0' /\ (a_left s' = [] \/ a_state s0' = SDone)) \/
  bad (process_loop file_env fuel 128 res s w) /\ forall sd wd, ~ refdone s0 w sd wd.
Proof.
  induction fuel; intros f s s0 w res Hf Hs Hres Ho.
  - cbn in *. destruct (a_left s) eqn:El.
    + left. exists res, s, w, s0. split; [auto|]. split; [lia|]. split; [constructor|]. auto.
    + destruct Hres as [->|[_ X]]; [|discriminate]. cbn in Ho. congruence.
  - cbn [process_loop] in *. destruct (a_left s) eqn:El.
    { left. exists res, s, w, s0. split; [auto|]. split; [lia|]. split; [constructor|]. auto. }
    destruct Hres as [->|[_ X]]; [|discriminate].
    change (0 <? 0) with false in *. cbv iota in *.
    destruct (a_state s0) eqn:Es0.
    8:{ rewrite once_done in * by (rewrite (anyrel_state _ _ _ Hs); auto). cbn [obind] in *.
        left. exists (- E_ALREADY_DONE), s, w, s0. split.
        - destruct fuel; cbn; rewrite El; reflexivity.
        - split; [auto|]. split; [constructor|]. auto. }
    all: assert (Hd : a_state s0 <> SDone) by congruence.
    all: destruct (sim_any f s s0 w Hf Hs Hd ltac:(left; congruence))
      as [(s' & w' & s0' & A & B & C)|[(s' & A & B & C & D & E)|([A|(e & s' & w' & A & B & C)] & D)]].
    all: rewrite A in *; cbn [obind] in *.
    all: try (right; split; [left; reflexivity|exact D]).
    all: try (right; split; [|exact D]; right; exists e, s', w'; split; [|auto];
         destruct fuel; cbn [process_loop]; destruct (a_left s'); auto;
         assert (e <? 0 = true) as -> by lia; reflexivity).
    all: try (left; exists 1, s', w, s0; split; [destruct fuel; cbn [process_loop]; rewrite C; reflexivity|];
         split; [auto|]; split; [constructor|]; auto).
    all: destruct (IHfuel f s' s0' w' 0 Hf C ltac:(auto) Ho) as [(r2 & s2 & w2 & s02 & P & Q & R & S)|[P Q]];
      [left; exists r2, s2, w2, s02; split; [auto|]; split; [auto|]; split; [eapply steps1_trans; eauto|auto]
      |right; split; [auto|]; intros sd wd Hr; apply (Q sd wd); eapply refdone_step; eauto].
Qed.

Lemma finalize_sim : forall fuel s s0 w, anyrel [] s s0 ->
  finalize_loop file_env fuel 128 s w <> OutOfFuel ->
  (exists s' w' s0', finalize_loop file_env fuel 128 s w = Ret (- E_ALREADY_DONE, s', w') /\
     steps1 s0 w s0' w' /\ anyrel [] s' s0' /\ a_state s0' = SDone) \/
  ((finalize_loop file_env fuel 128 s w = Undef \/
    exists e s' w', finalize_loop file_env fuel 128 s w = Ret (e, s', w') /\
      e <> 0 /\ e <= 1 /\ e <> - E_ALREADY_DONE) /\
   forall sd wd, ~ refdone s0 w sd wd).
Proof.
  induction fuel; intros s s0 w Hs Ho; [cbn in Ho; congruence|]. cbn [finalize_loop] in *.
  destruct (a_state s0) eqn:Es0.
  8:{ rewrite once_done in * by (rewrite (anyrel_state _ _ _ Hs); auto). cbn [obind] in *.
      left. exists s, w, s0. split; [reflexivity|]. split; [constructor|]. auto. }
  all: assert (Hd : a_state s0 <> SDone) by congruence.
  all: destruct (sim_any [] s s0 w ltac:(constructor) Hs Hd ltac:(auto))
      as [(s' & w' & s0' & A & B & C)|[(s' & A & B & C & D & E)|([A|(e & s' & w' & A & B & C)] & D)]].
  all: rewrite A in *; cbn [obind] in *.
  all: try (right; split; [left; reflexivity|exact D]).
  all: try (right; split; [|exact D]; right; exists e, s', w'; split; [|lia];
         assert (e =? 0 = false) as -> by lia; reflexivity).
  all: try (right; split; [|exact (E eq_refl)]; right; exists 1, s', w; split; [reflexivity|];
         split; [lia|]; split; [lia|discriminate]).
  all: change (0 =? 0) with true in *; cbv iota in *.
  all: destruct (IHfuel s' s0' w' C Ho) as [(s2 & w2 & s02 & P & Q & R & S)|[P Q]];
      [left; exists s2, w2, s02; split; [auto|]; split; [eapply steps1_trans; eauto|auto]
      |right; split; [auto|]; intros sd wd Hr; apply (Q sd wd); eapply refdone_step; eauto].
Qed.

Lemma anyrel_rechunk : forall c f s s0 x, bytes_ok c -> anyrel (c ++ f) s s0 ->
  a_left s = [] \/ a_state s0 = SDone ->
  anyrel f (set_chunk (set_patch_offset s x) c) s0.
Proof.
  intros c f s s0 x Hc [H|H] Hl.
  - left. destruct H as (A1 & A2 & A3 & A4 & A5 & A6 & A7 & A8 & A9 & A10 & A11 & A12 & A13 & A14 & A15 & A16 & A17).
    destruct Hl as [Hl|Hl]; [|congruence].
    unfold isrel. cbn. do 12 (split; [auto|]). split; [auto|]. do 3 (split; [auto|]).
    rewrite Hl in A17. cbn [app] in A17. destruct (a_to_init s0).
    + destruct A17 as (B1 & B2 & B3 & B4 & B5 & B6 & B7).
      assert (K : a_compression s0 <> 0 \/ c ++ f = []).
      { destruct B6 as [|[|B6]]; auto. exfalso. eapply B6. reflexivity. }
      do 4 (split; [auto|]). split; [tauto|]. split; [|auto].
      destruct K as [|K]; [auto|]. apply app_eq_nil in K. tauto.
    + destruct A17 as (B1 & B2 & B3 & B4 & B5 & B6).
      do 3 (split; [auto|]). split; [|auto].
      destruct B4 as [|[B4|(b & l & X & _)]]; [auto| |discriminate].
      apply app_eq_nil in B4. tauto.
  - right. destruct H as (A1 & A2 & A3 & A4 & A5 & A6 & A7 & r & r0 & A8 & A9 & A10).
    unfold srel. cbn. do 7 (split; [auto|]). exists r, r0. do 2 (split; [auto|]).
    destruct Hl as [Hl|Hl]; [rewrite Hl in A10|rewrite Hl in *; auto].
    destruct (a_state s0); auto;
      try (destruct A10 as (B1 & B2 & B3 & B4 & B5 & B6 & B7 & B8 & B9);
           unfold szrel; do 8 (split; [auto|]); auto);
      (destruct A10 as (B0 & B1 & B2 & B3 & B4 & B5 & B6 & B7 & B8 & B9);
       split; [auto|]; unfold dtrel; do 8 (split; [auto|]); auto).
Qed.

(** ** The whole protocol *)

Definition fin_value (sd : ap) : outcome Z :=
  common_finalize (- E_ALREADY_DONE) (a_reader sd) (a_to_size sd).

Lemma common_finalize_neg : forall e r t v, e <> 0 -> e <= 1 -> e <> - E_ALREADY_DONE ->
  common_finalize e r t = Ret v -> v < 0.
Proof.
  intros e r t v H0 H1 H2 E. unfold common_finalize in E. cbv zeta in E.
  set (e1 := if e =? 1 then - E_NOT_ENOUGH_PATCH_DATA else e) in *.
  assert (He1 : e1 < 0 /\ e1 <> - E_ALREADY_DONE).
  { subst e1. destruct (Z.eqb_spec e 1); [split; [reflexivity|discriminate]|split; [lia|auto]]. }
  destruct (Z.eqb_spec e1 (- E_ALREADY_DONE)); [tauto|].
  apply obind_ret in E. destruct E as (r3 & A & B).
  assert (r3 = e1).
  { destruct r as [r|]; [|inv A; auto]. apply obind_ret in A. destruct A as (d & A & C). inv C.
    destruct (Z.eqb_spec e1 0); lia. }
  subst r3. destruct (Z.eqb_spec e1 0); inv B; lia.
Qed.

Lemma anyrel_done : forall f s s0, anyrel f s s0 -> a_state s0 = SDone ->
  a_reader s = a_reader s0 /\ a_to_size s = a_to_size s0.
Proof.
  intros f s s0 [(A & B & _)|(A & B & C & D & E & F & G & r & r0 & H & I & J)] Hd; [congruence|].
  rewrite Hd in J. subst r0. split; congruence.
Qed.

(** The state in which the next piece is processed (or the patch finalized). *)
Definition ready (chunks : list (list Z)) (s s0 : ap) : Prop :=
  match chunks with
  | [] => anyrel [] (set_chunk s []) s0
  | c :: cs => anyrel (concat cs) (set_chunk (set_patch_offset s (wrap (a_patch_offset s + zlen c))) c) s0
  end.

Lemma anyrel_ready : forall chunks s s0, Forall bytes_ok chunks -> anyrel (concat chunks) s s0 ->
  a_left s = [] \/ a_state s0 = SDone -> ready chunks s s0.
Proof.
  intros [|c cs] s s0 Hc Hs Hl; cbn [ready concat] in *.
  - assert (E : set_chunk s [] = set_chunk (set_patch_offset s (a_patch_offset s)) []) by (destruct s; reflexivity).
    rewrite E. apply anyrel_rechunk; auto. constructor.
  - inv Hc. apply anyrel_rechunk; auto.
Qed.

Lemma feed_sim : forall chunks fuel s s0 w, Forall bytes_ok chunks -> ready chunks s s0 ->
  feed file_env fuel 128 s w chunks <> OutOfFuel ->
  (exists sd wd s', refdone s0 w sd wd /\
     feed file_env fuel 128 s w chunks = letm v := fin_value sd in Ret (v, s', wd)) \/
  ((forall sd wd, ~ refdone s0 w sd wd) /\
   (feed file_env fuel 128 s w chunks = Undef \/
    exists e s' w', feed file_env fuel 128 s w chunks = Ret (e, s', w') /\ e < 0)).
Proof.
  induction chunks as [|c cs IH]; intros fuel s s0 w Hc Hs Ho.
  - cbn [feed concat] in *. unfold finalize in *. cbv zeta in *.
    assert (Hof : finalize_loop file_env fuel 128 (set_chunk s []) w <> OutOfFuel).
    { intros X. rewrite X in Ho. cbn in Ho. congruence. }
    destruct (finalize_sim fuel _ s0 w Hs Hof) as [(s' & w' & s0' & A & B & C & D)|([A|(e & s' & w' & A & B)] & D)];
      rewrite A in *; cbn [obind] in *.
    + left. exists s0', w', s'. split; [split; auto|]. destruct (anyrel_done _ _ _ C D) as [-> ->]. reflexivity.
    + right. auto.
    + right. split; [auto|]. destruct (common_finalize e (a_reader s') (a_to_size s')) as [v| |] eqn:E; cbn [obind] in *.
      * right. exists v, s', w'. split; [auto|]. destruct B as (B1 & B2 & B3). eapply common_finalize_neg; eauto.
      * auto.
      * congruence.
  - cbn [feed concat] in *. inv Hc. unfold process in *. cbv zeta in *.
    set (s1 := set_chunk (set_patch_offset s (wrap (a_patch_offset s + zlen c))) c) in *.
    assert (Hs1 : anyrel (concat cs) s1 s0) by exact Hs.
    assert (Hf : bytes_ok (concat cs)).
    { clear -H2. induction H2; cbn; [constructor|apply Forall_app; auto]. }
    assert (Hof : process_loop file_env fuel 128 0 s1 w <> OutOfFuel).
    { intros X. rewrite X in Ho. cbn in Ho. congruence. }
    destruct (loop_sim fuel (concat cs) s1 s0 w 0 Hf Hs1 ltac:(auto) Hof)
      as [(res' & s' & w' & s0' & A & B & C & D & E)|[[A|(e & s' & w' & A & B & C)] D]];
      rewrite A in *; cbn [obind] in *.
    + assert (Hz : (if (res' =? 1) || (res' =? - E_ALREADY_DONE) then 0 else res') = 0).
      { destruct B as [->|[->| ->]]; reflexivity. }
      rewrite Hz in *. change (0 =? 0) with true in *. cbv iota in *.
      destruct (IH fuel s' s0' w' H2 (anyrel_ready _ _ _ H2 D E) Ho) as [(sd & wd & s2 & P & Q)|[P Q]].
      * left. exists sd, wd, s2. split; [|auto]. eapply refdone_steps; eauto.
      * right. split; [|auto]. intros sd wd X. apply (P sd wd). eapply refdone_step; eauto.
    + right. auto.
    + assert (Hz : (if (e =? 1) || (e =? - E_ALREADY_DONE) then 0 else e) = e).
      { assert (e =? 1 = false) as -> by lia. assert (e =? - E_ALREADY_DONE = false) as -> by (apply Z.eqb_neq; auto).
        reflexivity. }
      rewrite Hz in *. assert (e =? 0 = false) as X by lia. rewrite X in *.
      right. split; [auto|].
      destruct (finalize file_env fuel 128 s' w') as [[[r2 s2] w2]| |]; cbn [obind] in *;
        [right; exists e, s2, w2; auto|left; auto|congruence].
Qed.

End Run.
