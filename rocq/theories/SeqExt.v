(** More patch bytes than needed: what the reference does with them. *)

From Coq Require Import ZArith List Bool Lia ZifyBool ZifyNat ZifyN.
From Verif Require Import Prelude Lib Heatshrink HsProofs CReader ReaderProofs SizeProofs CSeq Spec HsSpec SeqSim SeqRun SeqTerm SeqMeaning SeqApply.
Import ListNotations.
Open Scope Z_scope.

Ltac Zify.zify_post_hook ::= Z.to_euclidean_division_equations.

Section Ext.
Context {WBits : WordBits}.
Hypothesis Hword : 32 <= word_bits.
Variable f : list Z.
Variable d : Z.
Hypothesis Hf : bytes_ok f.
Hypothesis Hd : 0 <= d.

Notation once := (process_once file_env).

Ltac fields :=
  cbv beta iota zeta delta [set_st set_left set_chunk set_patch_offset set_header set_reader
    set_to_size set_from_offset set_chunk_size set_to_offset a_patch_size a_state a_to_init
    a_compression a_patch_offset a_to_offset a_to_size a_from_offset a_chunk_size a_reader
    a_rsize a_csize a_left a_size] in *.

(** The same reader for a patch that is announced [d] bytes longer. *)
Definition rext (r : reader) : reader :=
  match r with RNone ps po => RNone (ps + d) po | _ => r end.

Definition rsmall (r : reader) : Prop :=
  match r with RNone ps po => ps + d + 128 < 2 ^ word_bits | _ => True end.

Lemma pull_ext : forall r c b r' c', rok r -> rsmall r -> bytes_ok c -> pull r c = Ret (0, [b], r', c') ->
  pull (rext r) (c ++ f) = Ret (0, [b], rext r', c' ++ f) /\ rsmall r'.
Proof.
  intros r c b r' c' Hr Hs Hc E. destruct r as [ps po|s|h].
  - cbn [rext]. unfold pull in *. cbn [decompress] in *. unfold none_decompress in *.
    destruct (Z.ltb_spec ps (wrap (po + 1))); [discriminate|].
    destruct (Z.ltb_spec (ps + d) (wrap (po + 1))); [lia|].
    destruct c as [|x c]; [discriminate|]. cbn [app]. inv E.
    rewrite !zlen_cons in *. pose proof (zlen_nonneg c). pose proof (zlen_nonneg (c ++ f)).
    rewrite (Z.min_l 1 (1 + zlen c)) in * by lia. rewrite (Z.min_l 1 (1 + zlen (c ++ f))) by lia.
    change (ztake 1 (x :: c)) with [x] in *. change (ztake 1 (x :: c ++ f)) with [x].
    change (zdrop 1 (x :: c)) with c. change (zdrop 1 (x :: c ++ f)) with (c ++ f). split; [reflexivity|exact Hs].
  - cbn [rext]. rewrite (pull_exact _ _ _ _ _ f Hr Hc Hf E).
    unfold pull in E. cbn [decompress] in E. apply obind_ret in E. destruct E as ([[[a1 a2] a3] a4] & _ & E). inv E. cbn. auto.
  - cbn [rext]. rewrite (pull_exact _ _ _ _ _ f Hr Hc Hf E).
    unfold pull in E. cbn [decompress] in E. apply obind_ret in E. destruct E as ([[[a1 a2] a3] a4] & _ & E). inv E. cbn. auto.
Qed.

Lemma us_ext : forall K z r i v z1 r1 i1, rok r -> rsmall r -> bytes_ok i -> us K z r i = Ret (0, v, z1, r1, i1) ->
  us K z (rext r) (i ++ f) = Ret (0, v, z1, rext r1, i1 ++ f) /\ rok r1 /\ rsmall r1 /\ bytes_ok i1.
Proof.
  induction K; intros z r i v z1 r1 i1 Hr Hs Hi E; [discriminate|]. cbn [us] in *.
  destruct (pull1_spec Hword r i Hr Hi) as (res & out & r' & i' & P & Hr' & Hi' & _ & _ & Hcase).
  rewrite P in E. cbn [obind] in E.
  destruct (Z.eqb_spec res 0) as [->|]; cbn [negb] in E; [|inv E; congruence].
  destruct Hcase as [(X & _)|[(_ & X & _)|[(_ & b & X & _)|(X & _)]]]; try discriminate; subst out; try discriminate.
  destruct (pull_ext _ _ _ _ _ Hr Hs Hi P) as [P' Hs']. rewrite P'. cbn [obind]. change (negb (0 =? 0)) with false. cbv iota.
  destruct (size_byte z b) as [[z2|]| |]; cbn [obind] in *; try discriminate.
  specialize (Hr' ltac:(lia)).
  destruct (Z.land b 128 =? 0); [inv E; auto|]. eapply IHK; eauto.
Qed.

Definition ext (s : ap) : ap :=
  mkap (a_patch_size s + d) (a_state s) (a_to_init s) (a_compression s) (a_patch_offset s)
       (a_to_offset s) (a_to_size s) (a_from_offset s) (a_chunk_size s)
       (option_map rext (a_reader s)) (a_rsize s) (a_csize s + zlen f) (a_left s ++ f) (a_size s).

Definition einv (s : ap) : Prop :=
  bytes_ok (a_left s) /\ (data_next (a_state s) <> None -> 0 <= a_chunk_size s) /\
  match a_state s with
  | SInit => a_reader s = None /\ a_patch_size s + d + 128 < 2 ^ word_bits /\ zlen (a_left s) <= a_csize s <= a_patch_size s /\
      if a_to_init s then zok (a_size s) /\
        (a_compression s = 2 -> forall v z1 l1, unpack_header_size (a_left s ++ f) (a_size s) = Ret (0, v, z1, l1) -> nozero (RCrle CIdle) l1)
      else body_nz (a_left s ++ f)
  | _ => exists r, a_reader s = Some r /\ rok r /\ rsmall r /\ nozero (rext r) (a_left s ++ f) /\ zok (a_rsize s)
  end.

Lemma nozero_less : forall r i, rok r -> bytes_ok i -> nozero (rext r) (i ++ f) -> nozero r i.
Proof.
  intros [ps po|s|h] i Hr Hi N.
  - apply nozero_none.
  - exact (nozero_prefix Hword _ _ f Hr Hi Hf N).
  - apply nozero_hs.
Qed.

Lemma rext_rok : forall r, rok r -> rsmall r -> rok (rext r).
Proof. intros [ps po|s|h] Hr Hs; cbn in *; auto. lia. Qed.

(** Reading a size with and without the additional bytes. *)
Lemma unpack_ext : forall z r i v z1 r1 i1, rok r -> rsmall r -> bytes_ok i -> nozero (rext r) (i ++ f) -> zok z ->
  unpack_size z r i = Ret (0, v, z1, r1, i1) ->
  unpack_size z (rext r) (i ++ f) = Ret (0, v, z1, rext r1, i1 ++ f) /\
  rok r1 /\ rsmall r1 /\ bytes_ok i1 /\ nozero (rext r1) (i1 ++ f) /\ zok z1.
Proof.
  intros z r i v z1 r1 i1 Hr Hs Hi Hn Hz E. unfold unpack_size in *.
  assert (Hn2 := nozero_less _ _ Hr Hi Hn).
  rewrite (us_unpack Hword) in E by auto.
  rewrite (us_unpack Hword) by (auto using rext_rok; apply Forall_app; auto).
  destruct (us_ext _ _ _ _ _ _ _ _ Hr Hs Hi E) as (E' & R1 & R2 & R3).
  split; [auto|]. split; [auto|]. split; [auto|]. split; [auto|].
  destruct (us_spec Hword 6 z (rext r) (i ++ f) [] ltac:(pose proof (zneed_le z Hz); lia) (rext_rok _ Hr Hs) Hz
    ltac:(apply Forall_app; auto) ltac:(constructor) ltac:(rewrite app_nil_r; auto))
    as [(z2 & r2 & U & _)|[(v2 & z2 & r2 & l2 & U & _ & U2 & _ & U3 & _)|(e & v2 & z2 & r2 & l2 & U & U2 & _)]];
    rewrite E' in U; inv U; [|lia].
  rewrite app_nil_r in U3. split; [auto|]. intros X; congruence.
Qed.

Lemma once_ext : forall s w s1 w1, einv s -> once 1 s w = Ret (0, s1, w1) ->
  once 1 (ext s) w = Ret (0, ext s1, w1) /\ einv s1.
Proof.
  intros s w s1 w1 (Hb & Hcs & Hi) E. pose proof (pow2_32_le word_bits Hword).
  destruct (data_next (a_state s)) as [next|] eqn:Hn.
  { (* data *)
    assert (Hn' : data_next (a_state (ext s)) = Some next) by exact Hn.
    rewrite (once_data _ _ _ _ Hn) in E. rewrite (once_data _ _ _ _ Hn').
    destruct (data_next_cases _ _ Hn) as (Hx & _ & Hni).
    assert (Hr : exists r, a_reader s = Some r /\ rok r /\ rsmall r /\ nozero (rext r) (a_left s ++ f) /\ zok (a_rsize s)).
    { destruct (a_state s); try discriminate Hn; auto. }
    destruct Hr as (r & R1 & R2 & R3 & R4 & R5).
    apply obind_ret in E. destruct E as ([[res s2] w2] & P & E). injection E as -> E ->.
    change (0 <? 0) with false in E. cbv iota in E. subst s2.
    unfold process_data in *. cbv zeta in *. change (a_chunk_size (ext s)) with (a_chunk_size s).
    change (a_left (ext s)) with (a_left s ++ f). change (a_reader (ext s)) with (option_map rext (a_reader s)).
    rewrite R1 in *. cbn [option_map].
    destruct (Z.eqb_spec (Z.min 1 (a_chunk_size s)) 0).
    { inv P. cbn [obind]. change (0 <? 0) with false. cbv iota. split; [reflexivity|].
      split; [exact Hb|]. destruct Hx as [-> | ->]; cbn; (split; [tauto|]); exists r; auto. }
    assert (Hmin : Z.min 1 (a_chunk_size s) = 1) by (specialize (Hcs ltac:(congruence)); lia).
    rewrite Hmin in *. fold (pull r (a_left s)) in P. fold (pull (rext r) (a_left s ++ f)).
    destruct (pull1_spec Hword r (a_left s) R2 Hb) as (res & out & r' & i' & Q & Hr' & Hi' & _ & _ & Hcase).
    rewrite Q in P. cbn [obind] in P.
    destruct (Z.eqb_spec res 0) as [->|]; cbn [negb] in P; [|inv P; congruence].
    assert (Hout : exists b, out = [b]).
    { destruct Hcase as [(X & _)|[(_ & X & _)|[(_ & b & X & _)|(X & _)]]]; try discriminate; [|eauto].
      subst out. exfalso. apply (nozero_less _ _ R2 Hb R4 [] r (a_left s) r' i'); [constructor|auto]. }
    destruct Hout as (b & ->).
    destruct (pull_ext _ _ _ _ _ R2 R3 Hb Q) as [Q' Hs']. rewrite Q'. cbn [obind]. change (negb (0 =? 0)) with false. cbv iota.
    assert (N' : nozero (rext r') (i' ++ f)) by (eapply nozero_step; eauto).
    specialize (Hr' ltac:(lia)).
    destruct Hx as [-> | ->].
    - change (a_from_offset (set_reader (ext s) (Some (rext r')) (a_rsize (ext s)) (i' ++ f))) with (a_from_offset s).
      change (a_from_offset (set_reader s (Some r') (a_rsize s) i')) with (a_from_offset s) in P.
      destruct (from_read file_env w (zlen [b])) as [[rr from] w3].
      destruct (negb (rr =? 0)); cbn [obind] in *; [discriminate|].
      destruct (add_data [b] from) as [dd| |]; cbn [obind] in *; try discriminate.
      destruct (to_write file_env w3 dd) as [rw w4]. destruct (negb (rw =? 0)); [discriminate|]. inv P.
      cbn [obind]. change (0 <? 0) with false. cbv iota. split; [reflexivity|]. split; [exact Hi'|].
      split; [intros _; apply wrap_range; auto|].
      destruct s; fields. destruct a_state; try discriminate Hn; cbn; eauto 10.
    - cbn [obind] in *.
      destruct (to_write file_env w [b]) as [rw w4]. destruct (negb (rw =? 0)); [discriminate|]. inv P.
      cbn [obind]. change (0 <? 0) with false. cbv iota. split; [reflexivity|]. split; [exact Hi'|].
      split; [intros _; apply wrap_range; auto|].
      destruct s; fields. destruct a_state; try discriminate Hn; cbn; eauto 10. }
  unfold process_once in *. change (a_state (ext s)) with (a_state s). destruct (a_state s) eqn:Es; try discriminate.
  - (* init *) destruct Hi as (R1 & R2 & R3 & R4).
    unfold process_init in *. change (a_to_init (ext s)) with (a_to_init s). destruct (a_to_init s) eqn:Et.
    + destruct R4 as (R4 & R5). unfold process_init_to_size in *. change (a_left (ext s)) with (a_left s ++ f).
      change (a_size (ext s)) with (a_size s).
      destruct (uhs_app (a_left s) (a_size s) f R4) as [(z1 & U1 & _)|[(v & z1 & l1 & used & U1 & Hv & Hu & U2)|(z1 & l1 & U1 & _)]];
        rewrite U1 in E; cbn [obind] in E; try discriminate.
      rewrite U2. cbn [obind]. change (negb (0 =? 0)) with false in *. cbv iota in *.
      set (s2 := set_header s (a_to_init s) (a_compression s) z1 l1) in *.
      set (s2' := set_header (ext s) (a_to_init (ext s)) (a_compression (ext s)) z1 (l1 ++ f)).
      assert (O1 : chunk_offset s2' = chunk_offset s2).
      { unfold chunk_offset, s2, s2'. cbn. rewrite zlen_app. lia. }
      assert (Hl1 : zlen l1 <= zlen (a_left s)). { rewrite Hu, zlen_app. pose proof (zlen_nonneg used). lia. }
      pose proof (zlen_nonneg l1).
      assert (O2 : 0 <= chunk_offset s2 <= a_patch_size s). { unfold chunk_offset, s2. cbn. lia. }
      change (a_patch_size s2') with (a_patch_size s + d). change (a_patch_size s2) with (a_patch_size s) in E. rewrite O1.
      rewrite (wrap_small (a_patch_size s + d - chunk_offset s2)) by lia.
      rewrite (wrap_small (a_patch_size s - chunk_offset s2)) in E by lia.
      change (a_compression s2') with (a_compression s). change (a_compression s2) with (a_compression s) in E.
      assert (Hri : forall r, reader_init (a_patch_size s - chunk_offset s2) (a_compression s) = Some r ->
        reader_init (a_patch_size s + d - chunk_offset s2) (a_compression s) = Some (rext r) /\ rok r /\ rsmall r /\
        nozero (rext r) (l1 ++ f)).
      { intros r Er. split; [|split; [eapply rok_init; [exact Er|lia|lia]|]].
        - unfold reader_init in *. destruct (a_compression s =? 0); [inv Er; cbn; do 2 f_equal; lia|].
          destruct (a_compression s =? 2); [inv Er; auto|]. destruct (a_compression s =? 4); inv Er; auto.
        - unfold reader_init in *. destruct (a_compression s =? 0); [inv Er; cbn; split; [lia|apply nozero_none]|].
          destruct (Z.eqb_spec (a_compression s) 2); [inv Er; cbn; split; [auto|eapply R5; eauto]|].
          destruct (a_compression s =? 4); inv Er; cbn; split; [auto|apply nozero_hs]. }
      destruct (reader_init (a_patch_size s - chunk_offset s2) (a_compression s)) as [r|]; [|discriminate].
      destruct (Hri r eq_refl) as (-> & Q1 & Q2 & Q3).
      destruct (v <? 0); [discriminate|]. cbn [obind] in *. change (0 <? 0) with false in *. cbv iota in *. inv E.
      split.
      * unfold s2', s2, ext. destruct s. fields. subst. reflexivity.
      * split; [rewrite Hu in Hb; apply Forall_app in Hb; tauto|].
        unfold s2. destruct s. fields. cbn. destruct (0 <? v); cbn;
          (split; [tauto|]); exists r; (split; [auto|]); (split; [auto|]); (split; [auto|]); (split; [auto|]); intros X; discriminate.
    + unfold process_init_fixed_header in *. change (a_left (ext s)) with (a_left s ++ f).
      destruct (a_left s) as [|b l] eqn:El; [discriminate|]. cbn [app].
      destruct (negb (Z.land (Z.shiftr b 4) 7 =? 0)); [discriminate|]. cbn [obind] in *. change (0 <? 0) with false in *. cbv iota in *. inv E.
      split; [destruct s; fields; subst; reflexivity|]. inv Hb. split; [auto|]. split; [cbn; rewrite Es; tauto|].
      cbn. rewrite Es. split; [auto|]. split; [auto|]. split; [rewrite zlen_cons in R3; lia|]. split; [intros X; discriminate|].
      intros Hc v z1 l1 U. eapply R4; [reflexivity|exact Hc| |exact U]. reflexivity.
  - (* dfpatch *) destruct Hi as (r & R1 & R2 & R3 & R4 & R5).
    unfold process_dfpatch_size in *. change (a_reader (ext s)) with (option_map rext (a_reader s)). rewrite R1 in *. cbn [option_map].
    change (a_left (ext s)) with (a_left s ++ f). change (a_rsize (ext s)) with (a_rsize s).
    destruct (unpack_size (a_rsize s) r (a_left s)) as [[[[[res v] z1] r1] l1]| |] eqn:U; cbn [obind] in *; try discriminate.
    destruct (Z.eqb_spec res 0) as [->|]; cbn [negb] in *; [|exfalso; cbn [obind] in E; inv E; congruence].
    destruct (unpack_ext _ _ _ _ _ _ _ R2 R3 Hb R4 R5 U) as (-> & Q1 & Q2 & Q3 & Q4 & Q5). cbn [obind]. change (negb (0 =? 0)) with false. cbv iota.
    destruct (0 <? v); [discriminate|]. cbn [obind] in *. change (0 <? 0) with false in *. cbv iota in *. inv E.
    split; [reflexivity|]. split; [auto|]. cbn. split; [tauto|]. exists r1. auto.
  - (* diff size *) destruct Hi as (r & R1 & R2 & R3 & R4 & R5).
    unfold process_size, common_process_size in *. change (a_reader (ext s)) with (option_map rext (a_reader s)). rewrite R1 in *. cbn [option_map].
    change (a_left (ext s)) with (a_left s ++ f). change (a_rsize (ext s)) with (a_rsize s).
    change (a_to_offset (ext s)) with (a_to_offset s). change (a_to_size (ext s)) with (a_to_size s).
    destruct (unpack_size (a_rsize s) r (a_left s)) as [[[[[res v] z1] r1] l1]| |] eqn:U; cbn [obind] in *; try discriminate.
    destruct (Z.eqb_spec res 0) as [->|]; cbn [negb obind] in *.
    2:{ exfalso. destruct (Z.eqb_spec res 0); [congruence|]. cbn [negb obind] in E. inv E; congruence. }
    destruct (unpack_ext _ _ _ _ _ _ _ R2 R3 Hb R4 R5 U) as (-> & Q1 & Q2 & Q3 & Q4 & Q5). cbn [obind]. change (negb (0 =? 0)) with false. cbv iota.
    destruct (a_to_size s <? wrap (a_to_offset s + wrap v)); cbn [obind] in *; [discriminate|].
    change (negb (0 =? 0)) with false in *. cbv iota in *. cbn [obind] in *. change (0 <? 0) with false in *. cbv iota in *. inv E.
    split; [reflexivity|]. split; [auto|]. cbn. split; [intros _; apply wrap_range; auto|]. exists r1. auto.
  - (* extra size *) destruct Hi as (r & R1 & R2 & R3 & R4 & R5).
    unfold process_size, common_process_size in *. change (a_reader (ext s)) with (option_map rext (a_reader s)). rewrite R1 in *. cbn [option_map].
    change (a_left (ext s)) with (a_left s ++ f). change (a_rsize (ext s)) with (a_rsize s).
    change (a_to_offset (ext s)) with (a_to_offset s). change (a_to_size (ext s)) with (a_to_size s).
    destruct (unpack_size (a_rsize s) r (a_left s)) as [[[[[res v] z1] r1] l1]| |] eqn:U; cbn [obind] in *; try discriminate.
    destruct (Z.eqb_spec res 0) as [->|]; cbn [negb obind] in *.
    2:{ exfalso. destruct (Z.eqb_spec res 0); [congruence|]. cbn [negb obind] in E. inv E; congruence. }
    destruct (unpack_ext _ _ _ _ _ _ _ R2 R3 Hb R4 R5 U) as (-> & Q1 & Q2 & Q3 & Q4 & Q5). cbn [obind]. change (negb (0 =? 0)) with false. cbv iota.
    destruct (a_to_size s <? wrap (a_to_offset s + wrap v)); cbn [obind] in *; [discriminate|].
    change (negb (0 =? 0)) with false in *. cbv iota in *. cbn [obind] in *. change (0 <? 0) with false in *. cbv iota in *. inv E.
    split; [reflexivity|]. split; [auto|]. cbn. split; [intros _; apply wrap_range; auto|]. exists r1. auto.
  - (* adjustment *) destruct Hi as (r & R1 & R2 & R3 & R4 & R5).
    unfold process_adjustment in *. change (a_reader (ext s)) with (option_map rext (a_reader s)). rewrite R1 in *. cbn [option_map].
    change (a_left (ext s)) with (a_left s ++ f). change (a_rsize (ext s)) with (a_rsize s).
    destruct (unpack_size (a_rsize s) r (a_left s)) as [[[[[res v] z1] r1] l1]| |] eqn:U; cbn [obind] in *; try discriminate.
    destruct (Z.eqb_spec res 0) as [->|]; cbn [negb] in *; [|exfalso; cbn [obind] in E; inv E; congruence].
    destruct (unpack_ext _ _ _ _ _ _ _ R2 R3 Hb R4 R5 U) as (-> & Q1 & Q2 & Q3 & Q4 & Q5). cbn [obind]. change (negb (0 =? 0)) with false. cbv iota.
    destruct (from_seek file_env w v) as [rs w2]. destruct (negb (rs =? 0)); [discriminate|].
    change (a_from_offset (set_reader (ext s) (Some (rext r1)) z1 (l1 ++ f))) with (a_from_offset s).
    change (a_from_offset (set_reader s (Some r1) z1 l1)) with (a_from_offset s) in E.
    destruct (int_add (a_from_offset s) v) as [fo| |]; cbn [obind] in *; try discriminate.
    change (0 <? 0) with false in *. cbv iota in *. inv E.
    split; [reflexivity|]. split; [auto|]. destruct s; fields. cbn. destruct (_ =? _); cbn; (split; [tauto|]); exists r1; auto.
Qed.

Lemma refdone_ext : forall s w sd wd, einv s -> refdone s w sd wd -> refdone (ext s) w (ext sd) wd.
Proof.
  intros s w sd wd Hi [R D]. revert Hi. induction R; intros Hi.
  - split; [constructor|exact D].
  - destruct (once_ext _ _ _ _ Hi H) as [E Hi']. destruct (IHR D Hi') as [R' D']. split; [econstructor; eauto|auto].
Qed.

Lemma start_ext : forall junk ps patch, ext (start junk ps patch) = start junk (ps + d) (patch ++ f).
Proof. intros. unfold ext, start, ap_init. fields. rewrite zlen_app. reflexivity. Qed.

Lemma start_einv : forall junk ps patch, bytes_ok patch -> body_nz (patch ++ f) -> zlen patch <= ps ->
  ps + d + 128 < 2 ^ word_bits -> einv (start junk ps patch).
Proof. intros. unfold einv, start. cbn. split; [auto|]. split; [tauto|]. split; [auto|]. split; [auto|]. split; [lia|auto]. Qed.


End Ext.

Section Trunc.
Context {WBits : WordBits}.
Hypothesis Hword : 32 <= word_bits.

Lemma refdone_det : forall s w s1 w1, refdone s w s1 w1 -> forall s2 w2, refdone s w s2 w2 -> s1 = s2 /\ w1 = w2.
Proof.
  intros s w s1 w1 [R D]. revert D. induction R; intros D sx wx [R2 D2].
  - inv R2; [auto|]. rewrite once_done in H by auto. discriminate.
  - inv R2; [rewrite once_done in H by auto; discriminate|]. rewrite H in H0. inv H0. apply IHR; auto. split; auto.
Qed.

Lemma announced_app : forall a b, a <> [] -> announced_comp (a ++ b) = announced_comp a.
Proof. intros [|x a] b H; [congruence|reflexivity]. Qed.

(** A created patch of which bytes are missing is never accepted. *)
Lemma truncated : forall junk c recs patch from to pre rest ps chunks v to',
  seq_patch c recs patch -> recs_in_limits recs -> apply_recs from 0 recs = Some to ->
  bytes_ok patch -> zlen patch + 128 < 2 ^ word_bits ->
  patch = pre ++ rest -> rest <> [] -> zlen pre <= ps <= zlen patch -> concat chunks = pre ->
  (c = CompNone -> header_complete (hd [] chunks) = true \/ chunks = [pre]) ->
  ~ succeeds junk ps from chunks v to'.
Proof.
  intros junk c recs patch from to pre rest ps chunks v to' H L Ha Hb Hw Hp Hr Hps Hc Hh S.
  assert (Hpb : bytes_ok pre /\ bytes_ok rest) by (subst patch; apply Forall_app; auto). destruct Hpb as [Hpb Hrb].
  assert (Hnz := seq_patch_nz Hword _ _ _ H (proj1 L) Hb Hw).
  assert (Hck : chunks_ok pre chunks).
  { intros Hne E. rewrite <- (announced_app pre rest Hne), <- Hp, (seq_patch_comp _ _ _ H) in E.
    apply Hh. destruct c; [reflexivity|discriminate|discriminate]. }
  assert (Hpn : body_nz pre).
  { intros b l z v1 z1 l1 E Hk Hz U.
    subst pre. rewrite E in *. rewrite Hp in Hnz.
    destruct (uhs_app l z rest ltac:(intros X; congruence)) as [(z2 & U1 & _)|[(v2 & z2 & l2 & used & U1 & _ & Hu & U2)|(z2 & l2 & U1 & _)]];
      rewrite U in U1; inv U1.
    pose proof (Hnz b _ z _ _ _ eq_refl Hk Hz U2) as N. inv Hpb. apply Forall_app in H3. destruct H3 as [_ H3].
    refine (nozero_prefix Hword (RCrle CIdle) l2 rest _ H3 Hrb N). cbn. auto. }
  apply (succeeds_ref Hword) in S; try rewrite Hc; auto; try lia. destruct S as (sd & wd & R & F & Hv & Ht).
  rewrite Hc in R.
  assert (Hi : einv rest (zlen patch - ps) (start junk ps pre)).
  { apply start_einv; auto; [rewrite <- Hp; auto|..]; lia. }
  pose proof (refdone_ext Hword rest (zlen patch - ps) Hrb ltac:(lia) _ _ _ _ Hi R) as R'.
  rewrite start_ext in R'. replace (ps + (zlen patch - ps)) with (zlen patch) in R' by lia. rewrite <- Hp in R'.
  destruct (ref_patch Hword junk c recs patch from to H L Ha Hb Hw) as (sd2 & wd2 & R2 & _ & _ & _ & Hl & _).
  destruct (refdone_det _ _ _ _ R' _ _ R2) as [E _]. rewrite <- E in Hl. cbn in Hl. apply app_eq_nil in Hl. tauto.
Qed.

(** An uncompressed patch followed by other bytes. *)
Lemma trailing_none : forall junk recs patch from to trail chunks,
  seq_patch CompNone recs patch -> recs_in_limits recs -> apply_recs from 0 recs = Some to ->
  bytes_ok patch -> bytes_ok trail -> trail <> [] -> zlen (patch ++ trail) + 128 < 2 ^ word_bits ->
  concat chunks = patch ++ trail -> header_complete (hd [] chunks) = true ->
  exists n, forall fuel, (n <= fuel)%nat -> exists s w,
    c_apply fuel junk (zlen (patch ++ trail)) from chunks = Ret (- E_CORRUPT_PATCH, s, w) /\ f_to w = to.
Proof.
  intros junk recs patch from to trail chunks H L Ha Hb Htb Ht Hw Hc Hh.
  assert (Hw1 := Hw). rewrite zlen_app in Hw1. pose proof (zlen_nonneg trail).
  assert (Hz : announced_comp patch = 0) by (rewrite (seq_patch_comp _ _ _ H); reflexivity).
  assert (Hne : patch <> []) by (destruct H as [(_ & ->)|(_ & st & _ & ->)]; discriminate).
  assert (Hn2 : body_nz (patch ++ trail)).
  { intros b l z v1 z1 l1 E Hk. destruct patch; [congruence|]. inv E. unfold announced_comp in Hz. cbn [hd] in Hz. congruence. }
  destruct (ref_patch Hword junk _ recs patch from to H L Ha Hb ltac:(lia)) as (sd2 & wd2 & R2 & F2 & Hto & _ & Hl & Hk).
  assert (Hi : einv trail (zlen trail) (start junk (zlen patch) patch)).
  { apply start_einv; auto; lia. }
  pose proof (refdone_ext Hword trail (zlen trail) Htb ltac:(lia) _ _ _ _ Hi R2) as R'.
  rewrite start_ext, <- zlen_app in R'.
  assert (F : fin_value (ext trail (zlen trail) sd2) = Ret (- E_CORRUPT_PATCH)).
  { destruct (Hk eq_refl) as (n & En).
    unfold fin_value. cbn [a_reader ext]. rewrite En. cbn [option_map rext].
    unfold common_finalize. cbn [destroy obind].
    assert (zlen trail <> 0) by (destruct trail; [congruence|rewrite zlen_cons in *; pose proof (zlen_nonneg trail); lia]).
    destruct (Z.eqb_spec n (n + zlen trail)); [lia|]. reflexivity. }
  assert (Hbb : bytes_ok (concat chunks)) by (rewrite Hc; apply Forall_app; auto).
  destruct (feed_term Hword file_env 128 chunks (ap_init junk (zlen (patch ++ trail))) (mkfiles from 0 []) ltac:(lia) (tinv_init junk _)
              (proj2 (bytes_ok_concat chunks) Hbb)) as (n & N).
  exists n. intros fuel Hf. specialize (N fuel Hf).
  destruct (apply_sim Hword junk (zlen (patch ++ trail)) from chunks fuel Hbb) as [(sd & wd & s' & R & E)|(X & _)];
    try rewrite Hc; auto; try lia.
  - intros _ _. auto.
  - rewrite Hc in R. destruct (refdone_det _ _ _ _ R _ _ R') as [-> ->]. rewrite F in E. cbn [obind] in E. eauto.
  - exfalso. rewrite Hc in X. eapply X; eauto.
Qed.

End Trunc.
