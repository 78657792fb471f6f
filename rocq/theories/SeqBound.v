(** The applier never writes more than announced unless a size is negative (C06). *)

From Coq Require Import ZArith List Bool Lia ZifyBool ZifyNat ZifyN.
From Verif Require Import Prelude Lib Heatshrink HsProofs CReader ReaderProofs SizeProofs CSeq Spec SeqSim SeqRun SeqTerm SeqMeaning SeqApply SeqSpec SeqInv SeqCount ReaderSpec ReaderDrive.
Import ListNotations.
Open Scope Z_scope.

Ltac Zify.zify_post_hook ::= Z.to_euclidean_division_equations.

Ltac splits := repeat match goal with |- _ /\ _ => split end.

(** ** Size fields in bodies *)

Lemma dec_usize_len : forall l v r, dec_usize l = Some (v, r) -> (length r < length l)%nat.
Proof.
  induction l; intros v r H; cbn [dec_usize] in H; [discriminate|]. destruct (a <? 128); [inv H; cbn; lia|].
  destruct (dec_usize l) as [[v' r']|]; [|discriminate]. inv H. specialize (IHl _ _ eq_refl). cbn. lia.
Qed.

Lemma dec_size_len : forall l v r, dec_size l = Some (v, r) -> (length r < length l)%nat.
Proof.
  intros [|b l] v r H; [discriminate|]. cbn [dec_size] in H. destruct (b <? 128); [inv H; cbn; lia|].
  destruct (dec_usize l) as [[v' r']|] eqn:D; [|discriminate]. inv H. apply dec_usize_len in D. cbn. lia.
Qed.

Lemma zdrop_length : forall n (l : list Z), (length (zdrop n l) <= length l)%nat.
Proof. intros. unfold zdrop. rewrite skipn_length. lia. Qed.

Lemma records_all : forall k l, (length l <= k)%nat -> records_nonneg (length l) l = true -> forall j, records_nonneg j l = true.
Proof.
  assert (G : forall k l j j', (length l <= k)%nat -> (length l <= j)%nat -> records_nonneg j l = true -> records_nonneg j' l = true).
  { induction k; intros l j j' Hk Hj H.
    - destruct l; [|cbn in Hk; lia]. destruct j'; reflexivity.
    - destruct j' as [|j']; [reflexivity|]. cbn [records_nonneg].
      destruct (dec_size l) as [[d l1]|] eqn:D1; [|auto]. destruct j as [|j]; [apply dec_size_len in D1; lia|].
      cbn [records_nonneg] in H. rewrite D1 in H. apply andb_prop in H. destruct H as [-> H]. cbn [andb].
      destruct (dec_size (zdrop d l1)) as [[e l2]|] eqn:D2; [|auto].
      apply andb_prop in H. destruct H as [-> H]. cbn [andb].
      destruct (dec_size (zdrop e l2)) as [[a l3]|] eqn:D3; [|auto].
      apply dec_size_len in D1, D2, D3. pose proof (zdrop_length d l1). pose proof (zdrop_length e l2).
      apply (IHk l3 j j'); auto; lia. }
  intros k l Hk H j. apply (G (length l) l (length l) j); auto.
Qed.

(** What the applier may still meet, by the kind of field that comes next. *)
Definition recs_ok (l : list Z) : Prop := forall k, records_nonneg k l = true.
Definition at_diff (x : option (Z * list Z)) : Prop :=
  match x with
  | None => True
  | Some (d, l1) => 0 <= d /\
      match dec_size (zdrop d l1) with
      | None => True
      | Some (e, l2) => 0 <= e /\ match dec_size (zdrop e l2) with None => True | Some (_, l3) => recs_ok l3 end
      end
  end.
Definition at_extra (x : option (Z * list Z)) : Prop :=
  match x with
  | None => True
  | Some (e, l2) => 0 <= e /\ match dec_size (zdrop e l2) with None => True | Some (_, l3) => recs_ok l3 end
  end.
Definition at_next (x : option (Z * list Z)) : Prop :=
  match x with None => True | Some (_, l3) => recs_ok l3 end.

Lemma recs_at : forall l, recs_ok l -> at_diff (dec_size l).
Proof.
  intros l H. unfold at_diff. destruct (dec_size l) as [[d l1]|] eqn:D; [|auto].
  split. { specialize (H 1%nat). cbn [records_nonneg] in H. rewrite D in H. lia. }
  destruct (dec_size (zdrop d l1)) as [[e l2]|] eqn:D2; [|auto].
  split. { specialize (H 1%nat). cbn [records_nonneg] in H. rewrite D, D2 in H. lia. }
  destruct (dec_size (zdrop e l2)) as [[a l3]|] eqn:D3; [|auto].
  intros k. specialize (H (S k)). cbn [records_nonneg] in H. rewrite D, D2, D3 in H.
  apply andb_prop in H. destruct H as [_ H]. apply andb_prop in H. tauto.
Qed.

Section Bound.
Context {WBits : WordBits}.
Hypothesis Hword : 32 <= word_bits.

(** ** What a reader gives *)

Definition gives (f : list Z) (r : reader) (left rest : list Z) : Prop :=
  bytes_ok left /\ bytes_ok rest /\
  match r with
  | RNone _ _ => rest = left ++ f
  | _ => rok r /\ will r (left ++ f) rest
  end.

Lemma will_out : forall r left f rest n o r1 left1, not_none r -> rok r -> bytes_ok left -> bytes_ok f -> 1 <= n ->
  will r (left ++ f) rest -> decompress r left n = Ret (0, o, r1, left1) -> o <> [].
Proof.
  intros r left f rest n o r1 left1 Hnn Hr Hl Hf Hn (r0 & i0 & rE & J & P & (r2 & c2 & S)) E ->.
  destruct (decompress_spec' r left n Hnn Hr Hl Hn) as (res' & o' & r' & l' & E' & Hr' & Hl' & Ho & Hu & Hcase).
  rewrite E in E'. inv E'. destruct Hcase as [(X & _)|[(_ & _ & K1 & K2)|(A & _)]]; [lia| |lia].
  destruct (K1 eq_refl f Hf) as (r3 & i3 & X). rewrite J in X. inv P; [rewrite S in X; discriminate|]. rewrite H in X. discriminate.
Qed.

Lemma gives_dec : forall f r left rest n res out r1 l1, bytes_ok f -> gives f r left rest -> 1 <= n ->
  decompress r left n = Ret (res, out, r1, l1) ->
  (res = 0 -> out <> [] /\ exists rest1, rest = out ++ rest1 /\ gives f r1 l1 rest1) /\
  (res = 1 -> gives f r1 l1 rest).
Proof.
  intros f r left rest n res out r1 l1 Hf (A & A' & B) Hn E.
  assert (Hnn : not_none r \/ exists ps po, r = RNone ps po) by (destruct r; cbn; eauto).
  destruct Hnn as [Hnn|(ps & po & ->)].
  - assert (B' : rok r /\ will r (left ++ f) rest) by (destruct r; [destruct Hnn|auto|auto]). clear B. destruct B' as [B C].
    destruct (will_ask _ _ _ _ _ _ _ _ _ Hnn B A Hf Hn C E) as (P1 & P2 & P3 & P4 & rest1 & P5 & P6 & _).
    assert (Hr1 : bytes_ok rest1) by (subst rest; apply Forall_app in A'; tauto).
    assert (G : gives f r1 l1 rest1) by (split; [auto|]; split; [auto|]; destruct r1; [destruct P4|auto|auto]).
    split.
    + intros ->. split; [exact (will_out _ _ _ _ _ _ _ _ Hnn B A Hf Hn C E)|]. exists rest1. auto.
    + intros ->. assert (out = []).
      { destruct (decompress_spec' r left n Hnn B A Hn) as (res' & o' & r' & l' & E' & Hr' & Hl' & Ho & Hu & Hcase).
        rewrite E in E'. inv E'. destruct Hcase as [(_ & X & _)|[(X & _)|(X & _)]]; [auto|lia|lia]. }
      subst out. cbn [app] in P5. subst rest1. exact G.
  - subst rest. cbn [decompress] in E. unfold none_decompress in E. destruct (_ <? _).
    { inv E. unfold E_CORRUPT_PATCH. split; intros; exfalso; lia. }
    destruct left as [|x left]; inv E.
    { split; [intros; exfalso; lia|]. intros _. split; [constructor|]. split; auto. }
    split; [|intros; exfalso; lia]. intros _. set (m := Z.min n (zlen (x :: left))).
    assert (Hm : 1 <= m) by (unfold m; rewrite zlen_cons; pose proof (zlen_nonneg left); lia). clearbody m. split; [intros Y|].
    { apply (f_equal zlen) in Y. rewrite zlen_ztake in Y by lia. rewrite zlen_cons in Y. change (zlen (@nil Z)) with 0 in Y.
      pose proof (zlen_nonneg left). lia. }
    exists (zdrop m (x :: left) ++ f). split; [rewrite app_assoc, ztake_zdrop; auto|].
    rewrite <- (ztake_zdrop m (x :: left)) in A. apply Forall_app in A. destruct A as [_ A].
    split; [auto|]. split; [apply Forall_app; auto|auto].
Qed.

Lemma gives_len : forall f r left rest n out r1 l1, gives f r left rest -> 1 <= n -> decompress r left n = Ret (0, out, r1, l1) -> zlen out <= n.
Proof.
  intros f r left rest n out r1 l1 (G1 & G2 & G3) Hn A. destruct r as [ps po|s|h].
  - cbn [decompress] in A. unfold none_decompress in A. destruct (_ <? _); [inv A|]. destruct left as [|x left]; inv A.
    rewrite zlen_ztake; [lia|]. pose proof (zlen_nonneg (x :: left)). lia.
  - destruct G3 as [G3 _]. destruct (decompress_spec' (RCrle s) left n I G3 G1 Hn) as (res' & o' & r' & l' & E' & _ & _ & _ & _ & Hc).
    rewrite A in E'. inv E'. destruct Hc as [(X & _)|[(_ & X & _)|(X & _)]]; lia.
  - destruct G3 as [G3 _]. destruct (decompress_spec' (RHs h) left n I G3 G1 Hn) as (res' & o' & r' & l' & E' & _ & _ & _ & _ & Hc).
    rewrite A in E'. inv E'. destruct Hc as [(X & _)|[(_ & X & _)|(X & _)]]; lia.
Qed.

(** A size field, possibly begun. *)
Definition szrest (z : size_st) (rest : list Z) : option (Z * list Z) :=
  if z_cons z then
    match dec_usize rest with
    | None => None
    | Some (y, l) => let a := z_value z + y * 2 ^ z_offset z in Some (if z_signed z then - a else a, l)
    end
  else dec_size rest.

Lemma gives_unpack : forall K f z r left rest byte res v z1 r1 l1, bytes_ok f -> gives f r left rest -> zok z ->
  unpack_size_loop K z r left byte 1 = Ret (res, v, z1, r1, l1) ->
  (res = 0 -> - 2 ^ 27 < v < 2 ^ 27 /\ z_cons z1 = false /\ exists rest1, szrest z rest = Some (v, rest1) /\ gives f r1 l1 rest1) /\
  (res = 1 -> zok z1 /\ exists rest1, szrest z1 rest1 = szrest z rest /\ gives f r1 l1 rest1 /\ (length rest1 <= length rest)%nat).
Proof.
  induction K; intros f z r left rest byte res v z1 r1 l1 Hf Hg Hz E; cbn [unpack_size_loop] in E; [discriminate|].
  apply obind_ret in E. destruct E as ([[[r0 o0] r2] l2] & A & E).
  assert (Ho : r0 = 0 -> zlen o0 <= 1) by (intros ->; eapply gives_len; [exact Hg| |exact A]; lia).
  destruct (gives_dec _ _ _ _ _ _ _ _ _ Hf Hg (Z.le_refl 1) A) as [G1 G2].
  destruct (Z.eqb_spec r0 0) as [->|Hne]; cbn [negb] in E.
  2:{ inv E. split; [congruence|]. intros ->. split; [auto|]. exists rest. splits; auto. }
  destruct (G1 eq_refl) as (G3 & rest1 & -> & G4). specialize (Ho eq_refl).
  destruct o0 as [|b o0]; [congruence|].
  assert (o0 = []) as -> by (apply zlen_0_nil; rewrite zlen_cons in Ho; pose proof (zlen_nonneg o0); lia).
  clear G1 G2 G3 Ho. destruct Hg as (_ & Hb & _). cbn [app] in *. inv Hb. rename H1 into Hb. rename H2 into Hrb.
  assert (Hbb := Hb). unfold byte_ok in Hbb.
  cbv zeta in E. destruct (size_byte_spec z b Hz) as [(_ & _ & S)|(z2 & S & Ec & Hz1 & Hnd & Hv & S1 & S2)]; rewrite S in E; cbn [obind] in E.
  { inv E. unfold E_CORRUPT_PATCH_OVERFLOW. split; intros; exfalso; lia. }
  rewrite land_128_byte in E by auto.
  assert (Hsz : szrest z (b :: rest1) =
     if b <? 128 then Some ((if z_signed z2 then - z_value z2 else z_value z2), rest1) else szrest z2 rest1).
  { unfold szrest. rewrite Ec. destruct (z_cons z) eqn:Ez.
    - destruct (S1 eq_refl) as (_ & T1 & T2 & T3). rewrite T1, T2, T3. cbn [dec_usize]. destruct (Hz Ez) as (O1 & O2 & O3).
      destruct (Z.ltb_spec b 128); [rewrite Z.mod_small by lia; reflexivity|].
      destruct (dec_usize rest1) as [[y l]|]; [|reflexivity]. cbv zeta.
      replace (z_value z + (b - 128 + 128 * y) * 2 ^ z_offset z) with (z_value z + b mod 128 * 2 ^ z_offset z + y * 2 ^ (z_offset z + 7)); [reflexivity|].
      rewrite Z.pow_add_r by lia. change (2 ^ 7) with 128. replace (b mod 128) with (b - 128) by lia. ring.
    - destruct (S2 eq_refl) as (T1 & T2 & T3). rewrite T1, T2, T3. cbn [dec_size].
      destruct (Z.ltb_spec b 128); [reflexivity|]. destruct (dec_usize rest1) as [[y l]|]; [|reflexivity]. cbv zeta.
      change (2 ^ 6) with 64. replace (y * 64) with (64 * y) by lia. reflexivity. }
  rewrite Hsz. destruct (b <? 128).
  - inv E. split; [|intros; exfalso; lia]. intros _. cbn. split; [destruct (z_signed z2); lia|]. split; [auto|]. exists rest1. auto.
  - change (zlen [b]) with 1 in E. destruct (IHK _ _ _ _ _ _ _ _ _ _ _ Hf G4 Hz1 E) as [J1 J2]. split; [exact J1|].
    intros X. destruct (J2 X) as (J3 & rest2 & J4 & J5 & J6). split; [auto|]. exists rest2. splits; auto. cbn [length]. lia.
Qed.

(** ** The invariant *)

Context {W : Type} (E : seq_env W).
Notation CE := (counting E).
Variable patch : list Z.
Variable body : list Z.
Variable c : comp.
Hypothesis Hpatch : bytes_ok patch.
Hypothesis Hcomp : announced_comp patch = comp_number c.
Hypothesis Hbody : compressed c body (body_of patch).
Hypothesis Hbytes : bytes_ok body.
Hypothesis Hsizes : sizes_nonneg body = true.

Definition limit : Z := match announced_size patch with Some v => v | None => 0 end.

Definition field_ok (f : list Z) (s : ap) : Prop :=
  exists r rest, a_reader s = Some r /\ gives f r (a_left s) rest /\ zok (a_rsize s) /\
    match a_state s with
    | SDfpatchSize => match szrest (a_rsize s) rest with None => True | Some (_, l) => recs_ok l end
    | SDiffSize => at_diff (szrest (a_rsize s) rest)
    | SExtraSize => at_extra (szrest (a_rsize s) rest)
    | SAdjustment => at_next (szrest (a_rsize s) rest)
    | SDiffData => z_cons (a_rsize s) = false /\ at_extra (dec_size (zdrop (a_chunk_size s) rest)) /\
        0 <= a_chunk_size s /\ a_to_offset s + a_chunk_size s <= a_to_size s
    | SExtraData => z_cons (a_rsize s) = false /\ at_next (dec_size (zdrop (a_chunk_size s) rest)) /\
        0 <= a_chunk_size s /\ a_to_offset s + a_chunk_size s <= a_to_size s
    | _ => True
    end.

Definition binv (f : list Z) (s : ap) (n : Z) : Prop :=
  match a_state s with
  | SInit => n = 0 /\ a_to_offset s = 0 /\ bytes_ok (a_left s) /\
      if a_to_init s then
        zok (a_size s) /\ a_compression s = comp_number c /\
        forall v z1 l1, unpack_header_size (a_left s ++ f) (a_size s) = Ret (0, v, z1, l1) ->
          announced_size patch = Some v /\ l1 = body_of patch
      else a_left s ++ f = patch
  | SDone | SFailed => n <= limit
  | _ => announced_size patch = Some (a_to_size s) /\ a_to_offset s = n /\ 0 <= n <= a_to_size s /\ a_to_size s < 2 ^ 27 /\ field_ok f s
  end.

Lemma limit_nonneg : 0 <= limit.
Proof using Hpatch.
  clear - Hpatch. unfold limit, announced_size. destruct patch as [|a [|b l]]; cbn [tl]; try lia. inv Hpatch. inv H2.
  assert (G : forall l v r, bytes_ok l -> dec_usize l = Some (v, r) -> 0 <= v).
  { clear. induction l as [|x l IH]; intros v r Hl D; cbn [dec_usize] in D; [discriminate|]. inv Hl. unfold byte_ok in H1.
    destruct (Z.ltb_spec x 128); [inv D; lia|]. destruct (dec_usize l) as [[v' r']|] eqn:D'; [|discriminate]. assert (v = x - 128 + 128 * v') by congruence. specialize (IH v' r' H2 eq_refl). lia. }
  destruct (b <? 128); [lia|]. destruct (dec_usize l) as [[v r]|] eqn:D; [|lia]. apply G in D; auto. lia.
Qed.

Lemma binv_le : forall f s n, binv f s n -> n <= limit.
Proof using Hpatch.
  clear - Hpatch. intros f s n H. pose proof limit_nonneg. unfold binv in H. destruct (a_state s); [destruct H; lia| | | | | | |exact H|exact H];
    destruct H as (A & _ & B & _); unfold limit; rewrite A; lia.
Qed.

Lemma init_gives : forall f l1 r ps, bytes_ok f -> l1 ++ f = body_of patch -> bytes_ok l1 -> reader_init ps (comp_number c) = Some r ->
  gives f r l1 body.
Proof.
  intros f l1 r ps Hf El Hl Hr. split; [auto|]. split; [auto|].
  assert (Hs : bytes_ok (body_of patch)) by (rewrite <- El; apply Forall_app; auto).
  destruct (reader_init_comp (zlen (body_of patch)) c) as (r' & R1 & _).
  assert (Hc : c = CompNone \/ c <> CompNone) by (destruct c; auto; right; discriminate). destruct Hc as [Ec|Hc].
  - rewrite Ec in Hr, Hbody. inv Hr. inv Hbody. congruence.
  - destruct (stream_will _ _ _ _ Hc Hbody Hs R1) as (A & B & D).
    assert (r' = r) by (clear - Hc R1 Hr; destruct c; cbn in *; congruence). subst r'. rewrite El.
    destruct r; [destruct A|auto|auto].
Qed.

Lemma field_dec : forall f s n0 r rest res out r1 l1, bytes_ok f -> 1 <= n0 -> a_reader s = Some r -> gives f r (a_left s) rest ->
  decompress r (a_left s) n0 = Ret (res, out, r1, l1) -> res = 0 -> exists rest1, rest = out ++ rest1 /\ out <> [] /\ gives f r1 l1 rest1.
Proof.
  intros f s n0 r rest res out r1 l1 Hf Hn Hr Hg Ed ->. destruct (gives_dec _ _ _ _ _ _ _ _ _ Hf Hg Hn Ed) as [A _].
  destruct (A eq_refl) as (B & rest1 & C & D). eauto.
Qed.

Lemma announced_body : forall b l z v z1 l1, bytes_ok l -> z_cons z = false ->
  unpack_header_size l z = Ret (0, v, z1, l1) -> announced_size (b :: l) = Some v /\ l1 = body_of (b :: l).
Proof.
  intros b l z v z1 l1 Hl Hz U. split; [eapply uhs_announced; eauto|]. eapply uhs_after; eauto. intros X. congruence.
Qed.

Lemma init_bound : forall f s n res s1, bytes_ok f -> a_state s = SInit -> binv f s n -> process_init s = Ret (res, s1) -> 0 <= res -> binv f s1 n.
Proof.
  intros f s n res s1 Hf Es Hi H Hr. unfold binv in Hi. rewrite Es in Hi. destruct Hi as (-> & Ho & Hb & Hi). unfold process_init in H.
  pose proof (pow2_32_le word_bits Hword).
  destruct (a_to_init s) eqn:Et.
  - destruct Hi as (Hz & Hc & Hi). unfold process_init_to_size in H.
    destruct (uhs_app (a_left s) (a_size s) f Hz)
      as [(z1 & P & Q & R)|[(v & z1 & l1 & used & P & Q & R & S)|(z1 & l1 & P & R)]]; rewrite P in H; cbn [obind] in H; cbv zeta in H.
    + inv H. unfold binv. cbn. rewrite Es, Et. splits; auto; [constructor|]. intros v z2 l2 U. apply (Hi v z2 l2). rewrite R. exact U.
    + change (negb (0 =? 0)) with false in H. cbv iota in H.
      assert (Hl1 : bytes_ok l1) by (rewrite R in Hb; apply Forall_app in Hb; tauto).
      destruct (Hi _ _ _ S) as [I1 I2].
      destruct (reader_init _ _) as [r|] eqn:Er; [|inv H; unfold E_BAD_COMPRESSION in Hr; lia].
      cbn [a_compression set_header] in Er. rewrite Hc in Er.
      pose proof (init_gives f l1 r _ Hf I2 Hl1 Er) as G.
      destruct (Z.ltb_spec v 0); [lia|]. inv H.
      unfold binv. cbn -[Z.pow wrap Z.ltb Z.lt Z.le]. rewrite !(wrap_small v) by lia. destruct (Z.ltb_spec 0 v).
      * splits; auto; try lia. exists r, body. cbn. splits; auto; [intros X; discriminate|].
        unfold szrest. cbn [z_cons]. unfold sizes_nonneg in Hsizes. destruct (dec_size body) as [[d l]|]; [|auto].
        intros k. apply (records_all (length l)); auto.
      * unfold limit. rewrite I1. lia.
    + inv H. unfold E_CORRUPT_PATCH_OVERFLOW in Hr. lia.
  - unfold process_init_fixed_header in H. destruct (a_left s) as [|b l] eqn:El; [inv H; unfold E_SHORT_HEADER in Hr; lia|].
    cbv zeta in H. destruct (negb _); inv H; [unfold E_BAD_PATCH_TYPE in Hr; lia|].
    inv Hb. unfold binv. cbn. rewrite Es. splits; auto.
    + intros X; discriminate.
    + rewrite <- Hi in Hcomp. exact Hcomp.
    + intros v z1 l1 U. rewrite <- Hi. cbn [app]. eapply announced_body; [| |exact U]; [apply Forall_app; auto|reflexivity].
Qed.

Lemma unpack_bound : forall f z r left rest res v z1 r1 l1, bytes_ok f -> gives f r left rest -> zok z ->
  unpack_size z r left = Ret (res, v, z1, r1, l1) -> 0 <= res ->
  (res = 0 /\ - 2 ^ 27 < v < 2 ^ 27 /\ z_cons z1 = false /\ zok z1 /\ exists rest1, szrest z rest = Some (v, rest1) /\ gives f r1 l1 rest1) \/
  (res = 1 /\ zok z1 /\ exists rest1, szrest z1 rest1 = szrest z rest /\ gives f r1 l1 rest1).
Proof.
  intros f z r left rest res v z1 r1 l1 Hf Hg Hz U Hr. pose proof (unpack_code 6 z r left None 1) as C. unfold unpack_size in U.
  specialize (C _ _ _ _ _ U). destruct (gives_unpack _ _ _ _ _ _ _ _ _ _ _ _ Hf Hg Hz U) as [A B].
  destruct C as [->|[->|C]]; [left|right|lia].
  - destruct (A eq_refl) as (A1 & A2 & A3). splits; auto; try lia. intros X. congruence.
  - destruct (B eq_refl) as (B1 & rest1 & B2 & B3 & _). eauto 6.
Qed.

Lemma once_bound : forall f s w n res s1 w1 n1, bytes_ok f -> binv f s n ->
  process_once CE 128 s (w, n) = Ret (res, s1, (w1, n1)) -> binv f s1 n1.
Proof.
  intros f s w n res s1 w1 n1 Hf Hi H. pose proof (binv_le _ _ _ Hi) as Hle.
  pose proof (pow2_32_le word_bits Hword).
  unfold process_once in H. apply obind_ret in H. destruct H as ([[r0 s0] [w0 n0]] & A & H).
  assert (K : n0 <= limit /\ (0 <= r0 -> binv f s0 n0) -> a_state s <> SDone -> binv f s1 n1).
  { intros [K1 K2] Hnd. assert (Hx : Ret (r0, if r0 <? 0 then set_st s0 SFailed else s0, (w0, n0)) = Ret (res, s1, (w1, n1))) by (destruct (a_state s); try exact H; congruence).
    inv Hx. destruct (Z.ltb_spec res 0); [exact K1|apply K2; lia]. }
  assert (Kd : a_state s = SDone -> binv f s1 n1).
  { intros Es. rewrite Es in A, H. inv A. inv H. exact Hi. }
  destruct (a_state s) eqn:Es; try (apply K; [|discriminate]); try (apply Kd; reflexivity); clear K Kd H;
    try (apply obind_ret in A; destruct A as ([r2 s2] & A & A2); inv A2).
  - split; [auto|]. intros Hr. eapply init_bound; eauto.
  - split; [auto|]. intros Hr. unfold binv in Hi. rewrite Es in Hi. destruct Hi as (I1 & I2 & I3 & I4 & r & rest & J1 & J2 & J3 & J4).
    unfold process_dfpatch_size in A. rewrite J1 in A.
    apply obind_ret in A. destruct A as ([[[[r1 v] z1] r2] l1] & A & C). cbv zeta in C. rewrite Es in J4.
    destruct (Z.eqb_spec r1 0) as [->|Hne]; cbn [negb] in C.
    + destruct (unpack_bound _ _ _ _ _ _ _ _ _ _ Hf J2 J3 A (Z.le_refl 0)) as [(_ & U1 & U2 & U3 & rest1 & U4 & U5)|(X & _)]; [|lia].
      rewrite U4 in J4. destruct (0 <? v); inv C; [unfold E_NOT_IMPLEMENTED in Hr; lia|].
      unfold binv. cbn. splits; auto; try lia. exists r2, rest1. cbn. splits; auto. unfold szrest. rewrite U2. apply recs_at. auto.
    + inv C. destruct (unpack_bound _ _ _ _ _ _ _ _ _ _ Hf J2 J3 A Hr) as [(X & _)|(_ & U1 & rest1 & U2 & U3)]; [lia|].
      unfold binv. cbn. rewrite Es. splits; auto; try lia. exists r2, rest1. cbn. rewrite Es, U2. splits; auto.
  - split; [auto|]. intros Hr. unfold binv in Hi. rewrite Es in Hi. destruct Hi as (I1 & I2 & I3 & I4 & r & rest & J1 & J2 & J3 & J4).
    unfold process_size, common_process_size in A. rewrite J1 in A.
    apply obind_ret in A. destruct A as ([[[[r1 v] z1] r2] l1] & A & C). cbv zeta in C. rewrite Es in J4.
    apply obind_ret in A. destruct A as ([[[[r1' v'] z1'] r2'] l1'] & A & D).
    destruct (Z.eqb_spec r1' 0) as [->|Hne]; cbn [negb] in D.
    + destruct (unpack_bound _ _ _ _ _ _ _ _ _ _ Hf J2 J3 A (Z.le_refl 0)) as [(_ & U1 & U2 & U3 & rest1 & U4 & U5)|(X & _)]; [|lia].
      rewrite U4 in J4. cbn [at_diff] in J4. destruct J4 as [J4 J5]. rewrite (wrap_small v') in D by lia. rewrite wrap_small in D by lia.
      destruct (Z.ltb_spec (a_to_size s) (a_to_offset s + v')); inv D; [change (negb (- E_CORRUPT_PATCH =? 0)) with true in C; inv C; unfold E_CORRUPT_PATCH in Hr; lia|].
      change (negb (0 =? 0)) with false in C. cbv iota in C. inv C. unfold binv. cbn. splits; auto; try lia. exists r2, rest1. cbn.
      rewrite wrap_small by lia. splits; auto; try lia.
    + inv D. destruct (Z.eqb_spec r1 0); [congruence|]. cbn [negb] in C. inv C.
      destruct (unpack_bound _ _ _ _ _ _ _ _ _ _ Hf J2 J3 A Hr) as [(X & _)|(_ & U1 & rest1 & U2 & U3)]; [lia|].
      unfold binv. cbn. rewrite Es. splits; auto; try lia. exists r2, rest1. cbn. rewrite Es, U2. splits; auto.
  - unfold binv in Hi. rewrite Es in Hi. destruct Hi as (I1 & I2 & I3 & I4 & r & rest & J1 & J2 & J3 & J4). rewrite Es in J4. destruct J4 as (J4 & J5 & J6 & J7).
    assert (Hlim : limit = a_to_size s) by (unfold limit; rewrite I1; auto).
    unfold process_data in A. cbv zeta in A. destruct (Z.eqb_spec (Z.min 128 (a_chunk_size s)) 0) as [Ez|Nz].
    { inv A. split; [auto|]. intros _. unfold binv. cbn. splits; auto; try lia. exists r, rest. cbn. splits; auto.
      unfold szrest. rewrite J4. replace (a_chunk_size s) with 0 in J5 by lia. exact J5. }
    rewrite J1 in A. apply obind_ret in A. destruct A as ([[[r1 o] r2] l1] & A & C).
    assert (Hmin : 1 <= Z.min 128 (a_chunk_size s)) by lia.
    destruct (gives_dec _ _ _ _ _ _ _ _ _ Hf J2 Hmin A) as [G1 G2].
    assert (Ho : r1 = 0 -> zlen o <= a_chunk_size s).
    { intros ->. pose proof (gives_len _ _ _ _ _ _ _ _ J2 Hmin A). lia. }
    destruct (Z.eqb_spec r1 0) as [->|Hne]; cbn [negb] in C.
    2:{ inv C. split; [lia|]. intros Hr. apply decompress_code in A. assert (r0 = 1) by (destruct A as [|[|]]; lia). subst r0.
        unfold binv. cbn. rewrite Es. splits; auto; try lia. exists r2, rest. cbn. rewrite Es. splits; auto. }
    destruct (G1 eq_refl) as (G3 & rest1 & -> & G4). specialize (Ho eq_refl). pose proof (zlen_nonneg o) as Hzo.
    apply obind_ret in C. destruct C as ([[[io data] s2] [w2 n2]] & C & F).
    cbn [from_read counting fst snd] in C. destruct (from_read E w (zlen o)) as [[rr fr] w3].
    destruct (negb _); [inv C; cbv iota in F; inv F; split; [lia|]; unfold E_IO_FAILED; lia|].
    apply obind_ret in C. destruct C as (dd & C1 & C). inv C. apply add_data_len in C1. cbv iota in F.
    cbn [to_write counting fst snd] in F. destruct (to_write E w2 data) as [rw w4].
    destruct (negb _); inv F; [split; [lia|]; unfold E_IO_FAILED; lia|].
    split; [lia|]. intros _. unfold binv. cbn. rewrite Es, C1. rewrite wrap_small by lia. splits; auto; try lia.
    exists r2, rest1. cbn. rewrite Es. rewrite !wrap_small by lia. splits; auto; try lia.
    rewrite zdrop_app_r in J5 by lia. exact J5.
  - split; [auto|]. intros Hr. unfold binv in Hi. rewrite Es in Hi. destruct Hi as (I1 & I2 & I3 & I4 & r & rest & J1 & J2 & J3 & J4).
    unfold process_size, common_process_size in A. rewrite J1 in A.
    apply obind_ret in A. destruct A as ([[[[r1 v] z1] r2] l1] & A & C). cbv zeta in C. rewrite Es in J4.
    apply obind_ret in A. destruct A as ([[[[r1' v'] z1'] r2'] l1'] & A & D).
    destruct (Z.eqb_spec r1' 0) as [->|Hne]; cbn [negb] in D.
    + destruct (unpack_bound _ _ _ _ _ _ _ _ _ _ Hf J2 J3 A (Z.le_refl 0)) as [(_ & U1 & U2 & U3 & rest1 & U4 & U5)|(X & _)]; [|lia].
      rewrite U4 in J4. cbn [at_extra] in J4. destruct J4 as [J4 J5]. rewrite (wrap_small v') in D by lia. rewrite wrap_small in D by lia.
      destruct (Z.ltb_spec (a_to_size s) (a_to_offset s + v')); inv D; [change (negb (- E_CORRUPT_PATCH =? 0)) with true in C; inv C; unfold E_CORRUPT_PATCH in Hr; lia|].
      change (negb (0 =? 0)) with false in C. cbv iota in C. inv C. unfold binv. cbn. splits; auto; try lia. exists r2, rest1. cbn.
      rewrite wrap_small by lia. splits; auto; try lia.
    + inv D. destruct (Z.eqb_spec r1 0); [congruence|]. cbn [negb] in C. inv C.
      destruct (unpack_bound _ _ _ _ _ _ _ _ _ _ Hf J2 J3 A Hr) as [(X & _)|(_ & U1 & rest1 & U2 & U3)]; [lia|].
      unfold binv. cbn. rewrite Es. splits; auto; try lia. exists r2, rest1. cbn. rewrite Es, U2. splits; auto.
  - unfold binv in Hi. rewrite Es in Hi. destruct Hi as (I1 & I2 & I3 & I4 & r & rest & J1 & J2 & J3 & J4). rewrite Es in J4. destruct J4 as (J4 & J5 & J6 & J7).
    assert (Hlim : limit = a_to_size s) by (unfold limit; rewrite I1; auto).
    unfold process_data in A. cbv zeta in A. destruct (Z.eqb_spec (Z.min 128 (a_chunk_size s)) 0) as [Ez|Nz].
    { inv A. split; [auto|]. intros _. unfold binv. cbn. splits; auto; try lia. exists r, rest. cbn. splits; auto.
      unfold szrest. rewrite J4. replace (a_chunk_size s) with 0 in J5 by lia. exact J5. }
    rewrite J1 in A. apply obind_ret in A. destruct A as ([[[r1 o] r2] l1] & A & C).
    assert (Hmin : 1 <= Z.min 128 (a_chunk_size s)) by lia.
    destruct (gives_dec _ _ _ _ _ _ _ _ _ Hf J2 Hmin A) as [G1 G2].
    assert (Ho : r1 = 0 -> zlen o <= a_chunk_size s).
    { intros ->. pose proof (gives_len _ _ _ _ _ _ _ _ J2 Hmin A). lia. }
    destruct (Z.eqb_spec r1 0) as [->|Hne]; cbn [negb] in C.
    2:{ inv C. split; [lia|]. intros Hr. apply decompress_code in A. assert (r0 = 1) by (destruct A as [|[|]]; lia). subst r0.
        unfold binv. cbn. rewrite Es. splits; auto; try lia. exists r2, rest. cbn. rewrite Es. splits; auto. }
    destruct (G1 eq_refl) as (G3 & rest1 & -> & G4). specialize (Ho eq_refl). pose proof (zlen_nonneg o) as Hzo.
    cbn [obind] in C. cbn [to_write counting fst snd] in C. destruct (to_write E w o) as [rw w4].
    destruct (negb _); inv C; [split; [lia|]; unfold E_IO_FAILED; lia|].
    split; [lia|]. intros _. unfold binv. cbn. rewrite Es. rewrite wrap_small by lia. splits; auto; try lia.
    exists r2, rest1. cbn. rewrite Es. rewrite !wrap_small by lia. splits; auto; try lia.
    rewrite zdrop_app_r in J5 by lia. exact J5.
  - unfold binv in Hi. rewrite Es in Hi. destruct Hi as (I1 & I2 & I3 & I4 & r & rest & J1 & J2 & J3 & J4).
    unfold process_adjustment in A. rewrite J1 in A.
    apply obind_ret in A. destruct A as ([[[[r1 v] z1] r2] l1] & A & C). cbv zeta in C. rewrite Es in J4.
    destruct (Z.eqb_spec r1 0) as [->|Hne]; cbn [negb] in C.
    + destruct (unpack_bound _ _ _ _ _ _ _ _ _ _ Hf J2 J3 A (Z.le_refl 0)) as [(_ & U1 & U2 & U3 & rest1 & U4 & U5)|(X & _)]; [|lia].
      rewrite U4 in J4. cbn [from_seek counting fst snd] in C. destruct (from_seek E w v) as [rs w3].
      destruct (negb _); [inv C; split; [auto|]; unfold E_IO_FAILED; lia|].
      apply obind_ret in C. destruct C as (fo & _ & C). inv C. split; [auto|]. intros _. unfold binv. cbn.
      destruct (_ =? _); [auto|]. splits; auto; try lia.
      exists r2, rest1. cbn. splits; auto. unfold szrest. rewrite U2. apply recs_at. exact J4.
    + inv C. split; [auto|]. intros Hr.
      destruct (unpack_bound _ _ _ _ _ _ _ _ _ _ Hf J2 J3 A Hr) as [(X & _)|(_ & U1 & rest1 & U2 & U3)]; [lia|].
      unfold binv. cbn. rewrite Es. splits; auto; try lia. exists r2, rest1. cbn. rewrite Es, U2. splits; auto.
  - inv A. split; [auto|]. unfold E_ALREADY_FAILED. lia.
Qed.

Lemma binv_chunk : forall f s n p, bytes_ok p -> binv (p ++ f) (set_chunk s []) n -> binv f (set_chunk s p) n.
Proof.
  intros f s n p Hp H. unfold binv, field_ok in *. cbn in *. destruct (a_state s); auto; [destruct H as (A & B & _ & D); auto|..];
    (destruct H as (A & B & C & D & r & rest & G1 & (G2 & G3 & G4) & G5); splits; auto; try lia;
     exists r, rest; split; [auto|]; split; [split; [auto|split; auto]|auto]).
Qed.

Lemma loop_bound : forall fuel f res s w n res1 s1 w1 n1, bytes_ok f -> binv f s n ->
  (res < 0 -> a_state s = SDone \/ a_state s = SFailed) ->
  process_loop CE fuel 128 res s (w, n) = Ret (res1, s1, (w1, n1)) -> binv f (set_chunk s1 []) n1.
Proof.
  induction fuel; intros f res s w n res1 s1 w1 n1 Hf Hi Hr X; cbn [process_loop] in X.
  - destruct (a_left s) eqn:El.
    { inv X. unfold binv, field_ok in *. cbn. rewrite El in Hi. exact Hi. }
    destruct (Z.ltb_spec res 0); [|discriminate]. inv X. unfold binv, field_ok in *. cbn. destruct (Hr H) as [Y|Y]; rewrite Y in *; exact Hi.
  - destruct (a_left s) eqn:El.
    { inv X. unfold binv, field_ok in *. cbn. rewrite El in Hi. exact Hi. }
    destruct (Z.ltb_spec res 0). { inv X. unfold binv, field_ok in *. cbn. destruct (Hr H) as [Y|Y]; rewrite Y in *; exact Hi. }
    apply obind_ret in X. destruct X as ([[r2 s2] [w2 n2]] & A & X).
    eapply IHfuel; [exact Hf|eapply once_bound; eauto| |exact X].
    intros Y. apply once_code in A. destruct A as [(A1 & A2 & A3 & A4)|[(A1 & A2 & A3 & A4)|(A1 & A2 & A3 & A4)]]; subst; auto.
Qed.

(** Nothing is left over when a step asks for more. *)
Lemma usize_left : forall l u v u1 l1, unpack_usize_loop l u = Ret (1, v, u1, l1) -> l1 = [].
Proof.
  clear. induction l; intros u v u1 l1 X; cbn [unpack_usize_loop] in X; [inv X; auto|].
  destruct (is_overflow _); [inv X|]. apply obind_ret in X. destruct X as (x & A & X).
  destruct (_ =? 0); [inv X|eauto].
Qed.

Lemma crle_step_left : forall s l n o s1 l1, crle_step s l n = Ret (1, o, s1, l1) -> l1 = [].
Proof.
  clear. intros s l n o s1 l1 X. unfold crle_step in X.
  repeat match goal with
  | E : match ?x with _ => _ end = Ret _ |- _ => destruct x eqn:?
  | E : obind _ _ = Ret _ |- _ => apply obind_ret in E; destruct E as ([[[? ?] ?] ?] & ? & E)
  | E : (let _ := _ in _) = Ret _ |- _ => cbv zeta in E
  | E : Ret _ = Ret _ |- _ => inv E
  | E : Undef = Ret _ |- _ => discriminate E
  | E : OutOfFuel = Ret _ |- _ => discriminate E
  end; auto; unfold unpack_usize in *; eapply usize_left; eassumption.
Qed.

Lemma crle_loop_left : forall k s l n o s1 l1, crle_loop k s l n = Ret (1, o, s1, l1) -> l1 = [].
Proof.
  clear. induction k; intros s l n o s1 l1 X; cbn [crle_loop] in X; [discriminate|].
  apply obind_ret in X. destruct X as ([[[r1 o1] s2] l2] & A & X).
  destruct (Z.eqb_spec r1 2); [eauto|]. inv X. eapply crle_step_left; eauto.
Qed.

Lemma hs_loop_left : forall l d n out o d1 l1, hs_decompress_loop l d n out = Ret (1, o, d1, l1) -> l1 = [].
Proof.
  clear. induction l; intros d n out o d1 l1 X; rewrite hs_loop_unfold in X;
    apply obind_ret in X; destruct X as ([d2 o1] & A & X); cbv zeta in X;
    (destruct (_ =? 0); [inv X|]).
  - destruct (_ =? 0); inv X; auto.
  - apply obind_ret in X. destruct X as (od & B & X). destruct od; [eauto|inv X].
Qed.

Lemma decompress_left : forall r l n o r1 l1, decompress r l n = Ret (1, o, r1, l1) -> l1 = [].
Proof.
  clear. intros [ps po|s|h] l n o r1 l1 X; cbn [decompress] in X.
  - unfold none_decompress in X. destruct (_ <? _); [inv X|]. destruct l; inv X; auto.
  - apply obind_ret in X. destruct X as ([[[a b] c] d] & A & X). inv X. eapply crle_loop_left; exact A.
  - apply obind_ret in X. destruct X as ([[[a b] c] d] & A & X). inv X. unfold hs_decompress in A.
    assert (B : forall h l, (if hr_ptr h then match hr_dec h with
        | Some d => letm (res, out, d1, left1) := hs_decompress_loop l d n [] in
            Ret (res, out, mkhr (hr_window h) (hr_lookahead h) true (Some d1), left1)
        | None => Undef end else Ret (- E_HEATSHRINK_POLL, [], h, l)) = Ret (1, o, c, l1) -> l1 = []).
    { intros h0 l0 B. destruct (hr_ptr h0); [|inv B]. destruct (hr_dec h0); [|discriminate].
      apply obind_ret in B. destruct B as ([[[a' b'] c'] d'] & B & E). inv E. eapply hs_loop_left; eauto. }
    destruct (hr_window h =? -1); [|eapply B; exact A].
    destruct l; [inv A; auto|]. destruct (negb _ || negb _); [inv A|].
    exact (B (mkhr (Z.land (Z.shiftr z 4) 15 + 4) (Z.land z 15 + 3) true (Some (hs_reset (Z.land (Z.shiftr z 4) 15 + 4)))) l A).
Qed.

Lemma unpack_left : forall K z r l b n v z1 r1 l1, unpack_size_loop K z r l b n = Ret (1, v, z1, r1, l1) -> l1 = [].
Proof.
  clear. induction K; intros z r l b n v z1 r1 l1 X; cbn [unpack_size_loop] in X; [discriminate|].
  apply obind_ret in X. destruct X as ([[[r0 o0] r2] l2] & A & X).
  destruct (Z.eqb_spec r0 0); cbn [negb] in X; [|inv X; eapply decompress_left; eauto].
  destruct (match o0 with [] => b | x :: _ => Some x end); [|discriminate].
  apply obind_ret in X. destruct X as ([z2|] & B & X); [|inv X].
  destruct (_ =? 0); [inv X|eauto].
Qed.

Lemma uhs_left : forall l z v z1 l1, unpack_header_size l z = Ret (1, v, z1, l1) -> l1 = [].
Proof.
  clear. induction l; intros z v z1 l1 X; [inv X; auto|]. rewrite uhs_unfold in X.
  apply obind_ret in X. destruct X as ([z2|] & B & X); [|inv X].
  destruct (_ =? 0); [inv X|eauto].
Qed.

Lemma once_left : forall {W} (E : seq_env W) B s w s1 w1, process_once E B s w = Ret (1, s1, w1) -> a_left s1 = [].
Proof.
  clear. intros W E B s w s1 w1 H. unfold process_once in H.
  apply obind_ret in H. destruct H as ([[r0 s0] w0] & A & H).
  assert (K : (r0 = 1 -> a_left s0 = []) -> a_left s1 = []).
  { intros K. destruct (a_state s); inv H; apply K; reflexivity. }
  apply K. clear K H. intros ->.
  destruct (a_state s) eqn:Es;
    try (apply obind_ret in A; destruct A as ([r2 s2] & A & A2); inv A2).
  - unfold process_init in A. destruct (a_to_init s).
    + unfold process_init_to_size in A. apply obind_ret in A. destruct A as ([[[r1 v] z1] l1] & A & C). cbv zeta in C.
      destruct (Z.eqb_spec r1 0); cbn [negb] in C.
      * destruct (reader_init _ _); [|inv C]. destruct (v <? 0); inv C.
      * inv C. eapply uhs_left; eauto.
    + unfold process_init_fixed_header in A. destruct (a_left s); [inv A|]. cbv zeta in A. destruct (negb _); inv A.
  - unfold process_dfpatch_size in A. destruct (a_reader s); [|discriminate].
    apply obind_ret in A. destruct A as ([[[[r1 v] z1] r2] l1] & A & C). cbv zeta in C.
    destruct (negb _); [inv C; eapply unpack_left; eauto|]. destruct (0 <? v); inv C.
  - unfold process_size, common_process_size in A. destruct (a_reader s); [|discriminate].
    apply obind_ret in A. destruct A as ([[[[r1 v] z1] r2] l1] & A & C). cbv zeta in C.
    apply obind_ret in A. destruct A as ([[[[r1' v'] z1'] r2'] l1'] & A & D).
    destruct (Z.eqb_spec r1' 0); cbn [negb] in D.
    + destruct (_ <? _); inv D; destruct (negb _) eqn:?; inv C.
    + inv D. destruct (negb _) eqn:?; inv C. eapply unpack_left; eauto.
  - unfold process_data in A. cbv zeta in A. destruct (_ =? 0); [inv A|].
    destruct (a_reader s); [|discriminate]. apply obind_ret in A. destruct A as ([[[r1 o] r2] l1] & A & C).
    destruct (Z.eqb_spec r1 0); cbn [negb] in C; [|inv C; eapply decompress_left; eauto].
    apply obind_ret in C. destruct C as ([[[io data] s2] w2] & C & D). destruct io; [inv D|].
    destruct (to_write E w2 data). destruct (negb _); inv D.
  - unfold process_size, common_process_size in A. destruct (a_reader s); [|discriminate].
    apply obind_ret in A. destruct A as ([[[[r1 v] z1] r2] l1] & A & C). cbv zeta in C.
    apply obind_ret in A. destruct A as ([[[[r1' v'] z1'] r2'] l1'] & A & D).
    destruct (Z.eqb_spec r1' 0); cbn [negb] in D.
    + destruct (_ <? _); inv D; destruct (negb _) eqn:?; inv C.
    + inv D. destruct (negb _) eqn:?; inv C. eapply unpack_left; eauto.
  - unfold process_data in A. cbv zeta in A. destruct (_ =? 0); [inv A|].
    destruct (a_reader s); [|discriminate]. apply obind_ret in A. destruct A as ([[[r1 o] r2] l1] & A & C).
    destruct (Z.eqb_spec r1 0); cbn [negb] in C; [|inv C; eapply decompress_left; eauto].
    cbn [obind] in C. destruct (to_write E w o). destruct (negb _); inv C.
  - unfold process_adjustment in A. destruct (a_reader s); [|discriminate].
    apply obind_ret in A. destruct A as ([[[[r1 v] z1] r2] l1] & A & C). cbv zeta in C.
    destruct (negb _); [inv C; eapply unpack_left; eauto|]. destruct (from_seek E w v). destruct (negb _); [inv C|].
    apply obind_ret in C. destruct C as (fo & _ & C). inv C.
  - inv A.
  - inv A.
Qed.

Lemma finloop_bound : forall fuel f s w n res1 s1 w1 n1, bytes_ok f -> binv f s n ->
  finalize_loop CE fuel 128 s (w, n) = Ret (res1, s1, (w1, n1)) -> binv f (set_chunk s1 []) n1.
Proof.
  induction fuel; intros f s w n res1 s1 w1 n1 Hf Hi X; cbn [finalize_loop] in X; [discriminate|].
  apply obind_ret in X. destruct X as ([[r2 s2] [w2 n2]] & A & X).
  assert (Hi2 : binv f s2 n2) by (eapply once_bound; eauto).
  destruct (Z.eqb_spec r2 0); [eapply IHfuel; eauto|]. inv X.
  assert (Y : a_state s1 = SDone \/ a_state s1 = SFailed \/ a_left s1 = []).
  { pose proof A as A'. apply once_code in A. destruct A as [(A1 & A2 & A3 & A4)|[(A1 & A2 & A3 & A4)|(A1 & A2 & A3 & A4)]]; subst; auto.
    destruct A3 as [|[->|[]]]; [congruence| |right; left; apply A4; lia]. right; right. eapply once_left; eauto. }
  unfold binv, field_ok in *. cbn. destruct Y as [Y|[Y|Y]]; rewrite Y in *; exact Hi2.
Qed.

Lemma run_bound : forall calls f fuel s w n rs s1 w1 n1, bytes_ok (concat (pieces_of calls) ++ f) ->
  binv (concat (pieces_of calls) ++ f) (set_chunk s []) n ->
  run_calls CE fuel s (w, n) calls = Ret (rs, s1, (w1, n1)) -> n1 <= limit.
Proof.
  induction calls as [|cl cs IH]; intros f fuel s w n rs s1 w1 n1 Hb Hi X; cbn [run_calls] in X.
  - inv X. eapply binv_le; eauto.
  - unfold pieces_of in Hb, Hi. cbn [map concat] in Hb, Hi. rewrite <- app_assoc in Hb, Hi. apply Forall_app in Hb. destruct Hb as [Hp Hb].
    apply obind_ret in X. destruct X as ([[r2 s2] [w2 n2]] & A & X).
    apply obind_ret in X. destruct X as ([[r3 s3] [w3 n3]] & B & X). inv X.
    assert (Hi2 : binv (concat (pieces_of cs) ++ f) (set_chunk s2 []) n2); [|eapply IH; eauto].
    destruct cl as [p|].
    + unfold process in A. cbv zeta in A. apply obind_ret in A. destruct A as ([[r4 s4] [w4 n4]] & A & A2). inv A2.
      eapply loop_bound; [exact Hb| | |exact A]; [|lia].
      apply binv_chunk in Hi; [|auto]. unfold binv, field_ok in *. cbn in *. exact Hi.
    + unfold finalize in A. cbv zeta in A. apply obind_ret in A. destruct A as ([[r4 s4] [w4 n4]] & A & A2).
      apply obind_ret in A2. destruct A2 as (v & _ & A2). inv A2.
      eapply finloop_bound; [exact Hb|exact Hi|exact A].
Qed.

Lemma init_binv : forall junk ps f, f = patch -> binv f (set_chunk (ap_init junk ps) []) 0.
Proof. intros junk ps f ->. unfold binv. cbn. splits; auto. constructor. Qed.

End Bound.

Lemma bounded : forall (wb : WordBits), 32 <= word_bits ->
  forall (W : Type) (E : seq_env W) junk ps c body patch more calls fuel w rs s1 w1 n,
  bytes_ok patch -> bytes_ok body -> announced_comp patch = comp_number c -> compressed c body (body_of patch) ->
  sizes_nonneg body = true -> concat (pieces_of calls) ++ more = patch ->
  run_calls (counting E) fuel (ap_init junk ps) (w, 0) calls = Ret (rs, s1, (w1, n)) ->
  n <= match announced_size patch with Some v => v | None => 0 end.
Proof.
  intros wb Hw W E junk ps c body patch more calls fuel w rs s1 w1 n Hp Hb Hc Hcomp Hs Hm X.
  eapply (run_bound Hw E patch body c Hp Hc Hcomp Hb Hs calls more); [|apply init_binv; exact Hm|exact X]. rewrite Hm. exact Hp.
Qed.
