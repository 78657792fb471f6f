(** The Python CRLE compressor and decompressor (C15, C16). *)

From Coq Require Import ZArith List Bool Lia ZifyBool ZifyNat ZifyN.
From Verif Require Import Prelude Lib Spec PySize SizeCodec PyCrle.
Import ListNotations.
Open Scope Z_scope.

Ltac Zify.zify_post_hook ::= Z.to_euclidean_division_equations.

(** ** Sizes *)

Lemma crle_pack_loop_enc : forall k a, 0 <= a < 2 ^ (7 * Z.of_nat k) ->
  exists l, crle_pack_loop k a = Ret l /\ (a = 0 -> l = []) /\
    (0 < a -> forall x, clear_last (x :: l) = x :: enc_groups k a).
Proof.
  induction k; intros a Ha.
  - change (2 ^ (7 * Z.of_nat 0)) with 1 in Ha. assert (a = 0) by lia. subst a. exists []. split; [reflexivity|]. split; [auto|lia].
  - cbn [crle_pack_loop]. destruct (Z.ltb_spec 0 a); [|exists []; split; [auto|split; [auto|lia]]].
    rewrite Z.shiftr_div_pow2 by lia. change (2 ^ 7) with 128.
    rewrite Nat2Z.inj_succ in Ha. unfold Z.succ in Ha. rewrite Z.mul_add_distr_l, Z.pow_add_r in Ha by lia.
    change (2 ^ (7 * 1)) with 128 in Ha.
    destruct (IHk (a / 128)) as (l & A & B & C). { split; [lia|]. apply Z.div_lt_upper_bound; lia. }
    rewrite A. cbn [obind]. eexists. split; [reflexivity|]. split; [lia|]. intros _ x.
    rewrite SizeCodec.land_127, lor_128 by lia. cbn [enc_groups]. destruct (Z.eqb_spec a 0); [lia|]. destruct (Z.ltb_spec a 128).
    + rewrite B by (apply Z.div_small; lia). cbn [clear_last]. rewrite SizeCodec.land_127. f_equal. f_equal. lia.
    + change (x :: clear_last (128 + a mod 128 :: l) = x :: (a mod 128 + 128) :: enc_groups k (a / 128)).
      rewrite C by lia. f_equal. f_equal. lia.
Qed.

Lemma crle_pack_enc : forall v, 0 <= v < 2 ^ 63 -> crle_pack_size v = Ret (Ok (enc_usize v)).
Proof.
  intros v Hv. unfold crle_pack_size. destruct (Z.leb_spec (2 ^ 63) v); [lia|].
  change (2 ^ 63) with 9223372036854775808 in Hv.
  destruct (crle_pack_loop_enc 9 (Z.shiftr v 7)) as (l & A & B & C).
  { rewrite Z.shiftr_div_pow2 by lia. change (2 ^ 7) with 128. change (2 ^ (7 * Z.of_nat 9)) with 9223372036854775808. lia. }
  rewrite A. cbn [obind]. f_equal. f_equal. rewrite Z.shiftr_div_pow2 in * by lia. change (2 ^ 7) with 128 in *.
  rewrite SizeCodec.land_127, lor_128 by lia. unfold enc_usize.
  destruct (Z.eqb_spec v 0) as [->|Hz]; [rewrite B by reflexivity; reflexivity|].
  cbn [enc_groups]. destruct (Z.eqb_spec v 0); [lia|].
  destruct (Z.ltb_spec v 128).
  - rewrite B by lia. cbn [clear_last]. rewrite SizeCodec.land_127. f_equal. lia.
  - rewrite C by lia. f_equal. lia.
Qed.

(** Reading back a size of which a part has arrived. *)
Lemma crle_unpack_groups : forall k a t f X v off pos, 0 < a < 2 ^ (7 * Z.of_nat k) -> 0 <= off -> 0 <= v < 2 ^ off ->
  t ++ f = enc_groups k a ++ X ->
  (exists t', t = enc_groups k a ++ t' /\ t' ++ f = X /\
     crle_unpack_loop t v off pos = Ok (v + a * 2 ^ off, pos + zlen (enc_groups k a))) \/
  (f <> [] /\ crle_unpack_loop t v off pos = PyIndexError).
Proof.
  induction k; intros a t f X v off pos Ha Ho Hv E.
  - change (2 ^ (7 * Z.of_nat 0)) with 1 in Ha. lia.
  - rewrite Nat2Z.inj_succ in Ha. unfold Z.succ in Ha. rewrite Z.mul_add_distr_l, Z.pow_add_r in Ha by lia.
    change (2 ^ (7 * 1)) with 128 in Ha. cbn [enc_groups] in *. destruct (Z.eqb_spec a 0); [lia|].
    destruct t as [|b t].
    { right. split; [|reflexivity]. cbn [app] in E. intro. subst f. destruct (a <? 128); discriminate. }
    cbn [crle_unpack_loop]. cbn [app] in E. destruct (Z.ltb_spec a 128) as [Hs|Hs].
    + injection E as E1 E2. subst b. left. exists t. split; [reflexivity|]. split; [exact E2|].
      rewrite land_128_byte by (unfold byte_ok; lia). destruct (Z.ltb_spec a 128); [|lia].
      rewrite SizeCodec.land_127. rewrite lor_add by lia. change (zlen [a]) with 1.
      rewrite (Z.mod_small a 128) by lia. reflexivity.
    + injection E as E1 E2. subst b.
      rewrite land_128_byte by (unfold byte_ok; lia). destruct (Z.ltb_spec (a mod 128 + 128) 128); [lia|].
      rewrite SizeCodec.land_127. rewrite lor_add by lia.
      assert (Hm : (a mod 128 + 128) mod 128 = a mod 128) by lia. rewrite Hm.
      assert (Hp : 2 ^ (off + 7) = 128 * 2 ^ off) by (rewrite Z.pow_add_r by lia; change (2 ^ 7) with 128; lia).
      destruct (IHk (a / 128) t f X (v + a mod 128 * 2 ^ off) (off + 7) (pos + 1)) as [(t' & A & B & C)|(A & B)].
      * split; [lia|]. apply Z.div_lt_upper_bound; lia.
      * lia.
      * rewrite Hp. assert (0 <= a mod 128 <= 127) by lia. nia.
      * exact E2.
      * left. exists t'. split; [cbn [app]; f_equal; exact A|]. split; [exact B|]. rewrite C. rewrite zlen_cons.
        f_equal. f_equal; [|lia]. rewrite Hp. pose proof (Z.div_mod a 128). nia.
      * right. auto.
Qed.

Lemma crle_unpack_enc : forall a t f X pos, 0 <= a < 2 ^ 63 -> t ++ f = enc_usize a ++ X ->
  (exists t', t = enc_usize a ++ t' /\ t' ++ f = X /\
     crle_unpack_loop t 0 0 pos = Ok (a, pos + zlen (enc_usize a))) \/
  (f <> [] /\ crle_unpack_loop t 0 0 pos = PyIndexError).
Proof.
  intros a t f X pos Ha E. unfold enc_usize in *. destruct (Z.eqb_spec a 0) as [->|].
  - destruct t as [|b t]; [right; split; [|reflexivity]; cbn [app] in E; intro; subst; discriminate|].
    injection E as E1 E2. subst b. left. exists t. auto.
  - destruct (crle_unpack_groups 10 a t f X 0 0 pos) as [(t' & A & B & C)|(A & B)]; [|lia|change (2 ^ 0) with 1; lia|exact E| |right; auto].
    + change (2 ^ (7 * Z.of_nat 10)) with 1180591620717411303424. change (2 ^ 63) with 9223372036854775808 in Ha. lia.
    + left. exists t'. split; [exact A|]. split; [exact B|]. rewrite C. change (2 ^ 0) with 1. f_equal. f_equal. lia.
Qed.

(** ** The compressor *)

Lemma run_length_spec : forall b l, 0 <= run_length b l <= zlen l /\ exists l', l = zrepeat b (run_length b l) ++ l'.
Proof.
  induction l as [|x l (A & l' & B)]; cbn [run_length].
  - split; [change (zlen (@nil Z)) with 0; lia|]. exists []. reflexivity.
  - rewrite zlen_cons. destruct (Z.eqb_spec x b) as [->|].
    + split; [lia|]. exists l'. rewrite zrepeat_cons by lia. replace (1 + run_length b l - 1) with (run_length b l) by lia. cbn [app]. congruence.
    + pose proof (zlen_nonneg l). split; [lia|]. exists (x :: l). reflexivity.
Qed.

Lemma find_repeated_spec : forall l o o' n, find_repeated l o = Some (o', n) ->
  o <= o' /\ 6 <= n /\ o' - o + n <= zlen l /\ (o' = o -> exists b l', l = zrepeat b n ++ l').
Proof.
  induction l as [|b l IH]; intros o o' n E; cbn [find_repeated] in E; [discriminate|].
  destruct (run_length_spec b (b :: l)) as (A & l' & B). unfold MINIMUM_REPEATED_SIZE in E. cbv zeta in E.
  destruct (Z.leb_spec 6 (run_length b (b :: l))).
  - remember (run_length b (b :: l)) as rl. injection E as <- <-. split; [lia|]. split; [lia|]. split; [lia|]. eauto.
  - destruct (IH _ _ _ E) as (C1 & C2 & C3 & C4). rewrite zlen_cons. split; [lia|]. split; [lia|]. split; [lia|]. lia.
Qed.

Definition seg_of (repeated : bool) (data : list Z) : seg :=
  if repeated then Repeated (zlen data) (hd 0 data) else Scattered data.

Lemma get_segment_spec : forall fl data rep d rest, data <> [] -> get_segment fl data = Some (rep, d, rest) ->
  data = d ++ rest /\ 1 <= zlen d /\ seg_expand (seg_of rep d) = d.
Proof.
  intros fl data rep d rest Hd E. unfold get_segment in E. destruct (find_repeated data 0) as [(o, n)|] eqn:F.
  - destruct (find_repeated_spec _ _ _ _ F) as (A & B & C & D). destruct (Z.ltb_spec 0 o).
    + injection E as <- <- <-. split; [symmetry; apply ztake_zdrop|]. split; [rewrite zlen_ztake by lia; lia|reflexivity].
    + assert (o = 0) by lia. destruct ((o + n <? zlen data) || fl); [|discriminate]. injection E as <- <- <-.
      split; [symmetry; apply ztake_zdrop|]. split; [rewrite zlen_ztake by lia; lia|].
      destruct (D H0) as (b & l' & E). cbn [seg_of seg_expand].
      assert (Ht : ztake n data = zrepeat b n) by (rewrite E; apply ztake_app_exact; rewrite zlen_zrepeat; lia).
      rewrite Ht. rewrite zlen_zrepeat by lia. rewrite (zrepeat_cons b n) by lia. cbn [hd]. rewrite <- zrepeat_cons by lia. reflexivity.
  - destruct fl; [|discriminate]. injection E as <- <- <-. split; [symmetry; apply app_nil_r|]. split; [|reflexivity].
    destruct data; [congruence|]. rewrite zlen_cons. pose proof (zlen_nonneg data). lia.
Qed.

Lemma get_segment_flush : forall data, exists r, get_segment true data = Some r.
Proof.
  intros. unfold get_segment. destruct (find_repeated data 0) as [(o, n)|]; [|eauto].
  destruct (0 <? o); [eauto|]. rewrite orb_true_r. eauto.
Qed.

Lemma enc_seg_of : forall rep d, 1 <= zlen d ->
  (if rep : bool then 1 else 0) :: enc_usize (zlen d) ++ (if rep then ztake 1 d else d) = enc_seg (seg_of rep d).
Proof.
  intros rep d Hd. destruct rep; [|reflexivity]. cbn [seg_of enc_seg]. destruct d; [change (zlen (@nil Z)) with 0 in Hd; lia|]. reflexivity.
Qed.

Lemma compress_segment_spec : forall fl c, zlen (cc_data c) < 2 ^ 63 ->
  (compress_segment fl c = Ret (Ok ([], c)) /\ (fl = true -> cc_data c = [])) \/
  exists s rest, compress_segment fl c = Ret (Ok (enc_seg s, mkcc rest (cc_bytes c + zlen (enc_seg s)))) /\
    cc_data c = seg_expand s ++ rest /\ 1 <= seg_len s /\ zlen (seg_expand s) = seg_len s.
Proof.
  intros fl c Hl. unfold compress_segment. destruct (Z.eqb_spec (zlen (cc_data c)) 0) as [Hz|Hz].
  - left. split; [reflexivity|]. intros _. apply zlen_0_nil. exact Hz.
  - destruct (get_segment fl (cc_data c)) as [((rep, d), rest)|] eqn:G.
    + right. destruct (get_segment_spec _ _ _ _ _ (fun E => Hz ltac:(rewrite E; reflexivity)) G) as (A & B & C).
      exists (seg_of rep d), rest. rewrite crle_pack_enc.
      2: { rewrite A, zlen_app in Hl. pose proof (zlen_nonneg rest). lia. }
      cbn [obind]. cbv zeta. rewrite enc_seg_of by lia. split; [reflexivity|]. split; [rewrite C; exact A|].
      rewrite C. assert (zlen d = seg_len (seg_of rep d)) by (destruct rep; reflexivity). lia.
    + left. split; [reflexivity|]. intros ->. destruct (get_segment_flush (cc_data c)) as (r & E). congruence.
Qed.

Lemma enc_seg_nonnil : forall s, exists x l, enc_seg s = x :: l.
Proof. destruct s; cbn [enc_seg]; eauto. Qed.

Lemma flush_loop_spec : forall fuel c acc, zlen (cc_data c) < 2 ^ 63 -> (length (cc_data c) < fuel)%nat ->
  exists segs, flush_loop fuel c acc = Ret (Ok (acc ++ enc_segs segs)) /\ segs_expand segs = cc_data c /\
    Forall (fun s => 1 <= seg_len s) segs /\ Forall (fun s => zlen (seg_expand s) = seg_len s) segs.
Proof.
  induction fuel; intros c acc Hl Hf; [lia|]. cbn [flush_loop].
  destruct (compress_segment_spec true c Hl) as [(A & B)|(s & rest & A & B & C & D)].
  - rewrite A. cbn [obind]. exists []. rewrite B by reflexivity. cbn [enc_segs flat_map segs_expand]. rewrite app_nil_r. auto.
  - rewrite A. cbn [obind]. destruct (enc_seg_nonnil s) as (x & l & E). rewrite E. rewrite <- E.
    destruct (IHfuel (mkcc rest (cc_bytes c + zlen (enc_seg s))) (acc ++ enc_seg s)) as (segs & F1 & F2 & F3 & F4); cbn [cc_data] in *.
    + rewrite B, zlen_app in Hl. lia.
    + rewrite B, app_length in Hf. unfold zlen in *. lia.
    + exists (s :: segs). rewrite F1. unfold enc_segs, segs_expand. cbn [flat_map]. rewrite app_assoc. split; [reflexivity|].
      split; [|split; constructor; auto]. fold (segs_expand segs). rewrite F2. auto.
Qed.

Lemma compress_all_spec : forall pieces c acc segs data, cc_data c = data -> zlen (data ++ concat pieces) < 2 ^ 63 ->
  0 <= cc_bytes c -> (cc_bytes c = 0 -> segs = []) -> (segs = [] -> acc = []) -> acc = enc_segs segs ->
  exists segs', crle_compress_all c pieces acc = Ret (Ok (enc_segs (segs ++ segs'))) /\
    segs_expand segs' = data ++ concat pieces /\
    (segs ++ segs' = [Scattered []] \/ Forall (fun s => 1 <= seg_len s) segs') /\
    (data ++ concat pieces <> [] -> Forall (fun s => 1 <= seg_len s) segs') /\
    Forall (fun s => zlen (seg_expand s) = seg_len s) segs'.
Proof.
  induction pieces as [|p pieces IH]; intros c acc segs data Hd Hl Hb Hc Hs Ha.
  - cbn [crle_compress_all concat] in *. rewrite app_nil_r in *. unfold crle_flush.
    destruct (Z.eqb_spec (cc_bytes c) (zlen (cc_data c))) as [E1|E1]; [destruct (Z.eqb_spec (zlen (cc_data c)) 0) as [E2|E2]|]; cbn [andb].
    2, 3: destruct (flush_loop_spec (S (length (cc_data c))) c []) as (segs' & A & B & C & D); [congruence|lia|];
      rewrite A; cbn [obind app]; exists segs'; subst acc; unfold enc_segs; rewrite flat_map_app;
      split; [reflexivity|]; split; [congruence|]; auto.
    assert (segs = []) by (apply Hc; lia). subst segs. exists [Scattered []].
    assert (data = []) by (subst data; apply zlen_0_nil; lia). rewrite crle_pack_enc by (split; [lia|reflexivity]). cbn [obind app].
    rewrite Hs by reflexivity. split; [reflexivity|]. split; [auto|]. split; [auto|]. split; [congruence|]. auto.
  - cbn [crle_compress_all concat] in *. unfold crle_compress. rewrite app_assoc in Hl. rewrite Hd.
    assert (Hl' : zlen (data ++ p) < 2 ^ 63) by (rewrite zlen_app in Hl; pose proof (zlen_nonneg (concat pieces)); lia).
    destruct (compress_segment_spec false (mkcc (data ++ p) (cc_bytes c)) Hl') as [(A & B)|(s & rest & A & B & C & D)].
    + rewrite A. cbn [obind]. rewrite app_nil_r. rewrite app_assoc. apply IH; auto.
    + rewrite A. cbn [obind cc_bytes]. cbn [cc_data] in B.
      assert (Hp : 1 <= zlen (enc_seg s)).
      { destruct (enc_seg_nonnil s) as (x & l & ->). rewrite zlen_cons. pose proof (zlen_nonneg l). lia. }
      destruct (IH (mkcc rest (cc_bytes c + zlen (enc_seg s))) (acc ++ enc_seg s) (segs ++ [s]) rest) as (segs' & F1 & F2 & F3 & F4 & F5); cbn [cc_data cc_bytes]; auto.
      * rewrite B, <- app_assoc, zlen_app in Hl. lia.
      * lia.
      * lia.
      * destruct segs; discriminate.
      * subst acc. unfold enc_segs. rewrite flat_map_app. cbn [flat_map]. rewrite app_nil_r. reflexivity.
      * exists (s :: segs'). rewrite <- app_assoc in F1. cbn [app] in F1. split; [exact F1|].
        split; [unfold segs_expand; cbn [flat_map]; fold (segs_expand segs'); rewrite F2; rewrite !app_assoc; rewrite B; reflexivity|].
        assert (G : Forall (fun s => 1 <= seg_len s) segs').
        { destruct F3 as [F3|F3]; [|exact F3]. exfalso. rewrite <- app_assoc in F3. destruct segs as [|s0 segs].
          - cbn [app] in F3. injection F3 as F3 _. subst s. cbn [seg_len] in C. change (zlen (@nil Z)) with 0 in C. lia.
          - destruct segs; discriminate. }
        split; [right; constructor; auto|]. split; [constructor; auto|]. constructor; auto.
Qed.

Lemma crle_compress_segs : forall pieces, zlen (concat pieces) < 2 ^ 63 ->
  exists segs, crle_compress_all ccomp_init pieces [] = Ret (Ok (enc_segs segs)) /\
    segs_expand segs = concat pieces /\
    (concat pieces <> [] -> Forall (fun s => 1 <= seg_len s) segs) /\
    Forall (fun s => zlen (seg_expand s) = seg_len s) segs.
Proof.
  intros pieces Hl. destruct (compress_all_spec pieces ccomp_init [] [] []) as (segs & A & B & C & D & E); [reflexivity|exact Hl|cbn [ccomp_init cc_bytes]; lia|auto|auto|reflexivity|].
  - exists segs. cbn [app] in *. auto.
Qed.

Lemma segs_len_le : forall segs, Forall (fun s => zlen (seg_expand s) = seg_len s) segs ->
  Forall (fun s => 0 <= seg_len s <= zlen (segs_expand segs)) segs.
Proof.
  induction segs as [|s segs IH]; intros H; inversion H; subst; constructor.
  - unfold segs_expand. cbn [flat_map]. rewrite zlen_app. pose proof (zlen_nonneg (flat_map seg_expand segs)). pose proof (zlen_nonneg (seg_expand s)). lia.
  - specialize (IH H3). eapply Forall_impl; [|exact IH]. cbv beta. intros a Ha. unfold segs_expand in *. cbn [flat_map]. rewrite zlen_app. pose proof (zlen_nonneg (seg_expand s)). lia.
Qed.

(** ** The decompressor *)

(** [lo] is the least length of a segment. *)
Definition todo_from (lo scat : Z) (indata f rem : list Z) : Prop :=
  exists lit segs, zlen lit = scat /\ Forall (fun s => lo <= seg_len s < 2 ^ 63) segs /\
    indata ++ f = lit ++ enc_segs segs /\ rem = lit ++ segs_expand segs.

Notation todo := (todo_from 0).

Lemma app_split : forall {A} (a b c d : list A), a ++ b = c ++ d -> zlen c <= zlen a ->
  exists e, a = c ++ e /\ e ++ b = d.
Proof.
  intros A a b c d E L. exists (zdrop (zlen c) a). assert (Hc : ztake (zlen c) a = c).
  { rewrite <- (ztake_app_l _ a b) by lia. rewrite E. apply ztake_app_exact. reflexivity. }
  split; [rewrite <- Hc at 1; symmetry; apply ztake_zdrop|].
  rewrite <- (zdrop_app_l (zlen c) a b) by lia. rewrite E. apply zdrop_app_exact. reflexivity.
Qed.

Lemma repeat_one : forall n b, repeat_bytes n [b] = repeat b n.
Proof. induction n; intros; cbn [repeat_bytes repeat app]; congruence. Qed.

(** The same with other bytes after the stream, while some of it remains. *)
Definition todo_tail (lo scat : Z) (indata f tl lit : list Z) (segs : list seg) : Prop :=
  zlen lit = scat /\ Forall (fun s => lo <= seg_len s < 2 ^ 63) segs /\ indata ++ f = lit ++ enc_segs segs ++ tl.

Lemma decompress_segment_tail : forall lo d f tl lit segs, 0 <= lo -> todo_tail lo (cd_scattered d) (cd_in d) f tl lit segs ->
  lit <> [] \/ segs <> [] ->
  match decompress_segment d with
  | Ok (data, d1) => exists lit1 segs1, lit ++ segs_expand segs = data ++ lit1 ++ segs_expand segs1 /\
      todo_tail lo (cd_scattered d1) (cd_in d1) f tl lit1 segs1 /\
      cd_left d1 = cd_left d /\ cd_out d1 = cd_out d /\ (length (cd_in d1) < length (cd_in d))%nat
  | PyIndexError => f <> []
  | PyError => False
  end.
Proof.
  intros lo (nl, inn, out, sc) f tl lit segs Hlo (A & B & C) Hne. cbn [cd_scattered cd_in cd_left cd_out] in *.
  unfold decompress_segment. cbn [cd_scattered cd_in cd_left cd_out].
  destruct (Z.eqb_spec sc 0) as [Hs|Hs].
  - subst sc. apply zlen_0_nil in Hs. subst lit. cbn [app] in *. change (zlen (@nil Z)) with 0.
    destruct inn as [|kind inn].
    { intros ->. destruct segs as [|s segs]; [intuition congruence|]. destruct (enc_seg_nonnil s) as (x & l & E).
      unfold enc_segs in C. cbn [flat_map] in C. rewrite E in C. discriminate. }
    destruct segs as [|s segs]; [intuition congruence|]. inversion B as [|? ? B1 B2]; subst.
    unfold enc_segs, segs_expand in *. cbn [flat_map] in *. fold (enc_segs segs) in *. fold (segs_expand segs) in *.
    destruct s as [data|n b]; cbn [enc_seg seg_expand seg_len app] in *; injection C as -> C; cbn [Z.eqb Pos.eqb].
    + unfold crle_unpack_size. rewrite zdrop_cons by lia. replace (1 - 1) with 0 by lia. rewrite zdrop_0. rewrite <- ?app_assoc in C.
      destruct (crle_unpack_enc (zlen data) inn f _ 1 (conj (Z.le_trans _ _ _ Hlo (proj1 B1)) (proj2 B1)) C) as [(t & E1 & E2 & E3)|(E1 & E3)]; rewrite E3; [|congruence].
      pose proof (zlen_nonneg (enc_usize (zlen data))) as He. pose proof (zlen_nonneg t) as Ht. pose proof (zlen_nonneg data) as Hd.
      assert (Hl : zlen (0 :: inn) = 1 + zlen (enc_usize (zlen data)) + zlen t) by (rewrite zlen_cons, E1, zlen_app; lia). rewrite Hl.
      assert (Hdrop : zdrop (1 + zlen (enc_usize (zlen data))) (0 :: inn) = t).
      { rewrite zdrop_cons by lia. rewrite E1. apply zdrop_app_exact. lia. }
      destruct (Z.ltb_spec 0 (1 + zlen (enc_usize (zlen data)) + zlen data - (1 + zlen (enc_usize (zlen data)) + zlen t))) as [Hr|Hr].
      * set (e := zlen (enc_usize (zlen data))) in *. replace (zlen data - (1 + e + zlen data - (1 + e + zlen t))) with (zlen t) by lia.
        destruct (Z.ltb_spec (1 + e + zlen t) (1 + e + zlen t)); [lia|].
        rewrite Hdrop. rewrite ztake_all by lia. cbn [repeat_bytes Z.to_nat Pos.to_nat Pos.iter_op cd_scattered cd_in cd_left cd_out]. change (Pos.to_nat 1) with 1%nat. cbn [repeat_bytes]. rewrite app_nil_r.
        assert (exists more, data = t ++ more /\ f = more ++ enc_segs segs ++ tl) as (more & G1 & G2).
        { symmetry in E2. destruct (app_split _ _ _ _ E2) as (more & G1 & G2); [lia|]. exists more. auto. }
        exists more, segs. split; [rewrite G1, <- app_assoc; reflexivity|]. split.
        { split; [rewrite G1, zlen_app; cbn [cd_scattered]; lia|]. split; [exact B2|]. cbn [cd_in]. rewrite zdrop_all by lia. exact G2. }
        split; [reflexivity|]. split; [reflexivity|]. rewrite zdrop_all by lia. cbn [length]. lia.
      * destruct (Z.ltb_spec (1 + zlen (enc_usize (zlen data)) + zlen t) (1 + zlen (enc_usize (zlen data)) + zlen data)); [lia|].
        rewrite Hdrop. destruct (app_split t f data (enc_segs segs ++ tl)) as (more & G1 & G2); [exact E2|lia|].
        rewrite G1. rewrite ztake_app_exact by reflexivity. change (Z.to_nat 1) with 1%nat. cbn [repeat_bytes cd_scattered cd_in cd_left cd_out]. rewrite app_nil_r.
        exists [], segs. split; [reflexivity|].
        assert (Hdr : zdrop (1 + zlen (enc_usize (zlen data)) + zlen data) (0 :: inn) = more).
        { rewrite Z.add_comm. rewrite <- zdrop_zdrop by lia. rewrite Hdrop, G1. apply zdrop_app_exact. reflexivity. }
        rewrite Hdr. split.
        { split; [reflexivity|]. split; [exact B2|]. cbn [cd_in]. auto. }
        split; [reflexivity|]. split; [reflexivity|]. rewrite E1, G1. cbn [length]. rewrite !app_length. lia.
    + unfold crle_unpack_size. rewrite zdrop_cons by lia. replace (1 - 1) with 0 by lia. rewrite zdrop_0. rewrite <- ?app_assoc in C.
      destruct (crle_unpack_enc n inn f _ 1 (conj (Z.le_trans _ _ _ Hlo (proj1 B1)) (proj2 B1)) C) as [(t & E1 & E2 & E3)|(E1 & E3)]; rewrite E3; [|congruence].
      pose proof (zlen_nonneg (enc_usize n)) as He.
      assert (Hl : zlen (1 :: inn) = 1 + zlen (enc_usize n) + zlen t) by (rewrite zlen_cons, E1, zlen_app; lia). rewrite Hl.
      assert (Hdrop : zdrop (1 + zlen (enc_usize n)) (1 :: inn) = t).
      { rewrite zdrop_cons by lia. rewrite E1. apply zdrop_app_exact. lia. }
      destruct t as [|x t].
      { change (zlen (@nil Z)) with 0. destruct (Z.ltb_spec (1 + zlen (enc_usize n) + 0) (1 + zlen (enc_usize n) + 1)); [|lia].
        intros ->. discriminate. }
      injection E2 as -> E2. rewrite zlen_cons. pose proof (zlen_nonneg t).
      destruct (Z.ltb_spec (1 + zlen (enc_usize n) + (1 + zlen t)) (1 + zlen (enc_usize n) + 1)); [lia|].
      rewrite Hdrop. rewrite ztake_cons by lia. rewrite ztake_neg by lia. rewrite repeat_one. cbn [cd_scattered cd_in cd_left cd_out].
      exists [], segs. split; [reflexivity|].
      assert (Hdr : zdrop (1 + zlen (enc_usize n) + 1) (1 :: inn) = t).
      { rewrite Z.add_comm. rewrite <- zdrop_zdrop by lia. rewrite Hdrop. rewrite zdrop_cons by lia. apply zdrop_0. }
      rewrite Hdr. split.
      { split; [reflexivity|]. split; [exact B2|]. cbn [cd_in]. auto. }
      split; [reflexivity|]. split; [reflexivity|]. rewrite E1. cbn [length]. rewrite app_length. cbn [length]. lia.
  - destruct (Z.ltb_spec 0 (zlen inn)) as [Hi|Hi].
    + pose proof (zlen_nonneg lit). destruct (Z.ltb_spec (zlen inn) (0 + Z.min (zlen inn) sc)); [lia|].
      change (Z.to_nat 1) with 1%nat. cbn [repeat_bytes cd_scattered cd_in cd_left cd_out]. rewrite app_nil_r, zdrop_0.
      replace (0 + Z.min (zlen inn) sc) with (Z.min (zlen inn) sc) by lia. set (n := Z.min (zlen inn) sc).
      assert (Ht : ztake n inn = ztake n lit).
      { rewrite <- (ztake_app_l n inn f) by lia. rewrite C. apply ztake_app_l. lia. }
      exists (zdrop n lit), segs. split; [rewrite Ht, !app_assoc, ztake_zdrop; reflexivity|]. split.
      { split; [rewrite zlen_zdrop by lia; cbn [cd_scattered]; lia|]. split; [exact B|]. cbn [cd_in].
        rewrite <- zdrop_app_l by lia. rewrite C. apply zdrop_app_l. lia. }
      split; [reflexivity|]. split; [reflexivity|]. pose proof (zlen_zdrop n inn). unfold zlen in *. lia.
    + intros ->. assert (inn = []) by (apply zlen_0_nil; pose proof (zlen_nonneg inn); lia). subst inn.
      cbn [app] in C. symmetry in C. apply app_eq_nil in C. destruct C as (-> & _). change (zlen (@nil Z)) with 0 in A. lia.
Qed.

Lemma decompress_segment_from : forall lo d f rem, 0 <= lo -> todo_from lo (cd_scattered d) (cd_in d) f rem ->
  match decompress_segment d with
  | Ok (data, d1) => exists rem1, rem = data ++ rem1 /\ todo_from lo (cd_scattered d1) (cd_in d1) f rem1 /\
      cd_left d1 = cd_left d /\ cd_out d1 = cd_out d /\ (length (cd_in d1) < length (cd_in d))%nat
  | PyIndexError => f = [] -> cd_in d = [] /\ rem = []
  | PyError => False
  end.
Proof.
  intros lo d f rem Hlo (lit & segs & A & B & C & D).
  assert (T : (lit = [] /\ segs = []) \/ (lit <> [] \/ segs <> [])) by (destruct lit; [destruct segs; [auto|]|]; right; [right|left]; discriminate).
  destruct T as [(-> & ->)|T].
  - change (zlen (@nil Z)) with 0 in A. cbn [app enc_segs segs_expand flat_map] in *. apply app_eq_nil in C. destruct C as (C1 & C2).
    unfold decompress_segment. rewrite <- A, C1. cbn [Z.eqb]. auto.
  - pose proof (decompress_segment_tail lo d f [] lit segs Hlo) as S. rewrite <- (app_nil_r (enc_segs segs)) in C. specialize (S (conj A (conj B C)) T).
    destruct (decompress_segment d) as [(data, d1)| |]; [|exact S|congruence].
    destruct S as (lit1 & segs1 & S1 & (S2 & S3 & S4) & S5). exists (lit1 ++ segs_expand segs1). split; [congruence|]. split; [|exact S5].
    exists lit1, segs1. rewrite app_nil_r in S4. auto.
Qed.

Lemma decompress_segments_from : forall lo fuel d acc f rem, 0 <= lo -> (length (cd_in d) < fuel)%nat -> todo_from lo (cd_scattered d) (cd_in d) f rem ->
  exists out d1 rem1, decompress_segments fuel d acc = Ret (Ok (acc ++ out, d1)) /\ rem = out ++ rem1 /\
    todo_from lo (cd_scattered d1) (cd_in d1) f rem1 /\ cd_left d1 = cd_left d /\ cd_out d1 = cd_out d /\
    (f = [] -> cd_in d1 = [] /\ rem1 = []).
Proof.
  intros lo. induction fuel; intros d acc f rem Hlo Hf T; [lia|]. cbn [decompress_segments].
  pose proof (decompress_segment_from lo d f rem Hlo T) as S. destruct (decompress_segment d) as [(data, d1)| |].
  - destruct S as (rem1 & S1 & S2 & S3 & S4 & S5). destruct (IHfuel d1 (acc ++ data) f rem1) as (out & d2 & rem2 & A1 & A2 & A3 & A4 & A5 & A6); [lia|lia|exact S2|].
    exists (data ++ out), d2, rem2. rewrite A1, <- !app_assoc. split; [reflexivity|]. split; [congruence|]. split; [auto|]. split; [congruence|]. split; [congruence|auto].
  - destruct S.
  - exists [], d, rem. rewrite app_nil_r. auto 10.
Qed.

(** What remains to be delivered, given the input [f] not yet seen. *)
Definition pending (d : cdec) (f rem : list Z) : Prop :=
  cd_left d = zlen f /\ exists rem', rem = cd_out d ++ rem' /\ todo (cd_scattered d) (cd_in d) f rem' /\
    (f = [] -> cd_in d = [] /\ rem' = []).

Lemma call_spec : forall d f rem piece f1 rest size, pending d f rem -> cd_eof d = false ->
  f = f1 ++ rest -> (if zlen f <? zlen piece then ztake (zlen f) piece else piece) = f1 -> 0 <= size ->
  exists out d1 rem1, crle_decompress_call d piece size = Ret (Ok (out, d1)) /\ rem = out ++ rem1 /\
    pending d1 rest rem1 /\ zlen out <= size /\ (rest = [] -> zlen out < size -> rem1 = []) /\ (rest = [] -> 1 <= size -> rem <> [] -> 1 <= zlen out).
Proof.
  intros d f rem piece f1 rest size (P1 & rem' & P2 & P3 & P4) Heof Hf Hp Hs. unfold crle_decompress_call. rewrite Heof. rewrite P1, Hp.
  cbv zeta. cbn [cd_in].
  destruct (decompress_segments_from 0 (S (length (cd_in d ++ f1))) (mkcd (zlen f - zlen f1) (cd_in d ++ f1) (cd_out d) (cd_scattered d)) [] rest rem')
    as (out & d1 & rem1 & A1 & A2 & A3 & A4 & A5 & A6); cbn [cd_in cd_left cd_out cd_scattered] in *.
  - lia.
  - lia.
  - destruct P3 as (lit & segs & Q1 & Q2 & Q3 & Q4). exists lit, segs. rewrite <- app_assoc, <- Hf. auto.
  - rewrite A1. cbn [obind app]. rewrite A5. exists (ztake size (cd_out d ++ out)). eexists. exists (zdrop size (cd_out d ++ out) ++ rem1).
    split; [reflexivity|]. split; [rewrite app_assoc, ztake_zdrop, <- app_assoc; congruence|]. split.
    { split; cbn [cd_left]; [rewrite A4, Hf, zlen_app; lia|]. exists rem1. cbn [cd_out cd_in cd_scattered]. auto. }
    split; [rewrite zlen_ztake by lia; lia|]. rewrite zlen_ztake by lia. split.
    + intros Hr Hlt. rewrite zdrop_all by lia. destruct (A6 Hr) as (_ & ->). reflexivity.
    + intros Hr H1 Hne. destruct (A6 Hr) as (_ & ->). rewrite app_nil_r in A2. subst rem' rem.
      assert (zlen (cd_out d ++ out) <> 0) by (intro E; apply zlen_0_nil in E; congruence). pose proof (zlen_nonneg (cd_out d ++ out)). lia.
Qed.

Lemma pending_eof : forall d f rem, pending d f rem -> cd_eof d = true -> f = [] /\ rem = [].
Proof.
  intros d f rem (P1 & rem' & P2 & P3 & P4) E. unfold cd_eof in E. apply andb_prop in E. destruct E as (E1 & E2). apply andb_prop in E1. destruct E1 as (E0 & E1).
  apply Z.eqb_eq in E0, E1, E2. apply zlen_0_nil in E1. assert (f = []) by (apply zlen_0_nil; lia). split; [auto|]. destruct (P4 H) as (_ & ->). rewrite E1 in P2. exact P2.
Qed.

Lemma pending_done : forall d, pending d [] [] -> cd_eof d = true.
Proof.
  intros d (P1 & rem' & P2 & P3 & P4). unfold cd_eof. destruct (P4 eq_refl) as (A & ->). rewrite app_nil_r in P2. rewrite P1, A, <- P2. reflexivity.
Qed.

(** The input of the calls, cut at the announced number of bytes. *)
Lemma calls_prefix : forall calls d f rem acc, pending d f rem ->
  Forall (fun c => 0 <= snd c) calls ->
  (exists t, concat (map fst calls) = f ++ t) \/ (exists t, f = concat (map fst calls) ++ t) ->
  exists out rem1, crle_decompress_calls d calls acc = Ret (Ok (acc ++ out, match rem1 with None => true | _ => false end)) /\
    match rem1 with None => rem = out | Some rem1 => rem = out ++ rem1 end.
Proof.
  induction calls as [|(piece, size) calls IH]; intros d f rem acc P Hs Hc; cbn [crle_decompress_calls].
  - exists []. rewrite app_nil_r. destruct (cd_eof d) eqn:E.
    + exists None. split; [reflexivity|]. apply (pending_eof _ _ _ P E).
    + exists (Some rem). auto.
  - destruct (cd_eof d) eqn:E.
    + exists [], None. rewrite app_nil_r. split; [reflexivity|]. apply (pending_eof _ _ _ P E).
    + inversion Hs as [|? ? S1 S2]; subst. cbn [snd] in S1. cbn [map fst concat] in Hc.
      assert (G : exists f1 rest, f = f1 ++ rest /\ (if zlen f <? zlen piece then ztake (zlen f) piece else piece) = f1 /\
        ((exists t, concat (map fst calls) = rest ++ t) \/ (exists t, rest = concat (map fst calls) ++ t))).
      { destruct (Z.ltb_spec (zlen f) (zlen piece)) as [L|L].
        - exists f, []. rewrite app_nil_r. split; [reflexivity|]. split.
          + destruct Hc as [(t & Hc)|(t & Hc)].
            * rewrite <- (ztake_app_l _ piece (concat (map fst calls))) by lia. rewrite Hc. apply ztake_app_exact. reflexivity.
            * rewrite Hc, !zlen_app in L. pose proof (zlen_nonneg t). pose proof (zlen_nonneg (concat (map fst calls))). lia.
          + left. eexists. reflexivity.
        - assert (exists rest, f = piece ++ rest) as (rest & ->).
          { destruct Hc as [(t & Hc)|(t & Hc)].
            - symmetry in Hc. destruct (app_split _ _ _ _ Hc L) as (e & G1 & _). eauto.
            - exists (concat (map fst calls) ++ t). rewrite app_assoc. exact Hc. }
          exists piece, rest. split; [reflexivity|]. split; [reflexivity|].
          destruct Hc as [(t & Hc)|(t & Hc)]; [left|right]; exists t; rewrite <- app_assoc in Hc; apply app_inv_head in Hc; exact Hc. }
      destruct G as (f1 & rest & G1 & G2 & G3).
      destruct (call_spec d f rem piece f1 rest size P E G1 G2 S1) as (out & d1 & rem1 & A1 & A2 & A3 & A4 & A5 & A6).
      rewrite A1. cbn [obind]. destruct (IH d1 rest rem1 (acc ++ out) A3 S2 G3) as (out2 & rem2 & B1 & B2).
      exists (out ++ out2), rem2. rewrite B1, <- app_assoc. split; [reflexivity|]. rewrite A2. destruct rem2; rewrite B2; [rewrite app_assoc|]; reflexivity.
Qed.

(** Once all input has arrived, every further call with a positive size delivers. *)
Lemma calls_finish : forall ns d rem acc, pending d [] rem -> Forall (fun n => 1 <= n) ns -> zlen rem <= zlen ns ->
  crle_decompress_calls d (map (fun n => ([], n)) ns) acc = Ret (Ok (acc ++ rem, true)).
Proof.
  induction ns as [|n ns IH]; intros d rem acc P Hn Hl; cbn [map crle_decompress_calls].
  - change (zlen (@nil Z)) with 0 in Hl. assert (rem = []) by (apply zlen_0_nil; pose proof (zlen_nonneg rem); lia). subst rem.
    rewrite (pending_done d P), app_nil_r. reflexivity.
  - destruct (cd_eof d) eqn:E.
    + destruct (pending_eof _ _ _ P E) as (_ & ->). rewrite app_nil_r. reflexivity.
    + inversion Hn as [|? ? N1 N2]; subst.
      destruct (call_spec d [] rem [] [] [] n P E eq_refl eq_refl) as (out & d1 & rem1 & A1 & A2 & A3 & A4 & A5 & A6); [lia|].
      rewrite A1. cbn [obind]. rewrite (IH d1 rem1 (acc ++ out) A3 N2).
      * rewrite <- app_assoc, <- A2. reflexivity.
      * rewrite zlen_cons in Hl. destruct rem as [|x rem].
        { symmetry in A2. apply app_eq_nil in A2. destruct A2 as (_ & ->). change (zlen (@nil Z)) with 0. pose proof (zlen_nonneg ns). lia. }
        assert (1 <= zlen out) by (apply A6; [reflexivity|lia|discriminate]).
        assert (zlen (x :: rem) = zlen out + zlen rem1) by (rewrite A2, zlen_app; reflexivity). lia.
Qed.

Lemma calls_app : forall calls d f rem acc tail, pending d f rem -> Forall (fun c => 0 <= snd c) calls ->
  concat (map fst calls) = f ->
  exists out d1 rem1, crle_decompress_calls d (calls ++ tail) acc = crle_decompress_calls d1 tail (acc ++ out) /\
    rem = out ++ rem1 /\ pending d1 [] rem1.
Proof.
  induction calls as [|(piece, size) calls IH]; intros d f rem acc tail P Hs Hc.
  - cbn [map concat] in Hc. subst f. exists [], d, rem. rewrite app_nil_r. auto.
  - cbn [app crle_decompress_calls]. destruct (cd_eof d) eqn:E.
    + destruct (pending_eof _ _ _ P E) as (-> & ->). exists [], d, []. rewrite app_nil_r. split; [|auto].
      destruct tail as [|(tp, ts) tail]; cbn [crle_decompress_calls]; rewrite E; reflexivity.
    + inversion Hs as [|? ? S1 S2]; subst. cbn [snd] in S1. cbn [map fst concat] in *.
      destruct (call_spec d (piece ++ concat (map fst calls)) rem piece piece (concat (map fst calls)) size P E eq_refl) as (out & d1 & rem1 & A1 & A2 & A3 & A4 & A5 & A6); [|exact S1|].
      { rewrite zlen_app. pose proof (zlen_nonneg (concat (map fst calls))). destruct (Z.ltb_spec (zlen piece + zlen (concat (map fst calls))) (zlen piece)); [lia|reflexivity]. }
      rewrite A1. cbn [obind]. destruct (IH d1 (concat (map fst calls)) rem1 (acc ++ out) tail A3 S2 eq_refl) as (out2 & d2 & rem2 & B1 & B2 & B3).
      exists (out ++ out2), d2, rem2. rewrite B1, <- app_assoc. split; [reflexivity|]. split; [|exact B3]. rewrite A2, B2, app_assoc. reflexivity.
Qed.

Lemma todo_start : forall segs, Forall (fun s => 0 <= seg_len s < 2 ^ 63) segs -> enc_segs segs <> [] ->
  pending (cdec_init (zlen (enc_segs segs))) (enc_segs segs) (segs_expand segs).
Proof.
  intros segs H Hn. split; [reflexivity|]. exists (segs_expand segs). cbn [cdec_init cd_out cd_scattered cd_in app]. split; [reflexivity|].
  split; [|congruence]. exists [], segs. auto.
Qed.

Lemma compress_nonnil : forall segs pieces, crle_compress_all ccomp_init pieces [] = Ret (Ok (enc_segs segs)) -> segs_expand segs = concat pieces ->
  zlen (concat pieces) < 2 ^ 63 -> enc_segs segs <> [].
Proof.
  intros segs pieces A B L. destruct segs as [|s segs].
  - exfalso. cbn [segs_expand flat_map] in B. cbn [enc_segs flat_map] in A.
    assert (G : forall ps, concat ps = [] -> crle_compress_all ccomp_init ps [] = Ret (Ok [0; 0])).
    { induction ps as [|p ps IH]; intros E; [reflexivity|]. cbn [concat] in E. apply app_eq_nil in E. destruct E as (-> & E). cbn [crle_compress_all]. exact (IH E). }
    rewrite G in A by auto. discriminate.
  - destruct (enc_seg_nonnil s) as (x & l & E). unfold enc_segs. cbn [flat_map]. rewrite E. discriminate.
Qed.

(** C15: lossless, whatever the pieces. *)
Lemma crle_lossless : forall pieces, zlen (concat pieces) < 2 ^ 63 ->
  exists stream, crle_compress_all ccomp_init pieces [] = Ret (Ok stream) /\
    (forall calls ns, Forall (fun c => 0 <= snd c) calls -> concat (map fst calls) = stream ->
       Forall (fun n => 1 <= n) ns -> zlen (concat pieces) <= zlen ns ->
       crle_decompress_calls (cdec_init (zlen stream)) (calls ++ map (fun n => ([], n)) ns) [] = Ret (Ok (concat pieces, true))) /\
    (forall calls more, Forall (fun c => 0 <= snd c) calls ->
       (concat (map fst calls) = stream ++ more \/ concat (map fst calls) ++ more = stream) ->
       exists out rest eof, crle_decompress_calls (cdec_init (zlen stream)) calls [] = Ret (Ok (out, eof)) /\
         out ++ rest = concat pieces /\ (eof = true -> rest = [])).
Proof.
  intros pieces L. destruct (crle_compress_segs pieces L) as (segs & A & B & C & D). exists (enc_segs segs). split; [exact A|].
  assert (P : pending (cdec_init (zlen (enc_segs segs))) (enc_segs segs) (concat pieces)).
  { rewrite <- B. apply todo_start; [|eapply compress_nonnil; eauto].
    eapply Forall_impl; [|apply segs_len_le; exact D]. cbv beta. intros s Hs. rewrite B in Hs. lia. }
  split.
  - intros calls ns H1 H2 H3 H4. destruct (calls_app calls _ _ _ [] (map (fun n => ([], n)) ns) P H1 H2) as (out & d1 & rem1 & G1 & G2 & G3).
    rewrite G1. rewrite (calls_finish ns d1 rem1); auto; [rewrite G2; reflexivity|]. rewrite G2, zlen_app in H4. pose proof (zlen_nonneg out). lia.
  - intros calls more H1 H2. destruct (calls_prefix calls _ _ _ [] P H1) as (out & rem1 & G1 & G2).
    { destruct H2 as [H2|H2]; [left|right]; exists more; auto. }
    rewrite G1. cbn [app]. destruct rem1 as [rem1|].
    + exists out, rem1, false. split; [reflexivity|]. split; [auto|discriminate].
    + exists out, [], true. rewrite app_nil_r. auto.
Qed.

(** C16: the compressed data is a stream of the format the C reader is proved
    to decode. *)
Lemma crle_compressed : forall pieces, concat pieces <> [] -> zlen (concat pieces) < 2 ^ 28 ->
  exists stream, crle_compress_all ccomp_init pieces [] = Ret (Ok stream) /\ compressed CompCrle (concat pieces) stream.
Proof.
  intros pieces Hne L. destruct (crle_compress_segs pieces) as (segs & A & B & C & D).
  { change (2 ^ 63) with 9223372036854775808. change (2 ^ 28) with 268435456 in L. lia. }
  exists (enc_segs segs). split; [exact A|]. rewrite <- B. constructor. specialize (C Hne).
  apply segs_len_le in D. rewrite B in D. rewrite Forall_forall in *. intros s Hs. specialize (C s Hs). specialize (D s Hs). lia.
Qed.
