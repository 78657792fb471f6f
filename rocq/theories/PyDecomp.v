(** The decompressors none and crle meet the contract of PyReader.v on any input;
    what they deliver for streams that are complete, cut off or followed by other
    bytes. *)

From Coq Require Import ZArith List Bool Lia ZifyBool ZifyNat ZifyN.
From Verif Require Import Prelude Lib Spec PySize PyCrle PyApply PySpec SizeCodec CrleProofs PyReader.
Import ListNotations.
Open Scope Z_scope.

Local Ltac splits := repeat match goal with |- _ /\ _ => split end.

(** ** none *)

Definition Rnone (d : dstate none_dec) (file out : list Z) : Prop :=
  out = nd_data d ++ file /\ nd_left d = zlen out.

Lemma none_contract : contract none_dec Rnone.
Proof.
  intros d file out (E1 & E2). cbn [none_dec d_eof d_needs_input d_decompress dstate]. unfold none_eof, none_needs_input, none_eof.
  destruct (Z.eqb_spec (nd_left d) 0) as [L|L]; [apply zlen_0_nil; lia|].
  assert (Hd : forall data rest n, nd_data d ++ file = nd_data d ++ data ++ rest -> 0 < n -> forall p, (p = true -> ztake n (nd_data d ++ data) <> []) ->
    delivers none_dec Rnone d data rest out n p).
  { intros data rest n E Hn p Hp. right. exists (ztake n (nd_data d ++ data)), (zdrop n (nd_data d ++ data) ++ rest). eexists. split.
    - cbn [none_dec d_decompress]. unfold none_decompress_call, none_eof. destruct (Z.eqb_spec (nd_left d) 0); [lia|]. reflexivity.
    - assert (Eo : out = ztake n (nd_data d ++ data) ++ zdrop n (nd_data d ++ data) ++ rest).
      { rewrite E1, E, !app_assoc. rewrite ztake_zdrop. reflexivity. }
      split; [|split; [exact Eo|split; [rewrite zlen_ztake by lia; lia|intros P; left; exact (Hp P)]]].
      unfold Rnone. cbn [nd_data nd_left]. split; [reflexivity|]. rewrite E2, Eo at 1. rewrite !zlen_app. lia. }
  destruct (Z.eqb_spec (zlen (nd_data d)) 0) as [Z0|Z0]; cbn [andb negb].
  - apply zlen_0_nil in Z0. rewrite Z0 in *. destruct file as [|b file]; [exact E1|]. intros n Hn. apply Hd; [|exact Hn|discriminate].
    rewrite ztake_zdrop. reflexivity.
  - intros n Hn. apply Hd; [reflexivity|exact Hn|]. intros _ E. rewrite app_nil_r in E. apply (f_equal zlen) in E. rewrite zlen_ztake in E by lia.
    change (zlen (@nil Z)) with 0 in E. pose proof (zlen_nonneg (nd_data d)). lia.
Qed.

Lemma none_ends : ends none_dec Rnone.
Proof. intros d file (E1 & E2). cbn. unfold none_eof. rewrite E2. reflexivity. Qed.

Lemma none_start : forall file, Rnone (d_init none_dec (zlen file)) file file.
Proof. intros file. split; reflexivity. Qed.

(** ** crle on arbitrary input *)

Definition lift (l : Z) (o : list Z) (x : py (list Z * cdec)) : py (list Z * cdec) :=
  match x with Ok (data, d1) => Ok (data, mkcd l (cd_in d1) o (cd_scattered d1)) | PyError => PyError | PyIndexError => PyIndexError end.

Lemma segment_lift : forall l o inn sc, decompress_segment (mkcd l inn o sc) = lift l o (decompress_segment (mkcd 0 inn [] sc)).
Proof.
  intros l o inn sc. unfold decompress_segment. cbn [cd_in cd_scattered cd_left cd_out].
  repeat match goal with
  | |- context [if ?b then _ else _] => destruct b
  | |- context [match crle_unpack_size ?a ?b with _ => _ end] => destruct (crle_unpack_size a b) as [(?, ?)| |]
  | |- context [match inn with _ => _ end] => destruct inn
  end; reflexivity.
Qed.

Lemma segments_lift : forall fuel l o inn sc acc, decompress_segments fuel (mkcd l inn o sc) acc =
  letm r := decompress_segments fuel (mkcd 0 inn [] sc) acc in Ret (lift l o r).
Proof.
  induction fuel; intros; [reflexivity|]. cbn [decompress_segments]. rewrite segment_lift.
  destruct (decompress_segment (mkcd 0 inn [] sc)) as [(data, (l1, in1, o1, sc1))| |] eqn:E; cbn [lift obind cd_in cd_scattered]; try reflexivity.
  rewrite (IHfuel l o), (IHfuel l1 o1). destruct (decompress_segments fuel (mkcd 0 in1 [] sc1) (acc ++ data)) as [[(r1, r2)| |]| |]; reflexivity.
Qed.

Lemma unpack_pos : forall buf value off pos v p, 0 <= value -> 0 <= off -> crle_unpack_loop buf value off pos = Ok (v, p) ->
  pos < p <= pos + zlen buf /\ 0 <= v.
Proof.
  induction buf as [|b buf IH]; intros value off pos v p Hv Ho E; cbn [crle_unpack_loop] in E; [discriminate|]. rewrite zlen_cons. pose proof (zlen_nonneg buf).
  assert (0 <= Z.lor value (Z.shiftl (Z.land b 127) off)).
  { apply Z.lor_nonneg. split; [exact Hv|]. apply Z.shiftl_nonneg. apply Z.land_nonneg. lia. }
  destruct (Z.land b 128 =? 0); [injection E as <- <-; lia|]. apply IH in E; lia.
Qed.

Lemma unpack_pos1 : forall k inn v p, crle_unpack_size (k :: inn) 1 = Ok (v, p) -> 1 < p <= zlen (k :: inn) /\ 0 <= v.
Proof.
  intros k inn v p U. unfold crle_unpack_size in U. rewrite zdrop_cons in U by lia. replace (1 - 1) with 0 in U by lia. rewrite zdrop_0 in U.
  apply unpack_pos in U; try lia. rewrite zlen_cons. lia.
Qed.

Lemma segment_step : forall l o inn sc data d1, 0 <= sc -> decompress_segment (mkcd l inn o sc) = Ok (data, d1) ->
  (length (cd_in d1) < length inn)%nat /\ 0 <= cd_scattered d1 /\ cd_left d1 = l /\ cd_out d1 = o.
Proof.
  intros l o inn sc data d1 Hs E. unfold decompress_segment in E. cbn [cd_in cd_scattered cd_left cd_out] in E.
  assert (G : forall len off rep sc1, 0 <= sc1 -> 0 < off + len ->
    (if zlen inn <? off + len then PyIndexError else Ok (repeat_bytes (Z.to_nat rep) (ztake len (zdrop off inn)), mkcd l (zdrop (off + len) inn) o sc1)) = Ok (data, d1) ->
    (length (cd_in d1) < length inn)%nat /\ 0 <= cd_scattered d1 /\ cd_left d1 = l /\ cd_out d1 = o).
  { intros len off rep sc1 H1 H2 H. destruct (Z.ltb_spec (zlen inn) (off + len)); [discriminate|]. injection H as _ <-. cbn [cd_in cd_scattered cd_left cd_out].
    split; [|auto]. unfold zdrop. rewrite skipn_length. unfold zlen in *. lia. }
  destruct (Z.eqb_spec sc 0).
  - destruct inn as [|kind inn]; [discriminate|].
    destruct (kind =? 0); [|destruct (kind =? 1); [|discriminate]];
    (destruct (crle_unpack_size (kind :: inn) 1) as [(v, p)| |] eqn:U; try discriminate; apply unpack_pos1 in U).
    + destruct (Z.ltb_spec 0 (p + v - zlen (kind :: inn))); eapply G; try exact E; lia.
    + eapply G; try exact E; lia.
  - destruct (Z.ltb_spec 0 (zlen inn)); [|discriminate]. eapply G; try exact E; lia.
Qed.

(** All segments of a chunk. *)
Lemma segments_total : forall fuel l o inn sc acc, 0 <= sc -> (length inn < fuel)%nat ->
  decompress_segments fuel (mkcd l inn o sc) acc = Ret PyError \/
  exists data inn1 sc1, decompress_segments fuel (mkcd l inn o sc) acc = Ret (Ok (acc ++ data, mkcd l inn1 o sc1)) /\
    0 <= sc1 /\ decompress_segment (mkcd 0 inn1 [] sc1) = PyIndexError.
Proof.
  induction fuel; intros l o inn sc acc Hs Hf; [lia|]. cbn [decompress_segments].
  destruct (decompress_segment (mkcd l inn o sc)) as [(data, d1)| |] eqn:E; auto.
  - apply segment_step in E; [|exact Hs]. destruct E as (E1 & E2 & E3 & E4). destruct d1 as (l1, in1, o1, sc1). cbn [cd_in cd_scattered cd_left cd_out] in *. subst l1 o1.
    destruct (IHfuel l o in1 sc1 (acc ++ data)) as [A|(d2 & in2 & sc2 & A1 & A2 & A3)]; auto; try lia. right. exists (data ++ d2), in2, sc2. rewrite app_assoc. auto.
  - right. exists [], inn, sc. rewrite app_nil_r. split; [reflexivity|]. split; [exact Hs|]. rewrite segment_lift in E.
    destruct (decompress_segment (mkcd 0 inn [] sc)) as [(?, ?)| |]; [discriminate|discriminate|reflexivity].
Qed.

(** What will be delivered for [file], read in chunks of 4096 bytes, and the input
    buffered and the bytes missing at the end unless it raises. *)
Fixpoint drain (k : nat) (inn : list Z) (sc : Z) (file : list Z) : list Z * option (list Z * Z) :=
  match k, file with
  | S k', _ :: _ =>
      let buf := inn ++ ztake 4096 file in
      match decompress_segments (S (length buf)) (mkcd 0 buf [] sc) [] with
      | Ret (Ok (out, d1)) => let '(o, e) := drain k' (cd_in d1) (cd_scattered d1) (zdrop 4096 file) in (out ++ o, e)
      | _ => ([], None)
      end
  | _, _ => ([], Some (inn, sc))
  end.

Lemma drop_short : forall b (l : list Z), (length (zdrop 4096 (b :: l)) <= length l)%nat.
Proof. intros. unfold zdrop. rewrite skipn_length. change (Z.to_nat 4096) with (S (Z.to_nat 4095)). cbn [length]. lia. Qed.

Lemma drain_fuel : forall k1 k2 inn sc file, (length file <= k1)%nat -> (length file <= k2)%nat -> drain k1 inn sc file = drain k2 inn sc file.
Proof.
  induction k1; intros k2 inn sc file H1 H2.
  - destruct file; [|cbn in H1; lia]. destruct k2; reflexivity.
  - destruct file as [|b file]; [destruct k2; reflexivity|]. destruct k2; [cbn in H2; lia|]. cbn [drain]. cbn [length] in *. pose proof (drop_short b file).
    destruct (decompress_segments _ _ _) as [[(out, d1)| |]| |]; try reflexivity. rewrite (IHk1 k2) by lia. reflexivity.
Qed.

Definition Rcrle (good : bool) (e : option (list Z * Z)) (d : dstate crle_dec) (file out : list Z) : Prop :=
  cd_left d = zlen file /\ 0 <= cd_scattered d /\ decompress_segment (mkcd 0 (cd_in d) [] (cd_scattered d)) = PyIndexError /\
  (exists o, drain (length file) (cd_in d) (cd_scattered d) file = (o, e) /\ out = cd_out d ++ o) /\
  (good = true -> exists rem, todo_from 1 (cd_scattered d) (cd_in d) file rem).

Lemma Rcrle_input : forall good e d b file out n, Rcrle good e d (b :: file) out -> cd_eof d = false -> cd_out d = [] -> 0 < n ->
  delivers crle_dec (Rcrle good e) d (ztake 4096 (b :: file)) (zdrop 4096 (b :: file)) out n false.
Proof.
  intros good e (l, inn, ou, sc) b file out n (A1 & A2 & A3 & (o & A4 & A5) & A6) He Ho Hn. cbn [cd_left cd_in cd_out cd_scattered] in *. subst ou. cbn [app] in A5. subst o.
  unfold delivers. cbn [crle_dec d_decompress]. unfold crle_decompress_call. rewrite He. cbn [cd_left cd_in cd_out cd_scattered].
  assert (Hz : ztake 4096 (b :: file) <> []) by (rewrite ztake_cons by lia; discriminate).
  remember (b :: file) as fl eqn:Ef.
  assert (Hl : zlen (ztake 4096 fl) <= zlen fl) by (rewrite zlen_ztake by lia; lia).
  destruct (Z.ltb_spec l (zlen (ztake 4096 fl))); [lia|].
  assert (Hd : exists k, drain (length fl) inn sc fl = match decompress_segments (S (length (inn ++ ztake 4096 fl))) (mkcd 0 (inn ++ ztake 4096 fl) [] sc) [] with
      | Ret (Ok (out, d1)) => let '(o, e) := drain k (cd_in d1) (cd_scattered d1) (zdrop 4096 fl) in (out ++ o, e)
      | _ => ([], None)
      end /\ (length (zdrop 4096 fl) <= k)%nat).
  { subst fl. exists (length file). split; [reflexivity|apply drop_short]. }
  destruct Hd as (k & Hd & Hk). rewrite Hd in A4. rewrite segments_lift.
  destruct (segments_total (S (length (inn ++ ztake 4096 fl))) 0 [] (inn ++ ztake 4096 fl) sc [] A2 (Nat.lt_succ_diag_r _)) as [S|(data & in1 & sc1 & S1 & S2 & S3)].
  - rewrite S in *. injection A4 as <- <-. left. auto.
  - rewrite S1 in *. cbn [obind lift cd_in cd_scattered cd_left cd_out app] in *. right.
    rewrite (drain_fuel k (length (zdrop 4096 fl))) in A4 by lia. destruct (drain (length (zdrop 4096 fl)) in1 sc1 (zdrop 4096 fl)) as (o2, e2) eqn:E2. injection A4 as <- ->.
    exists (ztake n data), (zdrop n data ++ o2). eexists. split; [reflexivity|]. split; [|split; [rewrite app_assoc, ztake_zdrop; reflexivity|split; [rewrite zlen_ztake by lia; lia|discriminate]]].
    unfold Rcrle. cbn [cd_left cd_in cd_out cd_scattered]. split; [rewrite zlen_ztake, zlen_zdrop by lia; lia|]. split; [exact S2|]. split; [exact S3|]. split.
    + exists o2. auto.
    + intros G. destruct (A6 G) as (rem & lit & segs & T1 & T2 & T3 & T4). rewrite <- (ztake_zdrop 4096 fl), app_assoc in T3.
      destruct (decompress_segments_from 1 (S (length (inn ++ ztake 4096 fl))) (mkcd 0 (inn ++ ztake 4096 fl) [] sc) [] (zdrop 4096 fl) rem) as (out & d1 & rem1 & B1 & B2 & B3 & _);
        [lia|cbn [cd_in]; lia|exists lit, segs; auto|]. rewrite S1 in B1. injection B1 as <- <-. exists rem1. exact B3.
Qed.

Lemma Rcrle_output : forall good e d file out n, Rcrle good e d file out -> cd_eof d = false -> cd_out d <> [] -> 0 < n ->
  delivers crle_dec (Rcrle good e) d [] file out n true.
Proof.
  intros good e (l, inn, ou, sc) file out n (A1 & A2 & A3 & (o & A4 & A5) & A6) He Ho Hn. cbn [cd_left cd_in cd_out cd_scattered] in *.
  unfold delivers. cbn [crle_dec d_decompress]. unfold crle_decompress_call. rewrite He. cbn [cd_left cd_in cd_out cd_scattered]. change (zlen (@nil Z)) with 0.
  pose proof (zlen_nonneg file). destruct (Z.ltb_spec l 0); [lia|]. change (zlen (@nil Z)) with 0. rewrite app_nil_r. cbn [decompress_segments]. rewrite segment_lift, A3. cbn [lift obind cd_left cd_in cd_out cd_scattered].
  right. rewrite app_nil_r. exists (ztake n ou), (zdrop n ou ++ o). eexists. split; [reflexivity|].
  split; [|split; [rewrite A5, app_assoc, ztake_zdrop; reflexivity|split; [rewrite zlen_ztake by lia; lia|]]].
  - unfold Rcrle. cbn [cd_left cd_in cd_out cd_scattered]. rewrite Z.sub_0_r. splits; auto. exists o. auto.
  - intros _. left. intros E. destruct ou as [|x ou]; [congruence|]. rewrite ztake_cons in E by lia. discriminate.
Qed.

Lemma crle_contract : forall good e, contract crle_dec (Rcrle good e).
Proof.
  intros good e d file out H. cbn [crle_dec d_eof d_needs_input dstate]. unfold cd_needs_input. destruct (cd_eof d) eqn:E.
  - destruct H as (A1 & A2 & A3 & (o & A4 & A5) & A6). unfold cd_eof in E. assert (L : cd_left d = 0 /\ cd_out d = []).
    { split; [lia|]. apply zlen_0_nil. lia. }
    destruct L as (L1 & L2). rewrite L2 in A5. rewrite L1 in A1. symmetry in A1. apply zlen_0_nil in A1. subst file. cbn in A4. injection A4 as <- _. exact A5.
  - cbn [negb]. rewrite andb_true_r. destruct (Z.eqb_spec (zlen (cd_out d)) 0) as [Z0|Z0].
    + apply zlen_0_nil in Z0. destruct file as [|b file].
      * destruct H as (A1 & A2 & A3 & (o & A4 & A5) & A6). cbn in A4. injection A4 as <- _. rewrite Z0 in A5. exact A5.
      * intros n Hn. apply Rcrle_input; auto.
    + intros n Hn. apply Rcrle_output; auto. intros N. rewrite N in Z0. apply Z0. reflexivity.
Qed.

(** ** crle streams *)

Lemma drain_todo : forall lo k inn sc file f rem, 0 <= lo -> (length file <= k)%nat -> todo_from lo sc inn (file ++ f) rem ->
  exists o inn1 sc1 rem1, drain k inn sc file = (o, Some (inn1, sc1)) /\ rem = o ++ rem1 /\ todo_from lo sc1 inn1 f rem1 /\
    (f = [] -> decompress_segment (mkcd 0 inn [] sc) = PyIndexError -> inn1 = [] /\ rem1 = []).
Proof.
  intros lo. induction k; intros inn sc file f rem Hlo Hk T.
  - destruct file; [|cbn in Hk; lia]. exists [], inn, sc, rem. split; [reflexivity|]. split; [reflexivity|]. split; [exact T|]. intros -> E.
    pose proof (decompress_segment_from lo (mkcd 0 inn [] sc) [] rem Hlo T) as S. rewrite E in S. apply S. reflexivity.
  - destruct file as [|b file].
    { exists [], inn, sc, rem. split; [reflexivity|]. split; [reflexivity|]. split; [exact T|]. intros -> E.
      pose proof (decompress_segment_from lo (mkcd 0 inn [] sc) [] rem Hlo T) as S. rewrite E in S. apply S. reflexivity. }
    cbn [drain]. pose proof (drop_short b file) as Hs. remember (b :: file) as fl eqn:Ef.
    destruct T as (lit & segs & T1 & T2 & T3 & T4). rewrite <- (ztake_zdrop 4096 fl), <- app_assoc, app_assoc in T3.
    destruct (decompress_segments_from lo (S (length (inn ++ ztake 4096 fl))) (mkcd 0 (inn ++ ztake 4096 fl) [] sc) [] (zdrop 4096 fl ++ f) rem) as (out & d1 & rem1 & B1 & B2 & B3 & _);
      [lia|cbn [cd_in]; lia|exists lit, segs; auto|].
    destruct (segments_total (S (length (inn ++ ztake 4096 fl))) 0 [] (inn ++ ztake 4096 fl) sc []) as [S|(data & in1 & sc1 & S1 & S2 & S3)];
      [pose proof (zlen_nonneg lit); lia|lia|congruence|].
    rewrite S1 in *. cbn [app] in *. injection B1 as -> <-. cbn [cd_in cd_scattered] in *.
    destruct (IHk in1 sc1 (zdrop 4096 fl) f rem1) as (o & in2 & sc2 & rem2 & C1 & C2 & C3 & C4); auto.
    { subst fl. cbn [length] in Hk. lia. }
    rewrite C1. exists (out ++ o), in2, sc2, rem2. split; [reflexivity|]. split; [rewrite <- app_assoc; congruence|]. split; [exact C3|]. intros F _. apply C4; auto.
Qed.

Lemma expand_nil : forall lit segs, Forall (fun s => 1 <= seg_len s < 2 ^ 63) segs -> lit ++ segs_expand segs = [] -> lit = [] /\ segs = [].
Proof.
  intros lit segs H E. apply app_eq_nil in E. destruct E as (-> & E). split; [reflexivity|]. destruct segs as [|s segs]; [reflexivity|].
  inversion H as [|? ? H1 H2]; subst. unfold segs_expand in E. cbn [flat_map] in E. apply app_eq_nil in E. destruct E as (E & _). apply (f_equal zlen) in E.
  change (zlen (@nil Z)) with 0 in E. destruct s as [d|n b]; cbn [seg_expand seg_len] in *; [lia|]. rewrite zlen_zrepeat in E by lia. lia.
Qed.

Lemma crle_ends : forall e, ends crle_dec (Rcrle true e).
Proof.
  intros e d file (A1 & A2 & A3 & (o & A4 & A5) & A6). destruct (A6 eq_refl) as (rem & T). symmetry in A5. apply app_eq_nil in A5. destruct A5 as (Ho & ->).
  pose proof T as T'. rewrite <- (app_nil_r file) in T'.
  destruct (drain_todo 1 (length file) (cd_in d) (cd_scattered d) file [] rem ltac:(lia) (le_n _) T') as (o1 & i1 & s1 & r1 & B1 & B2 & B3 & B4).
  rewrite A4 in B1. injection B1 as <- _. destruct (B4 eq_refl A3) as (_ & ->). destruct T as (lit & segs & T1 & T2 & T3 & T4). rewrite B2 in T4. symmetry in T4.
  apply expand_nil in T4; [|exact T2]. destruct T4 as (-> & ->). cbn in T3. apply app_eq_nil in T3. destruct T3 as (E1 & ->).
  cbn [crle_dec d_eof]. unfold cd_eof. rewrite A1, E1, Ho. reflexivity.
Qed.

(** A complete stream. *)
Lemma crle_start : forall segs, Forall (fun s => 1 <= seg_len s < 2 ^ 63) segs ->
  exists e, Rcrle true e (d_init crle_dec (zlen (enc_segs segs))) (enc_segs segs) (segs_expand segs).
Proof.
  intros segs H. assert (T : todo_from 1 0 [] (enc_segs segs ++ []) (segs_expand segs)).
  { exists [], segs. rewrite app_nil_r. auto. }
  destruct (drain_todo 1 (length (enc_segs segs)) [] 0 (enc_segs segs) [] (segs_expand segs) ltac:(lia) (le_n _) T) as (o & i1 & s1 & r1 & B1 & B2 & B3 & B4).
  destruct (B4 eq_refl eq_refl) as (-> & ->). rewrite app_nil_r in *. exists (Some ([], s1)). cbn [crle_dec d_init]. unfold Rcrle, cdec_init. cbn [cd_left cd_in cd_out cd_scattered].
  splits; [reflexivity|lia|reflexivity|exists o; auto|]. intros _. exists (segs_expand segs). exact T.
Qed.

(** A stream that has been cut off. *)
Lemma crle_cut : forall segs file cut, Forall (fun s => 1 <= seg_len s < 2 ^ 63) segs -> file ++ cut = enc_segs segs -> cut <> [] ->
  exists e out more, Rcrle false e (d_init crle_dec (zlen file)) file out /\ out ++ more = segs_expand segs /\ more <> [].
Proof.
  intros segs file cut H E Hc. assert (T : todo_from 1 0 [] (file ++ cut) (segs_expand segs)).
  { exists [], segs. auto. }
  destruct (drain_todo 1 (length file) [] 0 file cut (segs_expand segs) ltac:(lia) (le_n _) T) as (o & i1 & s1 & r1 & B1 & B2 & B3 & B4).
  exists (Some (i1, s1)), o, r1. cbn [crle_dec d_init]. unfold Rcrle, cdec_init. cbn [cd_left cd_in cd_out cd_scattered]. split; [|split; [auto|]].
  - splits; [reflexivity|lia|reflexivity|exists o; auto|discriminate].
  - intros ->. destruct B3 as (lit & sg & T1 & T2 & T3 & T4). symmetry in T4. apply expand_nil in T4; [|exact T2]. destruct T4 as (-> & ->). cbn in T3. apply app_eq_nil in T3. tauto.
Qed.

(** ** crle streams followed by other bytes *)

Lemma unpack_dec : forall buf f value off pos v p, bytes_ok buf -> 0 <= value < 2 ^ off -> 0 <= off -> crle_unpack_loop buf value off pos = Ok (v, p) ->
  exists n, dec_usize (buf ++ f) = Some (n, zdrop (p - pos) buf ++ f) /\ v = value + 2 ^ off * n /\ 0 <= n.
Proof.
  induction buf as [|b buf IH]; intros f value off pos v p Hb Hv Ho E; cbn [crle_unpack_loop] in E; [discriminate|]. inversion Hb as [|? ? B1 B2]; subst.
  assert (0 <= Z.land b 127) by (rewrite land_127; apply Z.mod_pos_bound; lia).
  assert (Hl : Z.lor value (Z.shiftl (Z.land b 127) off) = value + Z.land b 127 * 2 ^ off) by (apply lor_add; lia).
  rewrite Hl, land_127, land_128_byte in E by exact B1. unfold byte_ok in B1. cbn [app dec_usize]. destruct (Z.ltb_spec b 128).
  - injection E as <- <-. exists b. rewrite zdrop_cons by lia. replace (pos + 1 - pos - 1) with 0 by lia. rewrite zdrop_0. rewrite Z.mod_small by lia. split; [reflexivity|]. rewrite Z.mul_comm. lia.
  - assert (P : 2 ^ (off + 7) = 128 * 2 ^ off) by (rewrite Z.pow_add_r by lia; lia).
    assert (M : b mod 128 = b - 128) by (symmetry; apply Z.mod_unique with 1; lia). rewrite M in E.
    assert (V : 0 <= value + (b - 128) * 2 ^ off < 128 * 2 ^ off).
    { split; [apply Z.add_nonneg_nonneg; [lia|apply Z.mul_nonneg_nonneg; lia]|]. assert ((b - 128) * 2 ^ off <= 127 * 2 ^ off) by (apply Z.mul_le_mono_nonneg_r; lia). lia. }
    assert (O7 : 0 <= off + 7) by lia.
    destruct (IH f _ _ _ _ _ B2 ltac:(rewrite P; exact V) O7 E) as (n & E1 & E2 & E3). rewrite E1. exists (b - 128 + 128 * n).
    pose proof (unpack_pos _ _ _ _ _ _ (proj1 V) O7 E). rewrite zdrop_cons by lia. replace (p - pos - 1) with (p - (pos + 1)) by lia. split; [reflexivity|].
    rewrite E2, P. split; [|lia]. rewrite Z.mul_add_distr_l. rewrite (Z.mul_comm (2 ^ off) (b - 128)). rewrite (Z.mul_comm 128), <- Z.mul_assoc, Z.add_assoc. reflexivity.
Qed.

(** What remains when nothing more is going to be delivered. *)
Definition idle (sc : Z) (bytes : list Z) : Prop := (sc = 0 /\ crle_void bytes) \/ (0 < sc /\ bytes = []).

Lemma repeat_nil : forall n l, repeat_bytes n l = [] -> n = O \/ l = [].
Proof. intros [|n] l E; [auto|]. cbn in E. apply app_eq_nil in E. tauto. Qed.

Lemma bytes_zdrop : forall n l, bytes_ok l -> bytes_ok (zdrop n l).
Proof. intros n l H. unfold bytes_ok in *. rewrite Forall_forall in *. intros x Hx. apply H. unfold zdrop in Hx. rewrite <- (firstn_skipn (Z.to_nat n) l). apply in_or_app. auto. Qed.

Lemma segment_bytes : forall d data d1, bytes_ok (cd_in d) -> decompress_segment d = Ok (data, d1) -> bytes_ok (cd_in d1).
Proof.
  intros d data d1 H E. unfold decompress_segment in E.
  assert (G : exists n, cd_in d1 = zdrop n (cd_in d)); [|destruct G as (n & ->); apply bytes_zdrop; exact H].
  repeat match type of E with
  | context [if ?b then _ else _] => destruct b
  | context [match crle_unpack_size ?a ?b with _ => _ end] => destruct (crle_unpack_size a b) as [(?, ?)| |]
  | context [match cd_in d with _ => _ end] => destruct (cd_in d)
  end; try discriminate; injection E as _ <-; cbn [cd_in]; eexists; reflexivity.
Qed.

Lemma idle_step : forall inn sc f d1, bytes_ok inn -> 0 <= sc -> decompress_segment (mkcd 0 inn [] sc) = Ok ([], d1) ->
  idle (cd_scattered d1) (cd_in d1 ++ f) -> idle sc (inn ++ f).
Proof.
  intros inn sc f d1 Hb Hs E I. unfold decompress_segment in E. cbn [cd_in cd_scattered cd_left cd_out] in E.
  destruct (Z.eqb_spec sc 0) as [S0|S0].
  - subst sc. left. split; [reflexivity|]. destruct inn as [|kind inn]; [discriminate|].
    assert (U : forall v p, crle_unpack_size (kind :: inn) 1 = Ok (v, p) -> 1 < p <= zlen (kind :: inn) /\ 0 <= v /\ dec_usize (inn ++ f) = Some (v, zdrop p (kind :: inn) ++ f)).
    { intros v p U. pose proof (unpack_pos1 _ _ _ _ U) as U1. unfold crle_unpack_size in U. rewrite zdrop_cons in U by lia. replace (1 - 1) with 0 in U by lia. rewrite zdrop_0 in U.
      apply unpack_dec with (f := f) in U; [|inversion Hb; assumption|lia|lia]. destruct U as (n & U2 & -> & U3). rewrite zdrop_cons by lia.
      replace (0 + 2 ^ 0 * n) with n by (change (2 ^ 0) with 1; lia). splits; auto; lia. }
    cbn [app]. destruct (Z.eqb_spec kind 0) as [->|K0]; [|destruct (Z.eqb_spec kind 1) as [->|K1]; [|discriminate]].
    + destruct (crle_unpack_size (0 :: inn) 1) as [(v, p)| |] eqn:Eu; try discriminate. destruct (U v p eq_refl) as (U1 & U2 & U3). clear U.
      assert (G : forall len, (if zlen (0 :: inn) <? p + len then PyIndexError
             else Ok (repeat_bytes (Z.to_nat 1) (ztake len (zdrop p (0 :: inn))), mkcd 0 (zdrop (p + len) (0 :: inn)) [] (v - len))) = Ok ([], d1) ->
             0 <= len <= v -> crle_void (0 :: inn ++ f)).
      { intros len E1 L. destruct (Z.ltb_spec (zlen (0 :: inn)) (p + len)); [discriminate|]. injection E1 as E2 <-. cbn [cd_in cd_scattered] in I.
        rewrite app_nil_r in E2. apply (f_equal zlen) in E2. rewrite zlen_ztake, zlen_zdrop in E2 by lia. change (zlen (@nil Z)) with 0 in E2.
        assert (len = 0) by lia. subst len. rewrite Z.add_0_r, Z.sub_0_r in I. destruct I as [(I1 & I2)|(I1 & I2)].
        - subst v. eapply void_scattered; eauto.
        - rewrite I2 in U3. eapply void_missing; eauto. }
      destruct (Z.ltb_spec 0 (p + v - zlen (0 :: inn))).
      * apply (G (v - (p + v - zlen (0 :: inn)))); [|lia]. rewrite <- E. replace (v - (v - (p + v - zlen (0 :: inn)))) with (p + v - zlen (0 :: inn)) by lia. reflexivity.
      * apply (G v); [|lia]. rewrite <- E. rewrite Z.sub_diag. reflexivity.
    + destruct (crle_unpack_size (1 :: inn) 1) as [(v, p)| |] eqn:Eu; try discriminate. destruct (U v p eq_refl) as (U1 & U2 & U3). clear U.
      destruct (Z.ltb_spec (zlen (1 :: inn)) (p + 1)) as [|Lp]; [discriminate|]. injection E as E1 <-. cbn [cd_in cd_scattered] in I.
      assert (Z0 : zdrop p (1 :: inn) = hd 0 (zdrop p (1 :: inn)) :: zdrop (p + 1) (1 :: inn)).
      { destruct (zdrop p (1 :: inn)) as [|x l] eqn:Ez; [apply (f_equal zlen) in Ez; rewrite zlen_zdrop in Ez by lia; change (zlen (@nil Z)) with 0 in Ez; lia|].
        rewrite Z.add_comm, <- zdrop_zdrop, Ez by lia. rewrite zdrop_cons by lia. replace (1 - 1) with 0 by lia. rewrite zdrop_0. reflexivity. }
      apply repeat_nil in E1. destruct E1 as [E1|E1].
      * assert (v = 0) by lia. subst v. rewrite Z0 in U3. destruct I as [(_ & I)|(I & _)]; [|lia]. eapply void_repeated; eauto.
      * rewrite Z0 in E1. rewrite ztake_cons in E1 by lia. discriminate.
  - destruct (Z.ltb_spec 0 (zlen inn)); [|discriminate]. destruct (Z.ltb_spec (zlen inn) (0 + Z.min (zlen inn) sc)); [discriminate|]. injection E as E1 _.
    rewrite app_nil_r in E1. apply (f_equal zlen) in E1. rewrite zdrop_0, zlen_ztake in E1 by lia. change (zlen (@nil Z)) with 0 in E1. lia.
Qed.

Lemma idle_segments : forall fuel inn sc f acc out d1, bytes_ok inn -> 0 <= sc -> decompress_segments fuel (mkcd 0 inn [] sc) acc = Ret (Ok (out, d1)) ->
  bytes_ok (cd_in d1) /\ 0 <= cd_scattered d1 /\
  exists data, out = acc ++ data /\ (data = [] -> idle (cd_scattered d1) (cd_in d1 ++ f) -> idle sc (inn ++ f)).
Proof.
  induction fuel; intros inn sc f acc out d1 Hb Hs E; cbn [decompress_segments] in E; [discriminate|].
  destruct (decompress_segment (mkcd 0 inn [] sc)) as [(data, d2)| |] eqn:Es; try discriminate.
  - pose proof (segment_step _ _ _ _ _ _ Hs Es) as (S1 & S2 & S3 & S4). pose proof (segment_bytes (mkcd 0 inn [] sc) _ _ Hb Es) as S5.
    destruct d2 as (l2, in2, o2, sc2). cbn [cd_in cd_scattered cd_left cd_out] in *. subst l2 o2.
    destruct (IHfuel in2 sc2 f _ _ _ S5 S2 E) as (A1 & A2 & data2 & A3 & A4). split; [exact A1|]. split; [exact A2|]. exists (data ++ data2). split; [rewrite A3, app_assoc; reflexivity|].
    intros N I. apply app_eq_nil in N. destruct N as (-> & ->). eapply idle_step; eauto.
  - injection E as <- <-. cbn [cd_in cd_scattered]. split; [exact Hb|]. split; [exact Hs|]. exists []. rewrite app_nil_r. auto.
Qed.

Lemma idle_drain : forall k inn sc file sc1, bytes_ok inn -> bytes_ok file -> 0 <= sc -> (length file <= k)%nat -> drain k inn sc file = ([], Some ([], sc1)) -> idle sc (inn ++ file).
Proof.
  assert (N : forall inn sc sc1, 0 <= sc -> ([] : list Z, Some (inn, sc)) = ([], Some ([], sc1)) -> idle sc (inn ++ [])).
  { intros inn sc sc1 Hs E. injection E as -> _. cbn [app]. destruct (Z.eq_dec sc 0); [left|right]; split; auto; [constructor|lia]. }
  induction k; intros inn sc file sc1 Hb Hf Hs Hk E.
  - destruct file; [|cbn in Hk; lia]. cbn in E. eapply N; eauto.
  - destruct file as [|b file]; [cbn in E; eapply N; eauto|]. cbn [drain] in E. pose proof (drop_short b file). cbn [length] in Hk. remember (b :: file) as fl eqn:Ef. clear Ef.
    destruct (decompress_segments (S (length (inn ++ ztake 4096 fl))) (mkcd 0 (inn ++ ztake 4096 fl) [] sc) []) as [[(out, d1)| |]| |] eqn:Es; try discriminate.
    destruct (drain k (cd_in d1) (cd_scattered d1) (zdrop 4096 fl)) as (o, e) eqn:Ed. injection E as Eo ->. apply app_eq_nil in Eo. destruct Eo as (-> & ->).
    apply idle_segments with (f := zdrop 4096 fl) in Es; [|apply Forall_app; split; [exact Hb|]|exact Hs].
    + destruct Es as (A1 & A2 & data & A3 & A4). rewrite <- app_assoc, ztake_zdrop in A4. apply A4; [cbn in A3; auto|].
      eapply IHk; eauto; [apply bytes_zdrop; exact Hf|lia].
    + unfold bytes_ok in *. rewrite <- (ztake_zdrop 4096 fl) in Hf. apply Forall_app in Hf. apply Hf.
Qed.

Definition unfinished (lit : list Z) (segs : list seg) : Prop := lit <> [] \/ segs <> [].

Lemma unfinished_dec : forall lit segs, (lit = [] /\ segs = []) \/ unfinished lit segs.
Proof. unfold unfinished. intros [|x lit] [|s segs]; auto; right; try (left; discriminate); right; discriminate. Qed.

Lemma tail_segments : forall fuel inn sc f tl lit segs acc out d1, bytes_ok inn -> (length inn < fuel)%nat ->
  todo_tail 1 sc inn f tl lit segs -> decompress_segments fuel (mkcd 0 inn [] sc) acc = Ret (Ok (out, d1)) ->
  bytes_ok (cd_in d1) /\ 0 <= cd_scattered d1 /\ exists data, out = acc ++ data /\
  ((exists lit1 segs1, lit ++ segs_expand segs = data ++ lit1 ++ segs_expand segs1 /\ todo_tail 1 (cd_scattered d1) (cd_in d1) f tl lit1 segs1 /\ unfinished lit1 segs1 /\ f <> []) \/
   (exists data2, data = lit ++ segs_expand segs ++ data2 /\ (data2 = [] -> idle (cd_scattered d1) (cd_in d1 ++ f) -> crle_void tl))).
Proof.
  induction fuel; intros inn sc f tl lit segs acc out d1 Hb Hf T E; [lia|].
  assert (Hs : 0 <= sc) by (destruct T as (<- & _); apply zlen_nonneg).
  destruct (unfinished_dec lit segs) as [(-> & ->)|U].
  - destruct (idle_segments _ _ _ f _ _ _ Hb Hs E) as (A1 & A2 & data & A3 & A4). split; [exact A1|]. split; [exact A2|]. exists data. split; [exact A3|]. right. exists data. split; [reflexivity|].
    intros N I. specialize (A4 N I). destruct T as (T1 & _ & T3). cbn in T3. rewrite T3 in A4. change (zlen (@nil Z)) with 0 in T1. destruct A4 as [A4|A4]; [tauto|lia].
  - cbn [decompress_segments] in E. pose proof (decompress_segment_tail 1 (mkcd 0 inn [] sc) f tl lit segs ltac:(lia) T U) as S.
    destruct (decompress_segment (mkcd 0 inn [] sc)) as [(data, d2)| |] eqn:Es; [|destruct S|].
    + destruct S as (lit1 & segs1 & S1 & S2 & S3 & S4 & S5). pose proof (segment_bytes (mkcd 0 inn [] sc) _ _ Hb Es) as S6. destruct d2 as (l2, in2, o2, sc2). cbn [cd_in cd_scattered cd_left cd_out] in *. subst l2 o2.
      destruct (IHfuel in2 sc2 f tl lit1 segs1 _ _ _ S6 ltac:(lia) S2 E) as (A1 & A2 & data2 & A3 & A4). split; [exact A1|]. split; [exact A2|]. exists (data ++ data2). split; [rewrite A3, app_assoc; reflexivity|].
      destruct A4 as [(lit2 & segs2 & B1 & B2 & B3 & B4)|(data3 & B1 & B2)].
      * left. exists lit2, segs2. split; [rewrite S1, B1, <- app_assoc; reflexivity|]. auto.
      * right. exists data3. split; [|exact B2]. rewrite (app_assoc lit), S1, B1, <- !app_assoc. reflexivity.
    + injection E as <- <-. cbn [cd_in cd_scattered]. split; [exact Hb|]. split; [exact Hs|]. exists []. rewrite app_nil_r. split; [reflexivity|]. left. exists lit, segs. auto.
Qed.

Lemma tail_drain : forall k inn sc file tl lit segs o e, bytes_ok inn -> bytes_ok file -> (length file <= k)%nat ->
  todo_tail 1 sc inn file tl lit segs -> unfinished lit segs -> drain k inn sc file = (o, e) ->
  (exists cut, cut <> [] /\ o ++ cut = lit ++ segs_expand segs) \/
  (exists rest, o = lit ++ segs_expand segs ++ rest /\ (rest = [] -> forall sc1, e = Some ([], sc1) -> crle_void tl)).
Proof.
  assert (N : forall lit segs, Forall (fun s => 1 <= seg_len s < 2 ^ 63) segs -> unfinished lit segs -> exists cut, cut <> [] /\ [] ++ cut = lit ++ segs_expand segs).
  { intros lit segs H U. exists (lit ++ segs_expand segs). split; [|reflexivity]. intros E. apply expand_nil in E; [|exact H]. destruct U; tauto. }
  induction k; intros inn sc file tl lit segs o e Hb Hf Hk T U E.
  - destruct file; [|cbn in Hk; lia]. cbn in E. injection E as <- <-. left. apply N; auto. apply T.
  - destruct file as [|b file]; [cbn in E; injection E as <- <-; left; apply N; auto; apply T|].
    cbn [drain] in E. pose proof (drop_short b file). cbn [length] in Hk. remember (b :: file) as fl eqn:Ef. clear Ef.
    destruct (decompress_segments (S (length (inn ++ ztake 4096 fl))) (mkcd 0 (inn ++ ztake 4096 fl) [] sc) []) as [[(out, d1)| |]| |] eqn:Es;
      try (injection E as <- <-; left; apply N; auto; apply T).
    destruct (drain k (cd_in d1) (cd_scattered d1) (zdrop 4096 fl)) as (o2, e2) eqn:Ed. injection E as <- <-.
    assert (Hz : bytes_ok (ztake 4096 fl) /\ bytes_ok (zdrop 4096 fl)) by (apply Forall_app; rewrite ztake_zdrop; exact Hf).
    apply tail_segments with (f := zdrop 4096 fl) (tl := tl) (lit := lit) (segs := segs) in Es;
      [|apply Forall_app; tauto|lia|destruct T as (T1 & T2 & T3); split; [exact T1|]; split; [exact T2|]; rewrite <- app_assoc, ztake_zdrop; exact T3].
    destruct Es as (A1 & A2 & data & -> & [(lit1 & segs1 & B1 & B2 & B3 & _)|(data2 & -> & B2)]); cbn [app].
    + assert (K : (length (zdrop 4096 fl) <= k)%nat) by lia. destruct (IHk _ _ _ _ _ _ _ _ A1 (proj2 Hz) K B2 B3 Ed) as [(cut & C1 & C2)|(rest & C1 & C2)].
      * left. exists cut. split; [exact C1|]. rewrite <- app_assoc, C2. auto.
      * right. exists rest. split; [|exact C2]. rewrite C1. rewrite !(app_assoc lit), B1, <- !app_assoc. reflexivity.
    + right. exists (data2 ++ o2). split; [rewrite <- !app_assoc; reflexivity|]. intros R sc1 ->. apply app_eq_nil in R. destruct R as (-> & ->). apply B2; [reflexivity|].
      eapply idle_drain; [exact A1|apply Hz|exact A2| |exact Ed]; lia.
Qed.

(** A stream followed by other bytes: what is delivered is cut off, or goes on; if it
    neither is cut off nor goes on and the end is reported, the other bytes are void. *)
Lemma crle_over : forall segs tl, Forall (fun s => 1 <= seg_len s < 2 ^ 63) segs -> segs <> [] -> bytes_ok (enc_segs segs ++ tl) ->
  exists e out, Rcrle false e (d_init crle_dec (zlen (enc_segs segs ++ tl))) (enc_segs segs ++ tl) out /\
    ((exists cut, cut <> [] /\ out ++ cut = segs_expand segs) \/
     (exists rest, out = segs_expand segs ++ rest /\ (rest = [] -> forall sc1, e = Some ([], sc1) -> crle_void tl))).
Proof.
  intros segs tl H Hn Hb. destruct (drain (length (enc_segs segs ++ tl)) [] 0 (enc_segs segs ++ tl)) as (o, e) eqn:E. exists e, o. split.
  - cbn [crle_dec d_init]. unfold Rcrle, cdec_init. cbn [cd_left cd_in cd_out cd_scattered]. splits; [reflexivity|lia|reflexivity|exists o; auto|discriminate].
  - apply (tail_drain _ [] 0 _ tl [] segs o e) in E; auto; [constructor| |right; exact Hn]. split; [reflexivity|]. split; [exact H|]. reflexivity.
Qed.

Lemma Rcrle_eof : forall e d file out, Rcrle false e d file out -> d_eof crle_dec d = true -> out = [] /\ exists sc1, e = Some ([], sc1).
Proof.
  intros e d file out (A1 & A2 & A3 & (o & A4 & A5) & A6) E. cbn [crle_dec d_eof] in E. unfold cd_eof in E.
  assert (L : cd_left d = 0 /\ cd_out d = [] /\ cd_in d = []) by (split; [lia|]; split; apply zlen_0_nil; lia). destruct L as (L1 & L2 & L3).
  rewrite L1 in A1. symmetry in A1. apply zlen_0_nil in A1. subst file. cbn in A4. injection A4 as <- <-. rewrite L2 in A5. split; [exact A5|]. rewrite L3. eauto.
Qed.
