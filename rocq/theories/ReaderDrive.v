(** The readers under arbitrary schedules of input and requests. *)

From Coq Require Import ZArith List Bool Lia ZifyBool ZifyNat ZifyN.
From Verif Require Import Prelude Lib Heatshrink HsProofs CReader ReaderProofs ReaderSpec CSeq Spec SeqMeaning HsSpec.
Import ListNotations.
Open Scope Z_scope.

Ltac Zify.zify_post_hook ::= Z.to_euclidean_division_equations.

Section Drive.
Context {WBits : WordBits}.
Hypothesis Hword : 32 <= word_bits.

Definition not_none (r : reader) : Prop := match r with RNone _ _ => False | _ => True end.

Lemma decompress_spec' : forall r c n, not_none r -> rok r -> bytes_ok c -> 1 <= n -> dspec r c n.
Proof.
  intros [ps po|s|h] c n Hn Hr Hc H1; [destruct Hn| |].
  - apply dspec_crle; auto.
  - apply dspec_hs; auto.
Qed.

Lemma not_none_step : forall r c n res o r1 c1, not_none r -> decompress r c n = Ret (res, o, r1, c1) -> not_none r1.
Proof.
  intros [ps po|s|h] c n res o r1 c1 Hn E; [destruct Hn| |]; cbn [decompress] in E;
    apply obind_ret in E; destruct E as ([[[a b] d] e] & _ & E); inv E; exact I.
Qed.

(** The heatshrink reader only fails on its header byte. *)
Lemma hs_run_ok : forall w l d c n, w <> -1 -> hinv87 d -> bytes_ok c -> 1 <= n ->
  exists res o r1 c1, decompress (RHs (mkhr w l true (Some d))) c n = Ret (res, o, r1, c1) /\ 0 <= res.
Proof.
  intros w l d c n Hw Hd Hc Hn. unfold decompress, hs_decompress. cbn [hr_window hr_ptr hr_dec hr_lookahead].
  destruct (Z.eqb_spec w (-1)); [lia|].
  destruct (hs_loop_msteps c d n [] Hd Hc ltac:(change (zlen (@nil Z)) with 0; lia)) as (res & o & d1 & i1 & A & _ & _ & B).
  rewrite A. cbn [obind]. do 4 eexists. split; [reflexivity|]. destruct B as [(-> & _)|(-> & _)]; lia.
Qed.

Lemma hs_error : forall h c n res o r1 c1, rok (RHs h) -> bytes_ok c -> 1 <= n ->
  decompress (RHs h) c n = Ret (res, o, r1, c1) -> res < 0 -> res = - E_HEATSHRINK_HEADER /\
  forall f, exists r2 c2, pull (RHs h) (c ++ f) = Ret (res, [], r2, c2).
Proof.
  intros h c n res o r1 c1 Hr Hc Hn E Hneg. destruct Hr as [[Hw Hp]|(Hw & Hp & d & Hd & Hi)]; destruct h as [w l p dec]; cbn in Hw, Hp; subst p.
  - subst w. destruct c as [|b c]; [cbn in E; inv E; lia|]. inv Hc.
    unfold pull, decompress, hs_decompress in *. cbn [hr_window hr_ptr hr_dec hr_lookahead app] in *.
    change (-1 =? -1) with true in *. cbv iota zeta in *. destruct (negb _ || negb _) eqn:Eh.
    + cbn [obind] in *. inv E. split; [auto|]. intros f. do 2 eexists. reflexivity.
    + exfalso. assert (Ew : Z.land (Z.shiftr b 4) 15 + 4 = 8) by (unfold HS_WINDOW, HS_LOOKAHEAD in Eh; lia).
      destruct (hs_loop_msteps c (hs_reset (Z.land (Z.shiftr b 4) 15 + 4)) n []) as (res' & o' & d1 & i1 & A & _ & _ & B); auto;
        [rewrite Ew; apply hs_reset_inv; lia|change (zlen (@nil Z)) with 0; lia|].
      rewrite A in E. cbn [obind] in E. inv E. destruct B as [(-> & _)|(-> & _)]; lia.
  - exfalso. cbn in Hd. subst dec. destruct (hs_run_ok w l d c n Hw Hi Hc Hn) as (res' & o' & r' & c' & A & B). rewrite A in E. inv E. lia.
Qed.

Lemma error_one : forall r c n res o r1 c1, not_none r -> rok r -> bytes_ok c -> 1 <= n ->
  decompress r c n = Ret (res, o, r1, c1) -> res < 0 ->
  forall f, bytes_ok f -> exists o2 r2 c2, pull r (c ++ f) = Ret (res, o2, r2, c2).
Proof.
  intros [ps po|s|h] c n res o r1 c1 Hn Hr Hc H1 E Hneg f Hf; [destruct Hn| |].
  - unfold pull. cbn [decompress] in *. unfold crle_decompress in *.
    apply obind_ret in E. destruct E as ([[[res2 o2] s2] c2] & E & E2). inv E2.
    destruct (crle_loop_total 5 s c n Hr Hc H1 ltac:(destruct s; cbn; lia)) as (x1 & x2 & x3 & x4 & A & _ & _ & _ & _ & B).
    rewrite A in E. inv E. destruct B as [(-> & _)|[(-> & _)|(_ & B)]]; try lia. rewrite B. cbn [obind]. eauto.
  - destruct (hs_error _ _ _ _ _ _ _ Hr Hc H1 E Hneg) as (_ & B). destruct (B f) as (r2 & c2 & C). eauto.
Qed.

Lemma starve1 : forall r c n r1 c1, not_none r -> rok r -> bytes_ok c -> 1 <= n ->
  decompress r c n = Ret (1, [], r1, c1) -> exists r2 c2, pull r c = Ret (1, [], r2, c2).
Proof.
  intros [ps po|s|h] c n r1 c1 Hnn Hr Hc Hn E; [destruct Hnn| |]; unfold pull.
  - cbn [decompress] in *. apply obind_ret in E. destruct E as ([[[res o] s2] c2] & E & E'). inv E'.
    unfold crle_decompress in *. rewrite (crle_starve_one _ _ _ _ _ _ E). cbn [obind]. eauto.
  - cbn [decompress] in *. apply obind_ret in E. destruct E as ([[[res o] h1] c2] & E & E'). inv E'.
    destruct Hr as [[Hw Hp]|(Hw & Hp & d & Hd & Hi)]; destruct h as [w l p dec]; cbn in Hw, Hp; subst p.
    + subst w. destruct c as [|x c]; [cbn; eauto|]. inv Hc.
      unfold hs_decompress in *. cbn [hr_window hr_ptr hr_dec hr_lookahead Z.eqb Pos.eqb] in *.
      destruct (negb _ || negb _) eqn:Eh; [discriminate|].
      cbn [hr_window hr_ptr hr_dec hr_lookahead] in *.
      apply obind_ret in E. destruct E as ([[[res o] d1] c3] & E & E'). inv E'.
      assert (Ew : Z.land (Z.shiftr x 4) 15 + 4 = 8) by (unfold HS_WINDOW, HS_LOOKAHEAD in Eh; lia).
      rewrite (hs_starve_one _ _ n [] _ _) with (4 := E); [cbn [obind]; eauto|rewrite Ew; apply hs_reset_inv; lia|auto|].
      change (zlen (@nil Z)) with 0. lia.
    + cbn in Hd. subst dec. unfold hs_decompress in *.
      cbn [hr_window hr_ptr hr_dec hr_lookahead] in *.
      destruct (Z.eqb_spec w (-1)); [lia|].
      apply obind_ret in E. destruct E as ([[[res o] d1] c3] & E & E'). inv E'.
      rewrite (hs_starve_one _ _ n [] _ _) with (4 := E); [cbn [obind]; eauto|auto|auto|].
      change (zlen (@nil Z)) with 0. lia.
Qed.

(** What is still to be delivered: [rest], from the input [x]. *)
Definition will (r : reader) (x rest : list Z) : Prop :=
  exists r0 i0 rE, pull r x = pull r0 i0 /\ pulls r0 i0 rest rE [] /\
    exists r2 c2, pull rE [] = Ret (1, [], r2, c2).

Lemma pulls_prefix : forall r i a r1 i1, pulls r i a r1 i1 -> forall b r2 i2, pulls r i b r2 i2 ->
  (exists c, b = a ++ c /\ pulls r1 i1 c r2 i2) \/ (exists x c r3 i3, a = b ++ x :: c /\ pull r2 i2 = Ret (0, [x], r3, i3)).
Proof.
  induction 1; intros b r2' i2' Q.
  - left. exists b. auto.
  - inv Q.
    + right. exists c, o, r1, i1. auto.
    + rewrite H in H1. inv H1. destruct (IHpulls _ _ _ H2) as [(c' & -> & X)|(x & c' & r5 & i5 & -> & X)].
      * left. exists c'. auto.
      * right. exists x, c', r5, i5. auto.
Qed.

Lemma pull_pulls : forall r x r0 i0 o r1 i1, pull r x = pull r0 i0 -> o <> [] -> pulls r x o r1 i1 -> pulls r0 i0 o r1 i1.
Proof. intros r x r0 i0 o r1 i1 E Ho P. inv P; [congruence|]. econstructor; [rewrite <- E; eassumption|auto]. Qed.

Lemma will_ask : forall r left f rest n res o r1 left1, not_none r -> rok r -> bytes_ok left -> bytes_ok f -> 1 <= n ->
  will r (left ++ f) rest -> decompress r left n = Ret (res, o, r1, left1) ->
  0 <= res /\ rok r1 /\ bytes_ok left1 /\ not_none r1 /\ exists rest1, rest = o ++ rest1 /\ will r1 (left1 ++ f) rest1 /\
    (f = [] -> rest <> [] -> o <> []).
Proof.
  intros r left f rest n res o r1 left1 Hnn Hr Hl Hf Hn (r0 & i0 & rE & J & P & (r2 & c2 & S)) E.
  pose proof (not_none_step _ _ _ _ _ _ _ Hnn E) as Hnn1.
  assert (Hpull : (exists x rest1 r3 i3, rest = x :: rest1 /\ pull r (left ++ f) = Ret (0, [x], r3, i3)) \/
     rest = [] /\ exists r3 i3, pull r (left ++ f) = Ret (1, [], r3, i3)).
  { rewrite J. inv P; [right; eauto|]. left. eauto 8. }
  destruct (decompress_spec' r left n Hnn Hr Hl Hn) as (res' & o' & r' & l' & E' & Hr' & Hl' & Ho & Hu & Hcase).
  rewrite E in E'. inv E'. destruct Hcase as [(-> & -> & -> & K)|[(-> & _ & K1 & K2)|(A & _)]].
  - split; [lia|]. split; [apply Hr'; lia|]. split; [auto|]. split; [auto|]. exists rest. split; [auto|].
    split.
    + exists r0, i0, rE. split; [cbn [app]; rewrite <- K by auto; exact J|]. eauto.
    + intros -> Hne. exfalso. destruct Hpull as [(x & rest1 & r3 & i3 & A & B)|(A & _)]; [|congruence].
      rewrite app_nil_r in B. specialize (K [] Hf). rewrite app_nil_r in K.
      destruct (starve1 r left n r' [] Hnn Hr Hl Hn E) as (r4 & c4 & Q). rewrite Q in B. discriminate.
  - split; [lia|]. split; [apply Hr'; lia|]. split; [auto|]. split; [auto|].
    destruct o' as [|c o'].
    { exfalso. destruct (K1 eq_refl f Hf) as (r3 & i3 & X). rewrite X in Hpull.
      destruct Hpull as [(x & rest1 & r4 & i4 & _ & B)|(_ & r4 & i4 & B)]; discriminate. }
    destruct (K2 ltac:(discriminate) f Hf) as (r3 & i3 & Q & J2).
    apply (pull_pulls _ _ _ _ _ _ _ J) in Q; [|discriminate].
    destruct (pulls_prefix _ _ _ _ _ Q _ _ _ P) as [(rest1 & -> & P1)|(x & c' & r4 & i4 & _ & B)]; [|rewrite S in B; discriminate].
    exists rest1. split; [auto|]. split; [|discriminate].
    exists r3, i3, rE. split; [auto|split; [auto|eauto]].
  - exfalso. destruct (error_one _ _ _ _ _ _ _ Hnn Hr Hl Hn E A f Hf) as (o2 & r3 & c3 & X). rewrite X in Hpull.
    destruct Hpull as [(x & rest1 & r4 & i4 & _ & B)|(_ & r4 & i4 & B)]; inv B; lia.
Qed.

Lemma drive_will : forall es r left acc rest f, not_none r -> rok r -> bytes_ok left -> Forall event_ok es -> bytes_ok f ->
  will r (left ++ arrived es ++ f) rest ->
  exists r1 left1 out rest1, drive r left acc es = Ret (0, acc ++ out) /\
    (forall es', drive r left acc (es ++ es') = drive r1 left1 (acc ++ out) es') /\ rest = out ++ rest1 /\
    not_none r1 /\ rok r1 /\ bytes_ok left1 /\ will r1 (left1 ++ f) rest1.
Proof.
  induction es as [|[l|n] es IH]; intros r left acc rest f Hnn Hr Hl He Hf Hw; cbn [drive arrived app] in *.
  - exists r, left, [], rest. rewrite app_nil_r. split; [auto|]. split; [auto|]. split; [auto|]. auto.
  - inv He. apply IH; auto; [apply Forall_app; auto|]. rewrite <- !app_assoc in *. exact Hw.
  - inv He. cbn in H1.
    assert (Ha : bytes_ok (arrived es ++ f)).
    { apply Forall_app. split; [|auto]. clear - H2. induction H2 as [|[l|n] es A B IH]; cbn; [constructor| |auto]. apply Forall_app. auto. }
    destruct (decompress_spec' r left n Hnn Hr Hl H1) as (res & o & r' & l' & E & _).
    destruct (will_ask _ _ _ _ _ _ _ _ _ Hnn Hr Hl Ha H1 Hw E) as (A1 & A2 & A3 & A4 & rest1 & -> & A5 & _).
    destruct (IH r' l' (acc ++ o) rest1 f A4 A2 A3 H2 Hf A5) as (r1 & l1 & out & rest2 & B1 & B2 & -> & B3).
    rewrite E. cbn [obind]. destruct (Z.ltb_spec res 0); [lia|].
    exists r1, l1, (o ++ out), rest2. rewrite app_assoc. split; [auto|]. split; [auto|]. split; [rewrite app_assoc; auto|]. auto.
Qed.

Lemma drive_finish : forall ns r left acc rest, not_none r -> rok r -> bytes_ok left -> Forall (fun n => 1 <= n) ns ->
  will r left rest -> zlen rest <= zlen ns -> drive r left acc (map Ask ns) = Ret (0, acc ++ rest).
Proof.
  induction ns as [|n ns IH]; intros r left acc rest Hnn Hr Hl Hns Hw Hlen.
  - assert (rest = []) by (apply zlen_0_nil; pose proof (zlen_nonneg rest); change (zlen (@nil Z)) with 0 in *; lia).
    subst rest. rewrite app_nil_r. reflexivity.
  - inv Hns. cbn [map drive].
    destruct (decompress_spec' r left n Hnn Hr Hl H1) as (res & o & r' & l' & E & _).
    rewrite <- (app_nil_r left) in Hw.
    destruct (will_ask _ _ _ _ _ _ _ _ _ Hnn Hr Hl (Forall_nil _) H1 Hw E) as (A1 & A2 & A3 & A4 & rest1 & -> & A5 & A6).
    rewrite E. cbn [obind]. destruct (Z.ltb_spec res 0); [lia|]. rewrite app_nil_r in A5.
    rewrite (IH r' l' (acc ++ o) rest1); auto; [rewrite app_assoc; auto|].
    rewrite zlen_cons, zlen_app in Hlen. destruct o as [|c o]; [|rewrite zlen_cons in Hlen; pose proof (zlen_nonneg o); lia].
    destruct rest1 as [|x rest1]; [change (zlen (@nil Z)) with 0; apply zlen_nonneg|].
    exfalso. apply A6; auto. discriminate.
Qed.

Lemma stream_will : forall c body stream r, c <> CompNone -> compressed c body stream -> bytes_ok stream ->
  reader_init (zlen stream) (comp_number c) = Some r -> not_none r /\ rok r /\ will r stream body.
Proof.
  intros c body stream r Hc H Hb Hr. destruct H; cbn in Hr; inv Hr; [congruence| |].
  - split; [exact I|]. split; [exact I|].
    pose proof (segs_cpulls segs [] H) as P. rewrite app_nil_r in P. apply cpulls_pulls in P.
    exists (RCrle CIdle), (enc_segs segs), (RCrle CIdle). split; [auto|]. split; [auto|]. cbn. eauto.
  - split; [exact I|]. split; [left; auto|].
    destruct (tokens_hpulls ts pad bytes H H0 H1 H2) as (d & P & Hd & F & S).
    exists (RHs (mkhr 8 7 true (Some (hs_reset 8)))), bytes, (RHs (mkhr 8 7 true (Some d))).
    split; [reflexivity|]. split; [apply hpulls_pulls; [lia|auto]|].
    destruct (hs_loop_msteps [] d 1 [] Hd (Forall_nil _) eq_refl) as (res & o & d1 & i1 & A & _ & _ & B).
    destruct B as [(-> & -> & _ & -> & _)|(-> & o1 & -> & B1 & B2 & _)].
    + unfold pull, decompress, hs_decompress. cbn [hr_window hr_ptr hr_dec hr_lookahead]. change (8 =? -1) with false. cbv iota zeta.
      rewrite A. cbn [obind]. eauto.
    + exfalso. cbn [app] in *. destruct o1 as [|c [|c' o1]]; [congruence| |].
      * destruct (S [c] d1 i1) as [X|X]; [|discriminate]. apply X. econstructor; [exact A|constructor].
      * rewrite !zlen_cons in B2. pose proof (zlen_nonneg o1). lia.
Qed.

(** C16 and C17. *)
Lemma reader_exact : forall c body stream r es ns, c <> CompNone -> compressed c body stream -> bytes_ok stream ->
  reader_init (zlen stream) (comp_number c) = Some r -> Forall event_ok es -> Forall (fun n => 1 <= n) ns ->
  arrived es = stream -> zlen body <= zlen ns -> drive r [] [] (es ++ map Ask ns) = Ret (0, body).
Proof.
  intros c body stream r es ns Hc H Hb Hr He Hn Ha Hl.
  destruct (stream_will _ _ _ _ Hc H Hb Hr) as (A & B & C).
  destruct (drive_will es r [] [] body [] A B (Forall_nil _) He (Forall_nil _)) as (r1 & l1 & out & rest & D1 & D2 & D3 & D4 & D5 & D6 & D7).
  { cbn [app]. rewrite app_nil_r, Ha. exact C. }
  rewrite D2. rewrite app_nil_r in D7. rewrite (drive_finish ns r1 l1 ([] ++ out) rest); auto; [cbn [app]; congruence|].
  subst body. rewrite zlen_app in Hl. pose proof (zlen_nonneg out). lia.
Qed.

Lemma reader_prefix : forall c body stream r es more, c <> CompNone -> compressed c body stream -> bytes_ok stream ->
  reader_init (zlen stream) (comp_number c) = Some r -> Forall event_ok es ->
  arrived es ++ more = stream -> exists out rest, drive r [] [] es = Ret (0, out) /\ body = out ++ rest.
Proof.
  intros c body stream r es more Hc H Hb Hr He Ha.
  destruct (stream_will _ _ _ _ Hc H Hb Hr) as (A & B & C).
  assert (Hm : bytes_ok more) by (subst stream; apply Forall_app in Hb; tauto).
  destruct (drive_will es r [] [] body more A B (Forall_nil _) He Hm) as (r1 & l1 & out & rest & D1 & D2 & D3 & _).
  { cbn [app]. rewrite Ha. exact C. }
  exists out, rest. auto.
Qed.

(** C18, driven by the patch reader. *)
Lemma hs_reader_safe : forall es r left acc, (exists h, r = RHs h) -> rok r -> bytes_ok left -> Forall event_ok es ->
  exists out, drive r left acc es = Ret (0, out) \/ drive r left acc es = Ret (- E_HEATSHRINK_HEADER, out).
Proof.
  induction es as [|[l|n] es IH]; intros r left acc (h & ->) Hr Hl He; cbn [drive].
  - eauto.
  - inv He. apply IH; eauto. apply Forall_app; auto.
  - inv He. cbn in H1. destruct (decompress_spec' (RHs h) left n I Hr Hl H1) as (res & o & r' & l' & E & Hr' & Hl' & _).
    rewrite E. cbn [obind]. destruct (Z.ltb_spec res 0).
    + apply hs_error in E; auto. destruct E as [-> _]. eauto.
    + apply IH; auto. cbn [decompress] in E. apply obind_ret in E. destruct E as ([[[a b] d] e] & _ & E). inv E. eauto.
Qed.

Lemma hs_reader_safe_init : forall es ps r, reader_init ps 4 = Some r -> Forall event_ok es ->
  exists out, drive r [] [] es = Ret (0, out) \/ drive r [] [] es = Ret (- E_HEATSHRINK_HEADER, out).
Proof. intros es ps r E He. inv E. apply hs_reader_safe; eauto. left. auto. constructor. Qed.

End Drive.

Section Calls.
Variables wb lb : Z.
Hypothesis Hwb : 1 <= wb <= 15.
Hypothesis Hlb : 1 <= lb <= 15.

Lemma hs_sink_inv : forall d b, hinv wb lb d -> byte_ok b -> exists o, hs_sink1 d b = Ret o /\
  match o with Some d1 => hinv wb lb d1 | None => h_input_size d = 256 end.
Proof.
  intros d b H Hb. pose proof H as ((Hl & Hbs & H0 & Hsz & Hbit & Hc) & Hw & Hwb' & Hh & Hst).
  unfold hs_sink1, HS_INPUT_BUFFER_SIZE. destruct (Z.eqb_spec (256 - h_input_size d) 0).
  - exists None. split; [auto|lia].
  - rewrite zupd_some by lia. eexists. split; [reflexivity|].
    split; [|split; [exact Hw|split; [exact Hwb'|split; [exact Hh|exact Hst]]]].
    split; [cbn; rewrite zlen_upd; auto|]. split; [cbn [h_in]; apply Forall_upd; auto|].
    cbn [h_input_size h_input_index h_bit_index h_current_byte].
    split; [lia|]. split; [lia|]. split; [exact Hbit|exact Hc].
Qed.

Lemma hs_calls_safe : forall cs d, hinv wb lb d -> Forall hs_call_ok cs ->
  exists outs, 
  hs_calls wb lb d cs = Ret outs /\ Forall2 (fun n out => zlen out <= n /\ bytes_ok out) (polls cs) outs.
Proof.
  induction cs as [|[b|n] cs IH]; intros d Hd Hc; cbn [hs_calls].
  - eexists. split; [reflexivity|constructor].
  - inv Hc. destruct (hs_sink_inv d b Hd H1) as (o & A & B). rewrite A. cbn [obind]. destruct o; auto.
  - inv Hc. cbn in H1. destruct (hs_poll_runs wb lb Hwb Hlb n d Hd H1) as (d1 & o & A & B). rewrite A. cbn [obind].
    destruct (runs_inv wb lb Hwb Hlb _ _ _ _ B Hd) as [Hd1 Ho].
    destruct (IH d1 Hd1 H2) as (outs & C & D). rewrite C. cbn [obind]. eexists. split; [reflexivity|]. constructor; [|auto]. split; [|auto]. eapply runs_len; eauto.
Qed.

Lemma hs_safe : forall cs, Forall hs_call_ok cs -> exists outs,
  hs_calls wb lb (hs_reset wb) cs = Ret outs /\ Forall2 (fun n out => zlen out <= n /\ bytes_ok out) (polls cs) outs.
Proof. intros. apply hs_calls_safe; auto. apply hs_reset_inv; auto. Qed.
End Calls.
