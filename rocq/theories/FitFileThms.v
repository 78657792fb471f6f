(** Which patches the callback and the file functions accept, and what they write
    (C75). *)

From Coq Require Import ZArith List Bool Lia ZifyBool ZifyNat ZifyN.
From Verif Require Import Prelude Lib Heatshrink CReader SizeProofs CSeq CFile CFileSpec Spec SeqSpec SeqTerm SeqSim SeqRun SeqBound SeqApply RefuseSpec BodySpec BodyC BodyThms FitSpec FitProofs FitThms
  CallbackSpec CallbackProofs FileSim FileProofs FitFile.
Import ListNotations.
Open Scope Z_scope.

(** A to size that does not end within the first bytes is refused at once. *)
Lemma uhs_long : forall l z, bytes_ok l -> zok z -> z_cons z = true -> existsb (fun b => b <? 128) l = false -> 27 - z_offset z < 7 * zlen l ->
  exists z1 i1, unpack_header_size l z = Ret (- E_CORRUPT_PATCH_OVERFLOW, 0, z1, i1).
Proof.
  induction l as [|b l IH]; intros z Hb Hz Hc He Hn.
  - destruct (Hz Hc) as (_ & A & _). change (zlen (@nil Z)) with 0 in Hn. lia.
  - inv Hb. rewrite uhs_unfold. cbn [existsb] in He. apply orb_false_iff in He. destruct He as [He1 He2]. rewrite zlen_cons in Hn.
    destruct (hdr_byte_spec z b Hz) as [(_ & X & X2)|(z1 & X & C1 & Z1 & _ & _ & S1 & _)]; rewrite ?X2, ?X; cbn [obind]; [eauto|].
    rewrite land_128_byte by auto. rewrite He1. destruct (S1 Hc) as (_ & Y & _). apply IH; auto. lia.
Qed.

Lemma uhs_long0 : forall l z, bytes_ok l -> z_cons z = false -> existsb (fun b => b <? 128) l = false -> 5 <= zlen l ->
  exists z1 i1, unpack_header_size l z = Ret (- E_CORRUPT_PATCH_OVERFLOW, 0, z1, i1).
Proof.
  intros [|b l] z Hb Hc He Hn; [change (zlen (@nil Z)) with 0 in Hn; lia|]. inv Hb. rewrite uhs_unfold. cbn [existsb] in He. apply orb_false_iff in He. destruct He as [He1 He2]. rewrite zlen_cons in Hn.
  assert (Hz : zok z) by (intros X; congruence).
  destruct (hdr_byte_spec z b Hz) as [(X & _)|(z1 & X & C1 & Z1 & _ & _ & _ & S1)]; [congruence|]. rewrite X. cbn [obind].
  rewrite land_128_byte by auto. rewrite He1. destruct (S1 Hc) as (Y & _). apply uhs_long; auto. lia.
Qed.

Lemma long_header : forall (wb : WordBits) W (E : seq_env W) fuel junk ps w p cs v s w1, bytes_ok p -> 6 <= zlen p -> header_complete p = false ->
  feed E fuel 128 (ap_init junk ps) w (p :: cs) = Ret (v, s, w1) -> v < 0.
Proof.
  intros wb W E fuel junk ps w p cs v s w1 Hb Hn Hh U. apply feed_mono with (f' := (2 + fuel)%nat) in U; [|discriminate|lia]. set (F := (2 + fuel)%nat) in *.
  destruct p as [|b l]; [change (zlen (@nil Z)) with 0 in Hn; lia|]. cbn [header_complete] in Hh. rewrite zlen_cons in Hn. inv Hb. cbn [feed] in U.
  assert (P : exists e s1 w2, e < 0 /\ e <> - E_ALREADY_DONE /\ process E F 128 (ap_init junk ps) w (b :: l) = Ret (e, s1, w2)).
  { unfold process. set (s0 := set_chunk _ _). change F with (S (S fuel)). cbn [process_loop]. change (a_left s0) with (b :: l). cbv iota. change (0 <? 0) with false. cbv iota.
    unfold process_once at 1. change (a_state s0) with SInit. cbv iota. unfold process_init. change (a_to_init s0) with false. cbv iota. unfold process_init_fixed_header. change (a_left s0) with (b :: l). cbv iota zeta.
    destruct (negb (Z.land (Z.shiftr b 4) 7 =? 0)).
    - cbn [obind]. cbn. destruct l; do 3 eexists; (split; [|split; [|reflexivity]]); [reflexivity|discriminate|reflexivity|discriminate].
    - cbn [obind]. set (s2 := set_header _ _ _ _ _). change (0 <? 0) with false. cbv iota.
      set (z0 := a_size s2). assert (Hz : z_cons z0 = false) by reflexivity.
      destruct (uhs_long0 l z0 H2 Hz Hh ltac:(lia)) as (z1 & i1 & X).
      assert (Y : exists s3 w3, process_once E 128 s2 w = Ret (- E_CORRUPT_PATCH_OVERFLOW, s3, w3)).
      { unfold process_once. change (a_state s2) with SInit. cbv iota. unfold process_init. change (a_to_init s2) with true. cbv iota. unfold process_init_to_size. change (a_left s2) with l.
        fold z0. rewrite X. cbn [obind]. cbn. eauto. }
      destruct Y as (s3 & w3 & Y).

      rewrite Y. change (a_left s2) with l. destruct l as [|b1 l]; [change (zlen (@nil Z)) with 0 in Hn; lia|]. cbn [obind].
      assert (Q : process_loop E fuel 128 (- E_CORRUPT_PATCH_OVERFLOW) s3 w3 = Ret (- E_CORRUPT_PATCH_OVERFLOW, s3, w3)) by (destruct fuel; cbn [process_loop]; destruct (a_left s3); reflexivity).
      rewrite Q. cbn [obind]. do 3 eexists. split; [|split; [|reflexivity]]; [reflexivity|discriminate]. }
  destruct P as (e & s1 & w2 & He & _ & P). rewrite P in U. cbn [obind] in U. replace (e =? 0) with false in U by lia.
  destruct (finalize E F 128 s1 w2) as [[[r2 s2] w3]| |]; cbn [obind] in U; [|discriminate|discriminate]. assert (v = e) by congruence. lia.
Qed.

(** ** The callback function *)

Definition run_callbacks {wb : WordBits} (fuel : nat) (junk : ap) (from patch : list Z) : outcome (Z * ap * (files * Z)) :=
  apply_patch_callbacks (env_with file_env Z) fuel junk (patch_file patch) (zlen patch) (mkfiles from 0 [], 0).

Definition count (patch : list Z) : nat := Z.to_nat (zlen patch).

Lemma count_pieces : forall patch, concat (pieces (count patch) patch) = patch.
Proof. intros patch. apply pieces_concat. unfold count. pose proof (zlen_nonneg patch). lia. Qed.

Lemma run_fed : forall (wb : WordBits) fuel junk from patch v s w pos, run_callbacks fuel junk from patch = Ret (v, s, (w, pos)) ->
  c_apply fuel junk (zlen patch) from (pieces (count patch) patch) = Ret (v, s, w).
Proof.
  intros wb fuel junk from patch v s w pos U. pose proof (zlen_nonneg patch). unfold run_callbacks, apply_patch_callbacks in U.
  apply (callbacks_pieces file_env patch (count patch)) in U; [|lia|unfold count; lia]. rewrite zdrop_0 in U. exact U.
Qed.

Lemma fed_run : forall (wb : WordBits) n junk from patch v s w, c_apply n junk (zlen patch) from (pieces (count patch) patch) = Ret (v, s, w) ->
  exists m pos, forall fuel, (m <= fuel)%nat -> run_callbacks fuel junk from patch = Ret (v, s, (w, pos)).
Proof.
  intros wb n junk from patch v s w U. pose proof (zlen_nonneg patch). unfold c_apply in U. rewrite <- (zdrop_0 patch) in U at 3.
  destruct (callbacks_feed file_env patch (count patch) n 0 (ap_init junk (zlen patch)) (mkfiles from 0 []) v s w) as (pos & P); [lia|unfold count; lia|exact U|].
  exists (n + count patch)%nat, pos. exact P.
Qed.

Lemma first_piece : forall patch, patch <> [] -> exists cs, pieces (count patch) patch = ztake 512 patch :: cs.
Proof.
  intros [|b l] N; [congruence|]. unfold count. rewrite zlen_cons. pose proof (zlen_nonneg l). destruct (Z.to_nat (1 + zlen l)) eqn:K; [lia|]. cbn [pieces]. eauto.
Qed.

Lemma run_meaning : forall (wb : WordBits), 32 <= word_bits ->
  forall fuel junk from patch body c v s w pos,
  bytes_ok patch -> zlen patch < 2 ^ word_bits -> announced_comp patch = comp_number c -> compressed c body (body_of patch) ->
  bytes_ok body -> zlen body < 2 ^ 31 ->
  run_callbacks fuel junk from patch = Ret (v, s, (w, pos)) -> 0 <= v ->
  announced_size patch = Some v /\ exists rest, described from v body = Some (f_to w, rest) /\ (c = CompNone -> rest = []).
Proof.
  intros wb Hw fuel junk from patch body c v s w pos H1 H2 H3 H4 H5 H6 U Hv. apply run_fed in U. eapply accepted; eauto. apply count_pieces.
Qed.

Lemma usize_ends : forall l y rest, dec_usize l = Some (y, rest) -> existsb (fun b => b <? 128) (ztake (zlen l - zlen rest) l) = true.
Proof.
  induction l as [|b l IH]; intros y rest D; [discriminate|]. cbn [dec_usize] in D. rewrite zlen_cons.
  destruct (b <? 128) eqn:E.
  - assert (l = rest) as -> by congruence. replace (1 + zlen rest - zlen rest) with 1 by lia. rewrite ztake_cons by lia. cbn [existsb]. rewrite E. reflexivity.
  - destruct (dec_usize l) as [[y' r']|] eqn:D'; [|discriminate]. assert (r' = rest) as -> by congruence. specialize (IH _ _ eq_refl).
    pose proof (dec_usize_len _ _ _ D'). assert (zlen rest < zlen l) by (unfold zlen; lia). rewrite ztake_cons by lia. cbn [existsb]. rewrite E. cbn [orb].
    replace (1 + zlen l - zlen rest - 1) with (zlen l - zlen rest) by lia. exact IH.
Qed.

Lemma usize_after : forall l y rest, dec_usize l = Some (y, rest) -> after_size l = rest.
Proof.
  induction l as [|b l IH]; intros y rest D; [discriminate|]. cbn [dec_usize after_size] in *.
  destruct (b <? 128); [congruence|]. destruct (dec_usize l) as [[y' r']|] eqn:D'; [|discriminate]. assert (r' = rest) as -> by congruence. eapply IH; eauto.
Qed.

Lemma announced_ends : forall patch n m, announced_size patch = Some n -> 1 + zlen (tl patch) - zlen (body_of patch) <= m -> header_complete (ztake m patch) = true.
Proof.
  intros patch n m A Hm. unfold announced_size, body_of in *. destruct patch as [|b0 [|b l]]; cbn [tl] in *; [discriminate..|].
  rewrite zlen_cons in Hm. cbn [after_size] in Hm. destruct (b <? 128) eqn:E.
  - rewrite !ztake_cons by lia. cbn [header_complete existsb]. rewrite E. reflexivity.
  - destruct (dec_usize l) as [[y r]|] eqn:D; [|discriminate]. rewrite (usize_after _ _ _ D) in Hm.
    pose proof (dec_usize_len _ _ _ D). assert (zlen r < zlen l) by (unfold zlen; lia). rewrite !ztake_cons by lia. cbn [header_complete existsb]. rewrite E. cbn [orb].
    replace (ztake (m - 1 - 1) l) with (ztake (zlen l - zlen r) l ++ ztake (m - 2 - (zlen l - zlen r)) (zdrop (zlen l - zlen r) l)).
    + rewrite existsb_app, (usize_ends _ _ _ D). reflexivity.
    + rewrite <- ztake_add by lia. f_equal. lia.
Qed.

Lemma run_accepts : forall (wb : WordBits), 32 <= word_bits ->
  forall junk from patch body c n to,
  bytes_ok patch -> zlen patch + 128 < 2 ^ word_bits -> patch_type (hd 0 patch) = 0 ->
  announced_comp patch = comp_number c -> compressed c body (body_of patch) -> bytes_ok body -> zlen from < 2 ^ 31 ->
  announced_size patch = Some n -> described from n body = Some (to, []) -> fits n patch body = true ->
  exists m, forall fuel, (m <= fuel)%nat ->
    exists s w pos, run_callbacks fuel junk from patch = Ret (n, s, (w, pos)) /\ f_to w = to.
Proof.
  intros wb Hw junk from patch body c n to H1 H2 H3 H4 H5 H6 H7 H8 H9 H10.
  assert (N : patch <> []) by (intros ->; discriminate). destruct (first_piece patch N) as (cs & Hcs).
  destruct (accepts wb Hw junk from patch body c (pieces (count patch) patch) n to H1 H2 H3 H4 H5 H6 H7 (count_pieces patch)) as (m & M); auto.
  { intros _. rewrite Hcs. cbn [hd]. unfold fits, short in H10. apply andb_prop in H10. destruct H10 as [A _]. eapply announced_ends; [exact H8|lia]. }
  destruct (M m (le_n m)) as (s & w & U & T). destruct (fed_run _ _ _ _ _ _ _ _ U) as (m2 & pos & P). exists m2. intros fuel Hf. exists s, w, pos. auto.
Qed.

Lemma run_exactly : forall (wb : WordBits), 32 <= word_bits ->
  forall junk from patch v to,
  bytes_ok patch -> zlen patch + 128 < 2 ^ word_bits -> zlen patch < 2 ^ 31 -> zlen from < 2 ^ 31 -> announced_comp patch = 0 -> patch <> [] ->
  ((exists fuel s w pos, run_callbacks fuel junk from patch = Ret (v, s, (w, pos)) /\ 0 <= v /\ f_to w = to) <->
   patch_type (hd 0 patch) = 0 /\ announced_size patch = Some v /\
   described from v (body_of patch) = Some (to, []) /\ fits v patch (body_of patch) = true).
Proof.
  intros wb Hw junk from patch v to H1 H2 H3 H4 H5 N. destruct (first_piece patch N) as (cs & Hcs).
  assert (Hbb : bytes_ok (body_of patch) /\ zlen (body_of patch) <= zlen patch).
  { unfold body_of. split; [apply bytes_ok_after; destruct patch; [constructor|inv H1; auto]|].
    assert (G : forall l, zlen (after_size l) <= zlen l).
    { clear. induction l as [|x l IH]; cbn [after_size]; [lia|]. rewrite zlen_cons. destruct (x <? 128); lia. }
    specialize (G (tl patch)). destruct patch; cbn [tl] in *; rewrite ?zlen_cons; lia. }
  destruct Hbb as [Hbb Hbl].
  assert (Q : header_complete (ztake 512 patch) = true -> (exists fuel s w, c_apply fuel junk (zlen patch) from (pieces (count patch) patch) = Ret (v, s, w) /\ 0 <= v /\ f_to w = to) <->
   patch_type (hd 0 patch) = 0 /\ announced_size patch = Some v /\ described from v (body_of patch) = Some (to, []) /\ fits v patch (body_of patch) = true).
  { intros Hh. apply accepts_iff; auto; [apply count_pieces|]. rewrite Hcs. exact Hh. }
  split.
  - intros (fuel & s & w & pos & U & Hv & T).
    destruct (run_meaning wb Hw fuel junk from patch (body_of patch) CompNone v s w pos H1 ltac:(lia) H5 (compressed_none _) Hbb ltac:(lia) U Hv) as (A & _).
    apply run_fed in U.
    assert (Hh : header_complete (ztake 512 patch) = true).
    { destruct (header_complete (ztake 512 patch)) eqn:Hh; [reflexivity|exfalso]. destruct (Z.le_gt_cases (zlen patch) 512).
      - rewrite ztake_all in Hh by lia. assert (X : header_complete (ztake (1 + zlen patch) patch) = true).
        { eapply announced_ends; [exact A|]. pose proof (zlen_nonneg (body_of patch)). destruct patch; [congruence|]. cbn [tl]. rewrite zlen_cons. lia. }
        rewrite ztake_all in X by lia. congruence.
      - rewrite Hcs in U. unfold c_apply in U. apply long_header in U; [lia|apply Forall_ztake; auto|rewrite zlen_ztake; lia|exact Hh]. }
    apply (Q Hh). exists fuel, s, w. auto.
  - intros (A & B & C & D).
    destruct (run_accepts wb Hw junk from patch (body_of patch) CompNone v to H1 H2 A H5 (compressed_none _) Hbb H4 B C D) as (m & M).
    destruct (M m (le_n m)) as (s & w & pos & U & T). exists m, s, w, pos. split; [exact U|]. split; [|exact T].
    assert (Hh : header_complete (ztake 512 patch) = true).
    { unfold fits, short in D. apply andb_prop in D. destruct D as [X _]. eapply announced_ends; [exact B|lia]. }
    destruct (proj2 (Q Hh)) as (? & ? & ? & _ & X & _); [auto|exact X].
Qed.

(** ** The file function *)

Lemma file_meaning : forall (wb : WordBits), 32 <= word_bits ->
  forall junk fuel from patch body c file nf np nt v d,
  file nf = Some from -> file np = Some patch -> nt <> nf -> nt <> np -> patch <> [] ->
  bytes_ok patch -> zlen patch < 2 ^ word_bits -> announced_comp patch = comp_number c -> compressed c body (body_of patch) ->
  bytes_ok body -> zlen body < 2 ^ 31 ->
  apply_patch_filenames fs_stdio fuel junk (disk file) nf np nt = Ret (v, d) ->
  (forall name, name <> nt -> fs_file d name = file name) /\ (forall f, fs_open d f = None) /\
  exists out, fs_file d nt = Some out /\
    (0 <= v -> announced_size patch = Some v /\ exists rest, described from v body = Some (out, rest) /\ (c = CompNone -> rest = [])).
Proof.
  intros wb Hw junk fuel from patch body c file nf np nt v d F1 F2 N1 N2 N H1 H2 H3 H4 H5 H6 U.
  destruct (files_back from patch file nf np nt F1 F2 N1 N2 fuel junk v d N H2 U) as (s & w & pos & R & A & B & C).
  split; [exact B|]. split; [exact C|]. exists (f_to w). split; [exact A|]. intros Hv. eapply run_meaning; eauto.
Qed.

Lemma file_accepts : forall (wb : WordBits), 32 <= word_bits ->
  forall junk from patch body c n to file nf np nt,
  file nf = Some from -> file np = Some patch -> nt <> nf -> nt <> np ->
  bytes_ok patch -> zlen patch + 128 < 2 ^ word_bits -> patch_type (hd 0 patch) = 0 ->
  announced_comp patch = comp_number c -> compressed c body (body_of patch) -> bytes_ok body -> zlen from < 2 ^ 31 ->
  announced_size patch = Some n -> described from n body = Some (to, []) -> fits n patch body = true ->
  exists m, forall fuel, (m <= fuel)%nat ->
    exists d, apply_patch_filenames fs_stdio fuel junk (disk file) nf np nt = Ret (n, d) /\ fs_file d nt = Some to /\
      (forall name, name <> nt -> fs_file d name = file name) /\ (forall f, fs_open d f = None).
Proof.
  intros wb Hw junk from patch body c n to file nf np nt F1 F2 N1 N2 H1 H2 H3 H4 H5 H6 H7 H8 H9 H10.
  destruct (run_accepts wb Hw junk from patch body c n to H1 H2 H3 H4 H5 H6 H7 H8 H9 H10) as (m & M). exists m. intros fuel Hf.
  destruct (M fuel Hf) as (s & w & pos & U & T).
  destruct (files_agree from patch file nf np nt F1 F2 N1 N2 fuel junk n s w pos) as (d & D1 & D2 & D3 & D4); [intros ->; discriminate|lia|exact U|].
  exists d. rewrite T in D2. auto.
Qed.

Lemma file_exactly : forall (wb : WordBits), 32 <= word_bits ->
  forall junk from patch v to file nf np nt,
  file nf = Some from -> file np = Some patch -> nt <> nf -> nt <> np -> patch <> [] ->
  bytes_ok patch -> zlen patch + 128 < 2 ^ word_bits -> zlen patch < 2 ^ 31 -> zlen from < 2 ^ 31 -> announced_comp patch = 0 ->
  ((exists fuel d, apply_patch_filenames fs_stdio fuel junk (disk file) nf np nt = Ret (v, d) /\ 0 <= v /\ fs_file d nt = Some to) <->
   patch_type (hd 0 patch) = 0 /\ announced_size patch = Some v /\
   described from v (body_of patch) = Some (to, []) /\ fits v patch (body_of patch) = true).
Proof.
  intros wb Hw junk from patch v to file nf np nt F1 F2 N1 N2 N H1 H2 H3 H4 H5. rewrite <- (run_exactly wb Hw junk from patch v to H1 H2 H3 H4 H5 N). assert (Hl : zlen patch < 2 ^ word_bits) by lia. split.
  - intros (fuel & d & U & Hv & T). destruct (files_back from patch file nf np nt F1 F2 N1 N2 fuel junk v d N Hl U) as (s & w & pos & R & A & _).
    exists fuel, s, w, pos. split; [exact R|]. split; [exact Hv|]. congruence.
  - intros (fuel & s & w & pos & U & Hv & T).
    destruct (files_agree from patch file nf np nt F1 F2 N1 N2 fuel junk v s w pos N Hl U) as (d & D1 & D2 & _). exists fuel, d. split; [exact D1|]. split; [exact Hv|]. congruence.
Qed.
