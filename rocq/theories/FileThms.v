(** The theorems about the file functions: creation and application together, failures
    of fclose, and the descriptions of the error codes. *)

From Coq Require Import String.
From Coq Require Import ZArith List Bool Lia ZifyBool ZifyNat ZifyN.
From Verif Require Import Prelude Lib Heatshrink CReader CSeq CInPlace CFile CFileSpec Spec PySize Bsdiff BsdiffSpec PyCreate CreateProofs
  CallbackSpec CallbackProofs IpCallbackSpec IpCallback InPlaceSpec InPlaceMem InPlaceWorld InPlaceMain InPlaceFinal PyInPlace InPlaceCreate InPlaceThms FileProofs FileInPlace.
Import ListNotations.
Open Scope Z_scope.

(** ** Error codes *)

Lemma error_string_total : forall e, INT_MIN < e <= INT_MAX -> exists s, error_as_string e = Ret s.
Proof.
  intros e He. unfold error_as_string. destruct (Z.ltb_spec e 0); cbn [obind].
  - replace (in_int (- e)) with true by (unfold in_int, INT_MIN, INT_MAX in *; lia). cbn [obind]. eauto.
  - eauto.
Qed.

Lemma error_string_codes : forall e, INT_MIN < e <= INT_MAX -> error_as_string e = error_as_string (Z.abs e).
Proof.
  intros e He. unfold error_as_string. destruct (Z.ltb_spec e 0).
  - replace (in_int (- e)) with true by (unfold in_int, INT_MIN, INT_MAX in *; lia). replace (Z.abs e <? 0) with false by lia. cbn [obind].
    replace (Z.abs e) with (- e) by lia. reflexivity.
  - replace (Z.abs e <? 0) with false by lia. replace (Z.abs e) with e by lia. reflexivity.
Qed.

Lemma code_cases : forall e, 0 <= e -> (1 <= e <= 27 -> False) -> error_as_string e = Ret "Unknown error."%string.
Proof.
  intros e He Hn. unfold error_as_string. replace (e <? 0) with false by lia. cbn [obind]. f_equal.
  destruct e as [|p|p]; [reflexivity| |lia]. repeat (destruct p as [p|p|]; try reflexivity; try (exfalso; lia)).
Qed.

Lemma known_cases : forall e, 1 <= e <= 27 -> In e (map Z.of_nat (seq 1 27)).
Proof. intros e He. apply in_map_iff. exists (Z.to_nat e). split; [lia|]. apply in_seq. lia. Qed.

Lemma error_string_known : forall e, INT_MIN < e <= INT_MAX -> (error_as_string e <> Ret "Unknown error."%string <-> 1 <= Z.abs e <= 27).
Proof.
  intros e He. rewrite error_string_codes by auto. split.
  - intros D. destruct (Z.leb_spec 1 (Z.abs e)); [destruct (Z.leb_spec (Z.abs e) 27); [lia|]|]; exfalso; apply D; apply code_cases; lia.
  - intros K. apply known_cases in K. cbn [map seq] in K. repeat (destruct K as [<-|K]; [discriminate|]). destruct K.
Qed.

Lemma error_string_distinct : forall a b, 1 <= a <= 27 -> 1 <= b <= 27 -> error_as_string a = error_as_string b -> a = b.
Proof.
  intros a b Ha Hb E. apply known_cases in Ha, Hb.
  assert (G : forallb (fun a => forallb (fun b => match error_as_string a, error_as_string b with Ret x, Ret y => negb (String.eqb x y) || (a =? b) | _, _ => false end)
    (map Z.of_nat (seq 1 27))) (map Z.of_nat (seq 1 27)) = true) by (vm_compute; reflexivity).
  rewrite forallb_forall in G. specialize (G a Ha). rewrite forallb_forall in G. specialize (G b Hb). rewrite E in G.
  destruct (error_as_string b); [|discriminate|discriminate]. rewrite String.eqb_refl in G. cbn [negb orb] in G. lia.
Qed.

Lemma error_string_min : error_as_string INT_MIN = Undef.
Proof. reflexivity. Qed.

(** ** Sequential patches *)

Lemma sequential_nonempty : forall c hs sa from to patch, create_sequential c hs sa from to = Ret (Some patch) -> patch <> [].
Proof.
  intros c hs sa from to patch E ->. unfold create_sequential in E.
  repeat match type of E with
  | context [obind ?m _] => destruct m as [[?|]| |] eqn:?; cbn [obind] in E; try discriminate
  | context [match ?m with Some _ => _ | None => _ end] => destruct m eqn:?; try discriminate
  end; injection E as E; discriminate.
Qed.

Lemma files_round_trip : forall (wb : WordBits), 32 <= word_bits ->
  forall junk c hs sa from to, array_ok sa from -> bytes_ok to -> zlen from < 2 ^ 27 -> zlen to < 2 ^ 27 ->
  (c = CompCrle -> forall chunks, create_patch sa from to = Ret (Some chunks) -> 1 + zlen (concat chunks) < 2 ^ 28) ->
  (c = CompHeatshrink -> forall pieces, bytes_ok (concat pieces) -> compressed CompHeatshrink (concat pieces) (hs pieces)) ->
  exists patch, create_sequential c hs sa from to = Ret (Some patch) /\
    (zlen patch + 128 < 2 ^ word_bits ->
     forall file nf np nt, file nf = Some from -> file np = Some patch -> nt <> nf -> nt <> np ->
     exists n, forall fuel, (n <= fuel)%nat ->
       exists d, apply_patch_filenames fs_stdio fuel junk (disk file) nf np nt = Ret (zlen to, d) /\
         fs_file d nt = Some to /\ (forall name, name <> nt -> fs_file d name = file name) /\ (forall f, fs_open d f = None)).
Proof.
  intros wb Hw junk c hs sa from to H1 H2 H3 H4 H5 H6. destruct (create_apply Hw junk c hs sa from to H1 H2 H3 H4 H5 H6) as (patch & P & Q). exists patch. split; [exact P|].
  intros Hp file nf np nt F1 F2 N1 N2. destruct (Q Hp) as (n & N). exists n. intros fuel Hf. destruct (N fuel Hf) as (s & w & pos & U & T).
  destruct (files_agree from patch file nf np nt F1 F2 N1 N2 fuel junk (zlen to) s w pos) as (d & D1 & D2 & D3 & D4); [eapply sequential_nonempty; eauto|lia|exact U|].
  exists d. rewrite T in D2. auto.
Qed.

Lemma full_agree : forall `{WordBits} fuel junk w nf np nt x w1 v d, file_io_init fs_stdio w nf np nt = (inr x, w1) ->
  apply_patch_filenames fs_stdio fuel junk w nf np nt = Ret (v, d) ->
  apply_patch_filenames fs_full fuel junk w nf np nt = Ret (if v =? 0 then - E_FILE_CLOSE_FAILED else v, d).
Proof.
  intros wb fuel junk w nf np nt (io0, size) w1 v d I U. unfold apply_patch_filenames in *. rewrite I in U.
  assert (J : file_io_init fs_full w nf np nt = (inr (io0, size), w1)).
  { unfold file_io_init in *. cbn [fs_stdio fs_full fopen] in *. destruct (fs_fopen w nf ReadBinary) as [[hf|] a1]; [|discriminate].
    destruct (fs_fopen a1 nt WriteBinary) as [[ht|] a2]; [|destruct (fclose fs_stdio a2 hf); discriminate].
    destruct (fs_fopen a2 np ReadBinary) as [[hp|] a3]; [|destruct (fclose fs_stdio a3 ht) as [? a4]; destruct (fclose fs_stdio a4 hf); discriminate].
    change (file_size fs_full) with (file_size fs_stdio). destruct (file_size fs_stdio a3 hp) as [[res sz] a4].
    destruct (negb (res =? 0)); [|exact I]. destruct (fclose fs_stdio a4 hp) as [? a5]. destruct (fclose fs_stdio a5 ht) as [? a6]. destruct (fclose fs_stdio a6 hf). discriminate. }
  rewrite J. change (file_io_env fs_full) with (file_io_env fs_stdio). change (@file_io_read _ fs_full) with (@file_io_read _ fs_stdio).
  destruct (apply_patch_callbacks _ _ _ _ _ _) as [[[res s] w2]| |]; cbn [obind] in *; try discriminate.
  unfold file_io_cleanup in *. cbn [fs_stdio fs_full fclose] in *. destruct (fs_fclose w2 (io_from io0)) as [c1 w3]. destruct (fs_fclose w3 (io_to io0)) as [c2 w4].
  destruct (fs_fclose w4 (io_patch io0)) as [c3 w5]. cbn [Z.eqb negb orb].
  destruct (Z.eqb_spec res 0); cbn [negb] in *.
  - injection U as <- <-. destruct (Z.eqb_spec c1 0); cbn [negb orb]; [|reflexivity]. subst c1. destruct (negb (c2 =? 0)); cbn [orb]; [reflexivity|]. destruct (negb (c3 =? 0)); reflexivity.
  - injection U as <- <-. replace (res =? 0) with false by lia. reflexivity.
Qed.

(** Every fclose fails and the update is reported as successful. *)
Lemma close_failure_masked : forall (wb : WordBits), 32 <= word_bits ->
  forall junk c hs sa from to, array_ok sa from -> bytes_ok to -> zlen from < 2 ^ 27 -> zlen to < 2 ^ 27 ->
  (c = CompCrle -> forall chunks, create_patch sa from to = Ret (Some chunks) -> 1 + zlen (concat chunks) < 2 ^ 28) ->
  (c = CompHeatshrink -> forall pieces, bytes_ok (concat pieces) -> compressed CompHeatshrink (concat pieces) (hs pieces)) ->
  exists patch, create_sequential c hs sa from to = Ret (Some patch) /\
    (zlen patch + 128 < 2 ^ word_bits ->
     forall file nf np nt, file nf = Some from -> file np = Some patch -> nt <> nf -> nt <> np ->
     exists n, forall fuel, (n <= fuel)%nat ->
       exists d, apply_patch_filenames fs_full fuel junk (disk file) nf np nt = Ret (if zlen to =? 0 then - E_FILE_CLOSE_FAILED else zlen to, d)).
Proof.
  intros wb Hw junk c hs sa from to H1 H2 H3 H4 H5 H6. destruct (files_round_trip wb Hw junk c hs sa from to H1 H2 H3 H4 H5 H6) as (patch & P & Q). exists patch. split; [exact P|].
  intros Hp file nf np nt F1 F2 N1 N2. destruct (Q Hp file nf np nt F1 F2 N1 N2) as (n & N). exists n. intros fuel Hf. destruct (N fuel Hf) as (d & U & _).
  destruct (init_ok from patch file nf np nt F1 F2 N1 N2) as (x0 & I0 & _); [eapply sequential_nonempty; eauto|lia|]. exists d. eapply full_agree; eauto.
Qed.

Lemma full_fails : forall w f, fst (fclose fs_full w f) <> 0.
Proof. intros w f. cbn [fs_full fclose]. destruct (fs_fclose w f). discriminate. Qed.

(** ** In-place patches *)

Lemma znth_full : forall l x, znth (map Some l) x <> Some (@None Z).
Proof. intros l x. rewrite znth_map. destruct (znth l x); discriminate. Qed.

Lemma shows_prefix : forall out mem to, shows out mem -> holds mem to -> (forall x, 0 <= x < zlen to -> znth mem x <> Some None) -> zlen to <= zlen mem -> ztake (zlen to) out = to.
Proof.
  intros out mem to [S1 S2] Hh Hn Hl. pose proof (zlen_nonneg to). unfold holds in Hh. rewrite <- Hh at 2. apply znth_ext; [rewrite zlen_map, !zlen_ztake; lia|]. intros i Hi. rewrite zlen_ztake in Hi by lia.
  rewrite znth_map, !znth_ztake by lia. destruct (znth mem i) as [[b|]|] eqn:M; cbn [option_map cell_value].
  - apply S2. exact M.
  - exfalso. apply (Hn i); [lia|exact M].
  - exfalso. unfold znth in M. destruct (Z.ltb_spec i 0); [lia|]. apply nth_error_None in M. unfold zlen in *. lia.
Qed.

Lemma in_place_files : forall (wb : WordBits), 32 <= word_bits ->
  forall c hs sa memory segment minimum_shift from to,
  (forall l, array_ok (sa l) l) -> bytes_ok to ->
  0 < segment -> (segment | memory) -> (segment | minimum_of segment minimum_shift) ->
  segment <= minimum_of segment minimum_shift <= memory ->
  memory < 2 ^ 27 -> zlen from < 2 ^ 27 -> zlen to <= memory ->
  let shift := calc_shift memory segment (minimum_of segment minimum_shift) (zlen from) in
  (c = CompCrle -> forall body,
     create_in_place_segments sa segment shift (kept memory shift from) to (Z.to_nat (py_div_ceil (zlen to) segment)) 0 = Ret (Some body) ->
     zlen body < 2 ^ 28) ->
  (c = CompHeatshrink -> forall pieces, bytes_ok (concat pieces) -> compressed CompHeatshrink (concat pieces) (hs pieces)) ->
  exists patch, create_in_place c hs sa memory segment minimum_shift from to = Ret (Some patch) /\
    (zlen patch + 128 < 2 ^ word_bits ->
     forall junk file nm np bytes, file nm = Some bytes -> file np = Some patch -> nm <> np ->
     memory <= zlen bytes <= INT_MAX -> ztake (zlen from) bytes = from ->
     exists n, forall fuel, (n <= fuel)%nat ->
       exists d out, apply_patch_in_place_filenames fs_stdio fuel junk (disk file) nm np None None = Ret (zlen to, d) /\
         fs_file d nm = Some out /\ zlen out = zlen bytes /\ ztake (zlen to) out = to /\ zdrop memory out = zdrop memory bytes /\
         (forall name, name <> nm -> fs_file d name = file name) /\ (forall f, fs_open d f = None)).
Proof.
  intros wb Hword c hs sa memory segment minimum_shift from to Hsa Hto G1 G2 G3 G4 G5 G6 G7 shift Hc Hh.
  destruct (create_in_place_spec c hs sa memory segment minimum_shift from to Hsa Hto G1 G2 G3 G4 G5 G6 G7 Hc Hh) as (patch & shift' & A & B & C & D & E).
  subst shift'. fold shift in D, E. exists patch. split; [exact A|]. intros Hps junk file nm np bytes F1 F2 Nn Hm Hf. set (mem := map Some bytes).
  assert (Hl : memory <= zlen mem) by (unfold mem; rewrite zlen_map; lia). pose proof (zlen_nonneg to) as Hto0. pose proof (zlen_nonneg from) as Hfrom0.
  assert (Hfrom : holds mem from).
  { unfold holds, mem, ztake. rewrite firstn_map, map_map. cbn [cell_value]. rewrite map_id. exact Hf. }
  destruct (in_place_strict Hword memory segment shift from to mem c patch D E B Hps Hl Hfrom) as (n & N); [unfold mem; apply znth_full|].
  pose proof (zlen_nonneg patch). set (k := Z.to_nat (zlen patch)).
  assert (Dv : division c memory segment shift (zlen from) (zlen to) patch (pieces k patch)).
  { split; [apply pieces_concat; unfold k; lia|]. intros _. destruct E as (segs & (_ & stream & Ep & _) & _).
    assert (Hh0 : 0 < zlen (in_place_header c memory segment shift (zlen from) (zlen to))).
    { unfold in_place_header. rewrite zlen_cons. match goal with |- 0 < 1 + zlen ?l => pose proof (zlen_nonneg l) end. lia. }
    pose proof (in_place_header_short c memory segment shift (zlen from) (zlen to)). pose proof (zlen_nonneg stream).
    assert (Hlp : zlen (in_place_header c memory segment shift (zlen from) (zlen to)) <= zlen patch) by (rewrite Ep, zlen_app; lia).
    destruct k eqn:Ek; [unfold k in Ek; lia|]. cbn [pieces]. destruct patch as [|b patch']; [change (zlen (@nil Z)) with 0 in *; lia|]. cbn [hd].
    rewrite zlen_ztake by lia. lia. }
  destruct (N (new_device mem) (interrupted_never _ _ _) n junk None (fun _ => None) false (pieces k patch) Dv (le_n n)) as (r & s & d & Q & R).
  destruct R as [(-> & R2 & R3 & R4)|(_ & X & _)]; [|congruence]. change (power_up (new_device mem) None (fun _ => None) false) with (new_device mem) in Q.
  assert (Hne : patch <> []).
  { intros ->. destruct E as (segs & (_ & stream & Ep & _) & _). unfold in_place_header in Ep. discriminate. }
  unfold ip_apply in Q. rewrite <- (zdrop_0 patch) in Q at 2.
  destruct (icallbacks_feed strict_flash_env patch k n 0 (ip_init junk (zlen patch)) (new_device mem) (zlen to) s d) as (pos & T); [lia|unfold k; lia|exact Q|].
  assert (Hsmall : zlen patch < 2 ^ word_bits) by lia.
  exists (n + k)%nat. intros fuel Hfu.
  destruct (in_place_files_agree patch file nm np (zlen bytes) F2 Nn ltac:(lia) bytes F1 eq_refl fuel junk (zlen to) s d pos Hne Hsmall Hto0 (T fuel Hfu))
    as (x & out & X1 & X2 & X3 & X4 & X5).
  assert (Hz : zlen (end_mem memory segment shift from to mem) = zlen bytes).
  { destruct E as (segs & P1 & P2 & P3). erewrite zlen_end by eauto. unfold mem. apply zlen_map. }
  assert (Hfull : forall i, znth (d_mem d) i <> Some None).
  { rewrite R2. intros i. destruct E as (segs & P1 & P2 & P3). eapply end_full; eauto. unfold mem. apply znth_full. }
  exists x, out. split; [exact X1|]. split; [exact X2|]. rewrite R2 in *. destruct X3 as [X3 X3b]. split; [lia|]. split; [|split; [|auto]].
  - eapply shows_prefix; [split; [exact X3|exact X3b]|exact R3|intros; apply Hfull|lia].
  - apply znth_ext; [rewrite !zlen_zdrop; lia|]. intros i Hi. rewrite zlen_zdrop in Hi by lia. rewrite !znth_zdrop by lia.
    assert (O : znth (end_mem memory segment shift from to mem) (memory + i) = znth mem (memory + i)).
    { destruct E as (segs & P1 & P2 & P3). eapply end_outside; eauto. lia. }
    unfold mem in O at 2. rewrite znth_map in O. destruct (znth bytes (memory + i)) eqn:Z; cbn [option_map] in O; [apply X3b; exact O|].
    exfalso. unfold znth in Z. destruct (Z.ltb_spec (memory + i) 0); [lia|]. apply nth_error_None in Z. unfold zlen in *. lia.
Qed.

(** ** Erased cells *)

Lemma in_place_no_erased_read : forall (wb : WordBits), 32 <= word_bits ->
  forall memory segment shift from to mem c patch,
  sizes_ok memory segment shift (zlen from) (zlen to) -> in_place_update c memory segment shift from to patch ->
  bytes_ok patch -> zlen patch + 128 < 2 ^ word_bits -> memory <= zlen mem -> holds mem from ->
  (forall x, znth mem x <> Some None) ->
  let ok := division c memory segment shift (zlen from) (zlen to) patch in
  exists n, forall d, interrupted (zlen patch) ok (new_device mem) d ->
  forall fuel junk power torn torn_step pieces, ok pieces -> (n <= fuel)%nat ->
  exists r s d1, ip_apply strict_flash_env fuel junk (zlen patch) (power_up d power torn torn_step) pieces = Ret (r, s, d1) /\
    (r = zlen to /\ holds (d_mem d1) to /\ d_step d1 = 0 \/ r < 0 /\ power <> None /\ d_off d1 = true).
Proof.
  intros wb Hword memory segment shift from to mem c patch H1 H2 H3 H4 H5 H6 H7 ok.
  destruct (in_place_strict Hword memory segment shift from to mem c patch H1 H2 H3 H4 H5 H6 H7) as (n & N). exists n.
  intros d I fuel junk power torn ts pieces D F. destruct (N d I fuel junk power torn ts pieces D F) as (r & s & d1 & A & B). exists r, s, d1. split; [exact A|].
  destruct B as [(B1 & _ & B2 & B3)|B]; auto.
Qed.
