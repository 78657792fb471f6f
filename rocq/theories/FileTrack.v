(** The file functions close every file they open, once, and use no other. *)

From Coq Require Import ZArith List Bool Lia ZifyBool ZifyNat ZifyN.
From Verif Require Import Prelude Lib Heatshrink CReader CSeq CInPlace CFile CFileSpec FileSim IpSim.
Import ListNotations.
Open Scope Z_scope.

(** [l] continues [l0] with uses of the files [open]. *)
Definition uses (open : list Z) (l0 l : list fevent) : Prop :=
  exists u, l = l0 ++ u /\ Forall (fun e => exists f, e = EvUse f /\ In f open) u.

Lemma uses_refl : forall open l, uses open l l.
Proof. intros open l. exists []. rewrite app_nil_r. auto. Qed.

Lemma uses_more : forall open l0 l f, uses open l0 l -> In f open -> uses open l0 (l ++ [EvUse f]).
Proof.
  intros open l0 l f (u & -> & U) Hf. exists (u ++ [EvUse f]). rewrite app_assoc. split; [reflexivity|]. apply Forall_app. split; [auto|]. constructor; eauto.
Qed.

Lemma disciplined_uses : forall open u rest, Forall (fun e => exists f, e = EvUse f /\ In f open) u -> disciplined open rest -> disciplined open (u ++ rest).
Proof.
  intros open u rest U D. induction U as [|e u (f & -> & Hf) U IH]; [auto|]. cbn [app disciplined]. auto.
Qed.

Lemma disciplined_app : forall open f g rest, disciplined (f :: open) rest -> g = EvOpen f -> disciplined open (g :: rest).
Proof. intros. subst g. auto. Qed.

Section Track.
Context `{WordBits}.
Context {W : Type} (F : stdio W).

Lemma size_track : forall x f r n x1 l0 open, file_size (tracked F) x f = (r, n, x1) -> In f open -> uses open l0 (snd x) -> uses open l0 (snd x1).
Proof.
  intros (w, l) f r n x1 l0 open U Hf Hu. cbn [snd] in Hu. unfold file_size in U. cbn [tracked fseek ftell] in U. cbn [fst snd] in U.
  destruct (fseek F w f 0 SeekEnd) as [r1 w1]. destruct (negb (r1 =? 0)).
  { injection U as <- <- <-. cbn [snd]. apply uses_more; auto. }
  cbn [fst snd] in U. destruct (ftell F w1 f) as [s w2]. destruct (s <=? 0).
  { injection U as <- <- <-. cbn [snd]. apply uses_more; [apply uses_more|]; auto. }
  cbn [fst snd] in U. destruct (fseek F w2 f 0 SeekSet) as [r2 w3]. destruct (negb (r2 =? 0)); injection U as <- <- <-; cbn [snd]; repeat apply uses_more; auto.
Qed.

Lemma read_track : forall x f n r buf x1 l0 open, file_io_read (tracked F) f x n = (r, buf, x1) -> In f open -> uses open l0 (snd x) -> uses open l0 (snd x1).
Proof.
  intros (w, l) f n r buf x1 l0 open U Hf Hu. unfold file_io_read in U. destruct (0 <? n); [|injection U as <- <- <-; auto].
  cbn [tracked fread fst snd] in U. destruct (fread F w f n) as [[k d] w1]. injection U as <- <- <-. cbn [snd]. apply uses_more; auto.
Qed.

Definition Ru (open : list Z) (l0 : list fevent) (k : Z) (a b : W * list fevent) : Prop := a = b /\ uses open l0 (snd b).

Lemma patch_track : forall k open l0 s a b n r buf a1 f, In f open ->
  joined (Ru open l0 k) (Ru open l0 k) s a b -> file_io_read (tracked F) f a n = (r, buf, a1) ->
  exists r2 buf2 b1, file_io_read (tracked F) f b n = (r2, buf2, b1) /\ (r = 0 -> r2 = 0 /\ buf2 = buf /\ joined (Ru open l0 (k + n)) (Ru open l0 (k + n)) s a1 b1) /\
    (r <> 0 -> r2 <> 0 /\ joined (Ru open l0 k) (Ru open l0 k) s a1 b1).
Proof.
  intros k open l0 s a b n r buf a1 f Hf J U. assert (a = b /\ uses open l0 (snd b)) as [<- Hu] by (destruct J as [J|[_ J]]; exact J).
  exists r, buf, a1. split; [exact U|]. pose proof (read_track _ _ _ _ _ _ _ _ U Hf Hu) as V. split; intros E; (split; [auto|]); [split; [auto|]|]; left; split; auto.
Qed.

Lemma filenames_track : forall fuel junk w from patch to r w1 log,
  apply_patch_filenames (tracked F) fuel junk (w, []) from patch to = Ret (r, (w1, log)) -> disciplined [] log /\ (r = 0 -> all_closed log).
Proof.
  intros fuel junk w from patch to r w1 log U. unfold apply_patch_filenames, file_io_init in U. cbn [tracked fopen fclose fst snd] in U.
  destruct (fopen F w from ReadBinary) as [[hf|] a1]; [|injection U as <- <- <-; split; [reflexivity|discriminate]]. cbn [fst snd app] in U.
  destruct (fopen F a1 to WriteBinary) as [[ht|] a2]; cbn [fst snd app] in U.
  2:{ destruct (fclose F a2 hf) as [? a3]. injection U as <- <- <-. split; [|discriminate]. cbn [disciplined app]. exists [], []. auto. }
  destruct (fopen F a2 patch ReadBinary) as [[hp|] a3]; cbn [fst snd app] in U.
  2:{ destruct (fclose F a3 ht) as [? a4]. cbn [fst snd] in U. destruct (fclose F a4 hf) as [? a5]. injection U as <- <- <-. split; [|discriminate]. cbn [disciplined app]. exists [], [hf]. split; [auto|]. exists [], []. auto. }
  destruct (file_size (tracked F) _ hp) as [[res size] [a4 l4]] eqn:FS. set (open := [hp; ht; hf]). set (l0 := [EvOpen hf; EvOpen ht; EvOpen hp]) in *.
  assert (U4 : uses open l0 l4) by (eapply (size_track _ _ _ _ _ l0 open FS); [left; reflexivity|apply uses_refl]).
  assert (G : forall u, Forall (fun e => exists f, e = EvUse f /\ In f open) u -> forall rest, disciplined open rest -> disciplined [] ((l0 ++ u) ++ rest)).
  { intros u Hu rest D. rewrite <- app_assoc. unfold l0. cbn [app disciplined]. fold open. apply disciplined_uses; auto. }
  destruct (Z.eqb_spec res 0) as [Er|Er]; cbn [negb] in U.
  2:{ cbn [fst snd] in U. destruct (fclose F a4 hp) as [? a5]. cbn [fst snd] in U. destruct (fclose F a5 ht) as [? a6]. cbn [fst snd] in U. destruct (fclose F a6 hf) as [? a7].
    injection U as <- <- <-. split; [|congruence]. destruct U4 as (u & -> & U4). rewrite <- !app_assoc. rewrite app_assoc. apply G; [auto|]. cbn [app disciplined]. exists [], [ht; hf]. split; [reflexivity|]. exists [], [hf]. split; [reflexivity|]. exists [], []. auto. }
  - cbn [io_patch] in U. destruct (apply_patch_callbacks _ _ _ _ _ _) as [[[res2 s2] [a5 l5]]| |] eqn:CB; cbn [obind] in U; try discriminate.
    unfold apply_patch_callbacks in CB.
    edestruct (callbacks_sim (file_io_env (tracked F) (mkio hf hp ht)) (file_io_env (tracked F) (mkio hf hp ht)) (Ru open l0) (Ru open l0)) with
      (PR1 := file_io_read (tracked F) hp) (PR2 := file_io_read (tracked F) hp) (ps := size) (b := (a4, l4)) as (d & k & D1 & D2); [| | | | | |exact CB|].
    + auto.
    + intros k a b n r0 buf a6 [-> Hu] _ V. exists buf, a6. split; [exact V|]. cbn [file_io_env from_read io_from] in V.
      assert (X : uses open l0 (snd a6)) by (eapply read_track; [exact V|cbn; auto|exact Hu]). unfold Ru. auto.
    + intros k a b off r0 a6 [-> Hu] V. exists r0, a6. split; [exact V|]. cbn [file_io_env from_seek io_from] in V. unfold file_io_from_seek in V. cbn [tracked fseek] in V.
      destruct (fseek F (fst b) hf off SeekCur) as [rr ww]. injection V as <- <-.
      assert (X : uses open l0 (snd b ++ [EvUse hf])) by (apply uses_more; [auto|cbn; auto]). unfold Ru. cbn [snd]. auto.
    + intros k a b data r0 a6 [-> Hu] V. exists r0, a6. split; [exact V|]. cbn [file_io_env to_write io_to] in V. unfold file_io_to_write in V.
      assert (X : uses open l0 (snd a6)).
      { destruct (0 <? zlen data); [|injection V as <- <-; auto]. cbn [tracked fwrite] in V. destruct (fwrite F (fst b) ht data) as [kk ww]. injection V as <- <-. cbn [snd]. apply uses_more; [auto|cbn; auto]. }
      unfold Ru. auto.
    + intros k s a b n r0 buf a6 J _ _ V. eapply patch_track; eauto. cbn. auto.
    + left. split; auto.
    + assert (U5 : uses open l0 l5) by (destruct D2 as [[<- D2]|[_ [<- D2]]]; exact D2).
      unfold file_io_cleanup in U. cbn [io_from io_to io_patch tracked fclose fst snd] in U.
      destruct (fclose F a5 hf) as [c1 a6]. cbn [fst snd] in U. destruct (fclose F a6 ht) as [c2 a7]. cbn [fst snd] in U. destruct (fclose F a7 hp) as [c3 a8].
      assert (L : log = ((l5 ++ [EvClose hf c1]) ++ [EvClose ht c2]) ++ [EvClose hp c3]) by (destruct (negb (res2 =? 0)); injection U as <- <- <-; reflexivity).
      destruct U5 as (u & -> & U5). split.
      2:{ intros ->. assert (Z0 : c1 = 0 /\ c2 = 0 /\ c3 = 0).
        { destruct (Z.eqb_spec res2 0); cbn [negb] in U; [|congruence]. destruct (Z.eqb_spec c1 0); cbn [negb orb] in U; try discriminate; destruct (Z.eqb_spec c2 0); cbn [negb orb] in U; try discriminate; destruct (Z.eqb_spec c3 0); cbn [negb orb] in U; try discriminate. auto. }
        intros f c Hin. rewrite L, !in_app_iff in Hin. rewrite Forall_forall in U5. unfold l0 in Hin. cbn [In] in Hin.
        repeat match goal with X : _ \/ _ |- _ => destruct X | X : False |- _ => destruct X end; try discriminate; try (match goal with X : EvClose _ _ = _ |- _ => injection X as <- <- end; intuition congruence).
        destruct (U5 _ H0) as (? & ? & _). discriminate. }
      rewrite L, <- !app_assoc. rewrite app_assoc. apply G; [auto|]. cbn [app disciplined]. exists [hp; ht], []. split; [reflexivity|]. exists [hp], []. split; [reflexivity|]. exists [], []. auto.
Qed.

Definition Ri (open : list Z) (l0 : list fevent) (k j : Z) (a b : W * list fevent) : Prop := a = b /\ uses open l0 (snd b).
Definition Di (open : list Z) (l0 : list fevent) (k : Z) (a b : W * list fevent) : Prop := a = b /\ uses open l0 (snd b).

Section InPlace.
Variables (sset : option (W -> Z -> Z * W)) (sget : option (W -> Z * Z * W)).
Variables hm hp : Z.
Notation open := [hp; hm].
Notation E := (in_place_file_io_env (tracked F) (mkipio hm hp) (option_map tracked_set sset) (option_map tracked_get sget)).

Lemma completed_track : forall j x r c x1 l0, is_step_completed E j x = (r, c, x1) -> uses open l0 (snd x) -> uses open l0 (snd x1).
Proof.
  intros j x r c x1 l0 U Hu. unfold is_step_completed in U. cbn [in_place_file_io_env step_get] in U. destruct sget as [g|]; cbn [option_map] in U; [|injection U as <- <- <-; auto].
  unfold tracked_get in U. destruct (g (fst x)) as [[rr st] w1]. destruct (negb (rr =? 0)); injection U as <- <- <-; auto.
Qed.

Lemma mem_read_track : forall j x src n r buf x1 l0, ip_mem_read E j x src n = (r, buf, x1) -> uses open l0 (snd x) -> uses open l0 (snd x1).
Proof.
  intros j x src n r buf x1 l0 U Hu. unfold ip_mem_read in U. destruct (is_step_completed E j x) as [[res c] y] eqn:C. pose proof (completed_track _ _ _ _ _ _ C Hu) as Hy.
  destruct (negb (res =? 0)); [injection U as <- <- <-; auto|]. destruct c; [injection U as <- <- <-; auto|].
  cbn [in_place_file_io_env mem_read ip_memory] in U. unfold in_place_file_io_mem_read in U. destruct (0 <? n); [|injection U as <- <- <-; auto].
  cbn [tracked fseek fread] in U. destruct (fseek F (fst y) hm _ _) as [r1 w1]. destruct (negb (r1 =? 0)).
  - injection U as <- <- <-. cbn [snd]. apply uses_more; [auto|cbn; auto].
  - cbn [fst snd] in U. destruct (fread F w1 hm n) as [[k d] w2]. injection U as <- <- <-. cbn [snd]. repeat apply uses_more; auto; cbn; auto.
Qed.

Lemma mem_write_track : forall j x dst data r x1 l0, ip_mem_write E j x dst data = (r, x1) -> uses open l0 (snd x) -> uses open l0 (snd x1).
Proof.
  intros j x dst data r x1 l0 U Hu. unfold ip_mem_write in U. destruct (is_step_completed E j x) as [[res c] y] eqn:C. pose proof (completed_track _ _ _ _ _ _ C Hu) as Hy.
  destruct (negb (res =? 0)); [injection U as <- <-; auto|]. destruct c; [injection U as <- <-; auto|].
  cbn [in_place_file_io_env mem_write ip_memory] in U. unfold in_place_file_io_mem_write in U. destruct (0 <? zlen data); [|injection U as <- <-; auto].
  cbn [tracked fseek fwrite] in U. destruct (fseek F (fst y) hm _ _) as [r1 w1]. destruct (negb (r1 =? 0)).
  - injection U as <- <-. cbn [snd]. apply uses_more; [auto|cbn; auto].
  - cbn [fst snd] in U. destruct (fwrite F w1 hm data) as [k w2]. injection U as <- <-. cbn [snd]. repeat apply uses_more; auto; cbn; auto.
Qed.

Lemma mem_erase_track : forall j x dst n r x1 l0, ip_mem_erase E j x dst n = (r, x1) -> uses open l0 (snd x) -> uses open l0 (snd x1).
Proof.
  intros j x dst n r x1 l0 U Hu. unfold ip_mem_erase in U. destruct (is_step_completed E j x) as [[res c] y] eqn:C. pose proof (completed_track _ _ _ _ _ _ C Hu) as Hy.
  destruct (negb (res =? 0)); [injection U as <- <-; auto|]. destruct c; injection U as <- <-; auto.
Qed.

Lemma all_track : forall x r x1 l0, all_steps_completed E x = (r, x1) -> uses open l0 (snd x) -> uses open l0 (snd x1).
Proof.
  intros x r x1 l0 U Hu. unfold all_steps_completed in U. cbn [in_place_file_io_env step_set] in U. destruct sset as [g|]; cbn [option_map] in U; [|injection U as <- <-; auto].
  unfold tracked_set in U. destruct (g (fst x) 0) as [rr w1]. injection U as <- <-; auto.
Qed.

Lemma next_track : forall j x r j1 x1 l0, next_step E j x = Ret (r, j1, x1) -> uses open l0 (snd x) -> uses open l0 (snd x1).
Proof.
  intros j x r j1 x1 l0 U Hu. unfold next_step in U. cbn [step_set in_place_file_io_env] in U. destruct sset as [g|]; cbn [option_map] in U.
  - destruct (is_step_completed _ j x) as [[res c] y] eqn:C. pose proof (completed_track _ _ _ _ _ _ C Hu) as Hy.
    destruct (negb (res =? 0)); [injection U as <- <- <-; auto|]. destruct c.
    + destruct (int_add j 1); cbn [obind] in U; try discriminate. injection U as <- <- <-. auto.
    + unfold tracked_set in U. destruct (g (fst y) j) as [rr w1]. destruct (int_add j 1); cbn [obind] in U; try discriminate. injection U as <- <- <-. auto.
  - destruct (int_add j 1); cbn [obind] in U; try discriminate. injection U as <- <- <-. auto.
Qed.

Lemma callbacks_track : forall fuel junk size a4 l4 l0 r s a5 l5, uses open l0 l4 ->
  apply_patch_in_place_callbacks E fuel junk (file_io_read (tracked F) hp) size (a4, l4) = Ret (r, s, (a5, l5)) -> uses open l0 l5.
Proof using All.
  intros fuel junk size a4 l4 l0 r s a5 l5 U4 CB. unfold apply_patch_in_place_callbacks in CB.
  edestruct (icallbacks_sim E E (Ri open l0) (Di open l0) False) with (PR1 := file_io_read (tracked F) hp) (PR2 := file_io_read (tracked F) hp) (ps := size) (b := (a4, l4))
    as [[_ []]|(d & k & D1 & D2)]; [| | | | | | | | |exact CB|].
  - auto.
  - intros k j a b src n r0 buf a6 [-> Hu] _ V. right. exists a6. split; [exact V|]. split; [auto|]. eapply mem_read_track; eauto.
  - intros k j a b dst data r0 a6 [-> Hu] V. right. exists a6. split; [exact V|]. split; [auto|]. eapply mem_write_track; eauto.
  - intros k j a b dst n r0 a6 [-> Hu] V. right. exists a6. split; [exact V|]. split; [auto|]. eapply mem_erase_track; eauto.
  - intros k j a b r0 j1 a6 [-> Hu] V. right. exists a6. split; [exact V|]. split; [auto|]. eapply next_track; eauto.
  - intros k j a b r0 a6 [-> Hu] V. right. exists a6. split; [exact V|]. split; [auto|]. eapply all_track; eauto.
  - intros [].
  - intros k st a b n r0 buf a6 J _ _ V. assert (a = b /\ uses open l0 (snd b)) as [<- Hu] by (destruct J as [J|[_ J]]; exact J).
    exists r0, buf, a6. split; [exact V|]. assert (X : uses open l0 (snd a6)) by (eapply read_track; [exact V|cbn; auto|exact Hu]).
    split; intros Er; [split; [auto|split; [auto|]]|split; [auto|]]; left; split; auto.
  - left. split; auto.
  - destruct D2 as [[<- D2]|[_ [<- D2]]]; exact D2.
Qed.
End InPlace.

Lemma in_place_filenames_track : forall fuel junk w memory patch sset sget r w1 log,
  apply_patch_in_place_filenames (tracked F) fuel junk (w, []) memory patch (option_map tracked_set sset) (option_map tracked_get sget) = Ret (r, (w1, log)) -> disciplined [] log /\ (r = 0 -> all_closed log).
Proof.
  intros fuel junk w memory patch sset sget r w1 log U. unfold apply_patch_in_place_filenames, in_place_file_io_init in U. cbn [tracked fopen fclose fst snd] in U.
  destruct (fopen F w memory UpdateBinary) as [[hm|] a1]; [|injection U as <- <- <-; split; [reflexivity|discriminate]]. cbn [fst snd app] in U.
  destruct (fopen F a1 patch ReadBinary) as [[hp|] a3]; cbn [fst snd app] in U.
  2:{ destruct (fclose F a3 hm) as [? a4]. injection U as <- <- <-. split; [|discriminate]. cbn [disciplined app]. exists [], []. auto. }
  destruct (file_size (tracked F) _ hp) as [[res size] [a4 l4]] eqn:FS. set (open := [hp; hm]). set (l0 := [EvOpen hm; EvOpen hp]) in *.
  assert (U4 : uses open l0 l4) by (eapply (size_track _ _ _ _ _ l0 open FS); [left; reflexivity|apply uses_refl]).
  assert (G : forall u, Forall (fun e => exists f, e = EvUse f /\ In f open) u -> forall rest, disciplined open rest -> disciplined [] ((l0 ++ u) ++ rest)).
  { intros u Hu rest D. rewrite <- app_assoc. unfold l0. cbn [app disciplined]. fold open. apply disciplined_uses; auto. }
  destruct (Z.eqb_spec res 0) as [Er|Er]; cbn [negb] in U.
  2:{ cbn [fst snd] in U. destruct (fclose F a4 hp) as [? a5]. cbn [fst snd] in U. destruct (fclose F a5 hm) as [? a6].
    injection U as <- <- <-. split; [|congruence]. destruct U4 as (u & -> & U4). rewrite <- !app_assoc. rewrite app_assoc. apply G; [auto|]. cbn [app disciplined]. exists [], [hm]. split; [reflexivity|]. exists [], []. auto. }
  - cbn [ip_patch_file] in U. destruct (apply_patch_in_place_callbacks _ _ _ _ _ _) as [[[res2 s2] [a5 l5]]| |] eqn:CB; cbn [obind] in U; try discriminate.
    pose proof (callbacks_track _ _ _ _ _ _ _ _ _ _ _ _ _ _ U4 CB) as U5. fold open in U5.
    unfold in_place_file_io_cleanup in U. cbn [ip_memory ip_patch_file tracked fclose fst snd] in U.
    destruct (fclose F a5 hm) as [c1 a6]. cbn [fst snd] in U. destruct (fclose F a6 hp) as [c3 a8].
    assert (L : log = (l5 ++ [EvClose hm c1]) ++ [EvClose hp c3]) by (destruct (negb (res2 =? 0)); injection U as <- <- <-; reflexivity).
    destruct U5 as (u & -> & U5). split.
      2:{ intros ->. assert (Z0 : c1 = 0 /\ c3 = 0).
        { destruct (Z.eqb_spec res2 0); cbn [negb] in U; [|congruence]. destruct (Z.eqb_spec c1 0); cbn [negb orb] in U; try discriminate; destruct (Z.eqb_spec c3 0); cbn [negb orb] in U; try discriminate. auto. }
        intros f c Hin. rewrite L, !in_app_iff in Hin. rewrite Forall_forall in U5. unfold l0 in Hin. cbn [In] in Hin.
        repeat match goal with X : _ \/ _ |- _ => destruct X | X : False |- _ => destruct X end; try discriminate; try (match goal with X : EvClose _ _ = _ |- _ => injection X as <- <- end; intuition congruence).
        destruct (U5 _ H0) as (? & ? & _). discriminate. }
      rewrite L, <- !app_assoc. rewrite app_assoc. apply G; [auto|]. cbn [app disciplined]. exists [hp], []. split; [reflexivity|]. exists [], []. auto.
Qed.
End Track.
