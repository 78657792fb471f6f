(** The in-place file function on a file system in which nothing goes wrong. *)

From Coq Require Import ZArith List Bool Lia ZifyBool ZifyNat ZifyN.
From Verif Require Import Prelude Lib Heatshrink CReader CSeq CInPlace CFile CFileSpec CallbackSpec IpCallbackSpec IpCallback Spec InPlaceSpec InPlaceMem IpSim FileProofs.
Import ListNotations.
Open Scope Z_scope.

Lemma overwrite_blit : forall c pos data, 0 <= pos -> pos + zlen data <= zlen c -> overwrite c pos data = blit c pos data.
Proof.
  intros c pos data H1 H2. pose proof (zlen_nonneg data). unfold overwrite, blit. replace (zrepeat 0 (pos - zlen c)) with (@nil Z); [reflexivity|].
  unfold zrepeat. replace (Z.to_nat (pos - zlen c)) with O by lia. reflexivity.
Qed.

(** [bytes] are possible contents of the cells: an erased cell may have any. *)
Definition shows (bytes : list Z) (mem : list (option Z)) : Prop :=
  zlen bytes = zlen mem /\ forall i b, znth mem i = Some (Some b) -> znth bytes i = Some b.

Lemma shows_blit : forall bytes mem a data cells, shows bytes mem -> 0 <= a -> a + zlen data <= zlen mem -> zlen cells = zlen data ->
  (forall i b, 0 <= i < zlen data -> znth cells i = Some (Some b) -> znth data i = Some b) -> shows (blit bytes a data) (blit mem a cells).
Proof.
  intros bytes mem a data cells [S1 S2] H1 H2 H3 H4. split; [rewrite !zlen_blit; lia|]. intros i b Hi.
  destruct (Z.ltb_spec i a); [rewrite znth_blit_out in * by lia; auto|]. destruct (Z.leb_spec (a + zlen data) i); [rewrite znth_blit_out in * by lia; auto|].
  rewrite znth_blit_in in * by lia. apply H4; [lia|auto].
Qed.

Lemma shows_erase : forall bytes mem a n, shows bytes mem -> 0 <= a -> 0 <= n -> a + n <= zlen mem -> shows bytes (blit mem a (zrepeat None n)).
Proof.
  intros bytes mem a n [S1 S2] H1 H2 H3. split; [rewrite zlen_blit; rewrite ?zlen_zrepeat; lia|]. intros i b Hi.
  destruct (Z.ltb_spec i a); [rewrite znth_blit_out in Hi by (rewrite ?zlen_zrepeat; lia); auto|].
  destruct (Z.leb_spec (a + n) i); [rewrite znth_blit_out in Hi by (rewrite ?zlen_zrepeat; lia); auto|].
  rewrite znth_blit_in in Hi by (rewrite ?zlen_zrepeat; lia). rewrite znth_zrepeat in Hi by lia. discriminate.
Qed.

Lemma shows_read : forall bytes mem a n, shows bytes mem -> 0 <= a -> 0 <= n -> a + n <= zlen mem -> existsb is_erased (ztake n (zdrop a mem)) = false ->
  ztake n (zdrop a bytes) = map cell_value (ztake n (zdrop a mem)).
Proof.
  intros bytes mem a n [S1 S2] H1 H2 H3 He. apply znth_ext; [rewrite zlen_map, !zlen_slice; lia|]. intros i Hi. rewrite zlen_slice in Hi by lia.
  rewrite znth_map, !znth_slice by lia. destruct (znth mem (a + i)) as [[b|]|] eqn:M; cbn [option_map cell_value].
  - rewrite (S2 _ _ M). reflexivity.
  - exfalso. assert (X : existsb is_erased (ztake n (zdrop a mem)) = true); [|congruence]. apply existsb_exists. exists None. split; [|reflexivity].
    rewrite <- (znth_slice _ mem a n i) in M by lia. unfold znth in M. destruct (Z.ltb_spec i 0); [lia|]. eapply nth_error_In. exact M.
  - exfalso. unfold znth in M. destruct (Z.ltb_spec (a + i) 0); [lia|]. apply nth_error_None in M. unfold zlen in *. lia.
Qed.

Lemma shows_map : forall l, shows l (map Some l).
Proof.
  intros l. split; [rewrite zlen_map; reflexivity|]. intros i b Hi. rewrite znth_map in Hi. destruct (znth l i); cbn in Hi; congruence.
Qed.

Lemma to_int_small : forall x, 0 <= x <= INT_MAX -> to_int x = x.
Proof. intros x Hx. unfold to_int, INT_MAX in *. rewrite Z.mod_small by lia. destruct (Z.leb_spec 2147483648 x); lia. Qed.

Section Files.
Context `{WordBits}.
Variable patch : list Z.
Variable file : Z -> option (list Z).
Variables nm np : Z.
Variable size : Z.
Hypothesis Fp : file np = Some patch.
Hypothesis Dn : nm <> np.
Hypothesis Hsize : size <= INT_MAX.

(** Stream 1 is the memory, stream 2 the patch. *)
Definition ist (x : fs) (p : Z) (bytes : list Z) : Prop :=
  (exists q, fs_open x 1 = Some (nm, q)) /\ fs_open x 2 = Some (np, p) /\
  (forall h, h <> 1 -> h <> 2 -> fs_open x h = None) /\
  fs_file x nm = Some bytes /\ forall n, n <> nm -> fs_file x n = file n.

Lemma ist_at : forall x p bytes q, ist x p bytes -> ist (fs_at x 1 nm q) p bytes.
Proof.
  intros x p bytes q (A & B & C & D & E). unfold ist, fs_at. cbn [fs_open fs_file]. split; [exists q; apply put_same|]. split; [rewrite put_other by lia; auto|].
  split; [intros; rewrite put_other by lia; auto|auto].
Qed.

Lemma ist_patch : forall x p bytes q, ist x p bytes -> ist (fs_at x 2 np q) q bytes.
Proof.
  intros x p bytes q ((r & A) & B & C & D & E). unfold ist, fs_at. cbn [fs_open fs_file]. split; [exists r; rewrite put_other by lia; auto|]. split; [apply put_same|].
  split; [intros; rewrite put_other by lia; auto|auto].
Qed.

Definition Di (k : Z) (a : dev * Z) (x : fs) : Prop :=
  k = snd a /\ 0 <= k /\ d_off (fst a) = false /\ d_power (fst a) = None /\ zlen (d_mem (fst a)) = size /\
  exists bytes, shows bytes (d_mem (fst a)) /\ ist x k bytes.

(** In step [j] the steps before are recorded. *)
Definition Ri (k j : Z) (a : dev * Z) (x : fs) : Prop := Di k a x /\ d_step (fst a) = j - 1.

Notation E1 := (ip_env_with strict_flash_env Z).
Notation E2 := (in_place_file_io_env fs_stdio (mkipio 1 2) None None).

Lemma completed1 : forall k j a x, Ri k j a x -> is_step_completed E1 j a = (0, false, a).
Proof.
  intros k j (d, pos) x ((K & K0 & O & P & M) & S). cbn [fst snd] in *. unfold is_step_completed. cbn [ip_env_with strict_flash_env flash_env_of step_get fst snd].
  unfold recorded_step. rewrite O. cbn [Z.eqb negb]. rewrite S. replace (j <=? j - 1) with false by lia. reflexivity.
Qed.

Lemma iread_sim : forall k j a b src n r buf a1, Ri k j a b -> 0 <= n -> ip_mem_read E1 j a src n = (r, buf, a1) ->
  (fails r /\ True) \/ exists b1, ip_mem_read E2 j b src n = (r, buf, b1) /\ Ri k j a1 b1.
Proof using All.
  intros k j a b src n r buf a1 HR Hn U. unfold ip_mem_read in *. rewrite (completed1 _ _ _ _ HR) in U. cbn [Z.eqb negb] in U.
  unfold is_step_completed. cbn [in_place_file_io_env step_get mem_read ip_memory]. cbn [Z.eqb negb]. unfold in_place_file_io_mem_read.
  destruct a as (d, pos). destruct HR as ((K & K0 & O & P & M & bytes & S & I) & St). cbn [fst snd] in *.
  cbn [ip_env_with mem_read strict_flash_env flash_env_of fst snd] in U. unfold strict_read in U.
  destruct (existsb is_erased _) eqn:Er; [injection U as <- <- <-; left; split; [split; [reflexivity|discriminate]|exact Logic.I]|].
  unfold flash_read in U. rewrite O in U. unfold in_memory in U.
  destruct (Z.leb_spec 0 src); cbn [andb negb] in U; [|injection U as <- <- <-; left; split; [split; [reflexivity|discriminate]|exact Logic.I]].
  replace (0 <=? n) with true in U by lia. cbn [andb negb] in U.
  destruct (Z.leb_spec (src + n) (zlen (d_mem d))); cbn [negb] in U; [|injection U as <- <- <-; left; split; [split; [reflexivity|discriminate]|exact Logic.I]].
  unfold power_lost_now in U. rewrite P in U. injection U as <- <- <-. right.
  assert (RR : forall y, ist y k bytes -> Ri k j (tick d (d_mem d) (d_step d) (ERead src n), pos) y).
  { intros y Iy. split; [|exact St]. unfold Di. cbn [fst snd tick d_off d_power d_mem d_step]. rewrite P. split; [auto|]. split; [auto|]. split; [auto|]. split; [auto|]. split; [auto|]. eauto. }
  pose proof (shows_read _ _ src n S ltac:(lia) Hn ltac:(lia) Er) as Hb. destruct (Z.ltb_spec 0 n).
  - rewrite to_int_small by (unfold INT_MAX in *; lia). cbn [fs_stdio fseek fread]. pose proof I as ((q & I1) & I2 & I3 & I4 & I5). unfold fs_fseek. rewrite I1. cbv zeta.
    replace (0 + src <? 0) with false by lia. cbn [Z.eqb negb]. unfold fs_fread. unfold fs_at at 1. cbn [fs_open]. rewrite put_same. unfold contents. cbn [fs_at fs_file]. rewrite I4.
    destruct S as [S1 S2]. cbv zeta. rewrite Z.add_0_l. destruct (Z.leb_spec (src + n) (zlen bytes)); [|lia]. cbn [Z.eqb Pos.eqb]. rewrite Hb.
    eexists. split; [reflexivity|]. apply RR. apply (ist_at (fs_at b 1 nm src)). apply ist_at. exact I.
  - assert (n = 0) by lia. subst n. exists b. split; [|apply RR; exact I]. rewrite <- Hb. reflexivity.
Qed.

Lemma iwrite_sim : forall k j a b dst data r a1, Ri k j a b -> ip_mem_write E1 j a dst data = (r, a1) ->
  (fails r /\ True) \/ exists b1, ip_mem_write E2 j b dst data = (r, b1) /\ Ri k j a1 b1.
Proof using All.
  intros k j a b dst data r a1 HR U. unfold ip_mem_write in *. rewrite (completed1 _ _ _ _ HR) in U. cbn [Z.eqb negb] in U.
  unfold is_step_completed. cbn [in_place_file_io_env step_get mem_write ip_memory]. cbn [Z.eqb negb]. unfold in_place_file_io_mem_write.
  destruct a as (d, pos). destruct HR as ((K & K0 & O & P & M & bytes & S & I) & St). cbn [fst snd] in *.
  cbn [ip_env_with mem_write strict_flash_env flash_env_of fst snd] in U. unfold flash_write in U. rewrite O in U. cbv zeta in U. unfold in_memory in U.
  pose proof (zlen_nonneg data) as Hn. replace (0 <=? zlen data) with true in U by lia.
  destruct (Z.leb_spec 0 dst); cbn [andb negb] in U; [|injection U as <- <-; left; split; [split; [reflexivity|discriminate]|exact Logic.I]].
  destruct (Z.leb_spec (dst + zlen data) (zlen (d_mem d))); cbn [andb negb] in U; [|injection U as <- <-; left; split; [split; [reflexivity|discriminate]|exact Logic.I]].
  destruct (forallb is_erased _); cbn [negb] in U; [|injection U as <- <-; left; split; [split; [reflexivity|discriminate]|exact Logic.I]].
  unfold power_lost_now in U. rewrite P in U. injection U as <- <-. right.
  assert (RR : forall y, ist y k (blit bytes dst data) -> Ri k j (tick d (blit (d_mem d) dst (map Some data)) (d_step d) (EWrite dst (zlen data)), pos) y).
  { intros y Iy. split; [|exact St]. unfold Di. cbn [fst snd tick d_off d_power d_mem d_step]. rewrite P. split; [auto|]. split; [auto|]. split; [auto|]. split; [auto|].
    split; [rewrite zlen_blit; rewrite ?zlen_map; lia|]. exists (blit bytes dst data). split; [|auto]. apply shows_blit; auto; try lia; [rewrite zlen_map; lia|].
    intros i c Hi Hc. rewrite znth_map in Hc. destruct (znth data i); cbn in Hc; congruence. }
  destruct (Z.ltb_spec 0 (zlen data)).
  - rewrite to_int_small by (unfold INT_MAX in *; lia). cbn [fs_stdio fseek fwrite]. pose proof I as ((q & I1) & I2 & I3 & I4 & I5). unfold fs_fseek. rewrite I1. cbv zeta.
    replace (0 + dst <? 0) with false by lia. cbn [Z.eqb negb]. unfold fs_fwrite. unfold fs_at at 1. cbn [fs_open]. rewrite put_same. unfold contents. cbn [fs_at fs_file]. rewrite I4.
    destruct S as [S1 S2]. rewrite Z.add_0_l, overwrite_blit by lia. cbn [Z.eqb Pos.eqb].
    eexists. split; [reflexivity|]. apply RR. unfold ist. cbn [fs_open fs_file fs_at]. split; [eexists; apply put_same|]. split; [rewrite !put_other by lia; auto|].
    split; [intros; rewrite !put_other by lia; auto|]. split; [apply put_same|]. intros. rewrite put_other by lia. auto.
  - assert (data = []) by (apply zlen_0_nil; lia). subst data. exists b. split; [reflexivity|]. apply RR. destruct S as [S1 S2].
    replace (blit bytes dst []) with bytes; [exact I|]. unfold blit. cbn [app]. change (zlen (@nil Z)) with 0 in *. rewrite Z.add_0_r. symmetry. apply ztake_zdrop.
Qed.

Lemma ierase_sim : forall k j a b dst n r a1, Ri k j a b -> ip_mem_erase E1 j a dst n = (r, a1) ->
  (fails r /\ True) \/ exists b1, ip_mem_erase E2 j b dst n = (r, b1) /\ Ri k j a1 b1.
Proof using All.
  intros k j a b dst n r a1 HR U. unfold ip_mem_erase in *. rewrite (completed1 _ _ _ _ HR) in U. cbn [Z.eqb negb] in U.
  unfold is_step_completed. cbn [in_place_file_io_env step_get mem_erase ip_memory]. cbn [Z.eqb negb]. unfold in_place_file_io_mem_erase.
  destruct a as (d, pos). destruct HR as ((K & K0 & O & P & M & bytes & S & I) & St). cbn [fst snd] in *.
  cbn [ip_env_with mem_erase strict_flash_env flash_env_of fst snd] in U. unfold flash_erase in U. rewrite O in U. unfold in_memory in U.
  destruct (Z.leb_spec 0 dst); cbn [andb negb] in U; [|injection U as <- <-; left; split; [split; [reflexivity|discriminate]|exact Logic.I]].
  destruct (Z.leb_spec 0 n); cbn [andb negb] in U; [|injection U as <- <-; left; split; [split; [reflexivity|discriminate]|exact Logic.I]].
  destruct (Z.leb_spec (dst + n) (zlen (d_mem d))); cbn [andb negb] in U; [|injection U as <- <-; left; split; [split; [reflexivity|discriminate]|exact Logic.I]].
  unfold power_lost_now in U. rewrite P in U. injection U as <- <-. right. exists b. split; [reflexivity|].
  split; [|exact St]. unfold Di. cbn [fst snd tick d_off d_power d_mem d_step]. rewrite P. split; [auto|]. split; [auto|]. split; [auto|]. split; [auto|].
  split; [rewrite zlen_blit; rewrite ?zlen_zrepeat; lia|]. exists bytes. split; [|auto]. apply shows_erase; auto.
Qed.

Lemma inext_sim : forall k j a b r j1 a1, Ri k j a b -> next_step E1 j a = Ret (r, j1, a1) ->
  (fails r /\ True) \/ exists b1, next_step E2 j b = Ret (r, j1, b1) /\ Ri k j1 a1 b1.
Proof using All.
  intros k j a b r j1 a1 HR U. unfold next_step in *. cbn [ip_env_with strict_flash_env flash_env_of step_set] in U. cbn [in_place_file_io_env step_set].
  change (is_step_completed _ j a) with (is_step_completed E1 j a) in U. rewrite (completed1 _ _ _ _ HR) in U. cbn [Z.eqb negb] in U.
  destruct a as (d, pos). destruct HR as ((K & K0 & O & P & M & bytes & S & I) & St). cbn [fst snd] in *.
  unfold record_step, power_lost_now in U. rewrite O, P in U. cbn [Z.eqb negb] in U. destruct (int_add j 1) as [j2| |] eqn:J; cbn [obind] in *; try discriminate.
  injection U as <- <- <-. right. exists b. split; [reflexivity|].
  assert (j2 = j + 1) by (unfold int_add in J; destruct (in_int (j + 1)); [congruence|discriminate]). subst j2.
  split; [|cbn [fst tick d_step]; lia]. unfold Di. cbn [fst snd tick d_off d_power d_mem d_step]. rewrite P. split; [auto|]. split; [auto|]. split; [auto|]. split; [auto|]. split; [auto|]. eauto.
Qed.

Lemma idone_sim : forall k j a b r a1, Ri k j a b -> all_steps_completed E1 a = (r, a1) ->
  (fails r /\ True) \/ exists b1, all_steps_completed E2 b = (r, b1) /\ Di k a1 b1.
Proof using All.
  intros k j a b r a1 HR U. unfold all_steps_completed in *. cbn [ip_env_with strict_flash_env flash_env_of step_set] in U. cbn [in_place_file_io_env step_set].
  destruct a as (d, pos). destruct HR as ((K & K0 & O & P & M & bytes & S & I) & St). cbn [fst snd] in *.
  unfold record_step, power_lost_now in U. rewrite O, P in U. cbn [Z.eqb negb] in U. injection U as <- <-. right. exists b. split; [reflexivity|].
  unfold Di. cbn [fst snd tick d_off d_power d_mem d_step]. rewrite P. split; [auto|]. split; [auto|]. split; [auto|]. split; [auto|]. split; [auto|]. eauto.
Qed.

Lemma ipatch_sim : forall k s a b n r buf a1, ijoined (Ri k) (Di k) s a b -> 0 < n -> k + n <= zlen patch -> patch_file patch a n = (r, buf, a1) ->
  exists r2 buf2 b1, file_io_read fs_stdio 2 b n = (r2, buf2, b1) /\ (r = 0 -> r2 = 0 /\ buf2 = buf /\ ijoined (Ri (k + n)) (Di (k + n)) s a1 b1) /\
    (r <> 0 -> r2 <> 0 /\ ijoined (Ri k) (Di k) s a1 b1).
Proof using All.
  intros k s (d, pos) x n r buf a1 J Hn Hk U. cbn [patch_file] in U.
  assert (HD : Di k (d, pos) x) by (destruct J as [[J _]|[_ J]]; exact J). destruct HD as (K & K0 & O & P & M & bytes & S & I). cbn [fst snd] in *. subst pos.
  destruct (Z.leb_spec (k + n) (zlen patch)); [|lia]. injection U as <- <- <-.
  unfold file_io_read. destruct (Z.ltb_spec 0 n); [|lia]. cbn [fs_stdio fread]. unfold fs_fread. pose proof I as (I1 & I2 & I3 & I4 & I5). rewrite I2.
  assert (Cp : contents x np = patch) by (unfold contents; rewrite I5 by auto; rewrite Fp; reflexivity). rewrite Cp. cbv zeta.
  destruct (Z.leb_spec (k + n) (zlen patch)); [|lia]. cbn [Z.eqb Pos.eqb]. do 3 eexists. split; [reflexivity|]. split; [|congruence]. intros _. split; [reflexivity|]. split; [reflexivity|].
  assert (HD : Di (k + n) (d, k + n) (fs_at x 2 np (k + n))).
  { unfold Di. cbn [fst snd]. split; [auto|]. split; [lia|]. split; [auto|]. split; [auto|]. split; [auto|]. exists bytes. split; [auto|]. eapply ist_patch. exact I. }
  destruct J as [[_ J]|[J _]]; [left; split; auto|right; auto].
Qed.

Lemma strict_codes : codes_ok E1.
Proof.
  unfold codes_ok. cbn [ip_env_with strict_flash_env flash_env_of mem_read mem_write mem_erase]. split; [|split].
  - intros (d, pos) a n. cbn [fst snd]. unfold strict_read, flash_read. destruct (existsb _ _); [cbn; lia|]. destruct (d_off d); [cbn; lia|]. destruct (negb _); [cbn; lia|].
    destruct (power_lost_now d); cbn; lia.
  - intros (d, pos) a data. cbn [fst snd]. unfold flash_write. destruct (d_off d); [cbn; lia|]. cbv zeta. destruct (negb _); [cbn; lia|]. destruct (power_lost_now d); cbn; lia.
  - intros (d, pos) a n. cbn [fst snd]. unfold flash_erase. destruct (d_off d); [cbn; lia|]. destruct (negb _); [cbn; lia|]. destruct (power_lost_now d); cbn; lia.
Qed.

Variable bytes : list Z.
Hypothesis Fm : file nm = Some bytes.
Hypothesis Hbytes : zlen bytes = size.

Lemma in_place_init_ok : patch <> [] -> zlen patch < 2 ^ word_bits ->
  exists x0, in_place_file_io_init fs_stdio (disk file) nm np = (inr (mkipio 1 2, zlen patch), x0) /\ ist x0 0 bytes.
Proof using All.
  intros Hne Hw. assert (Hpos : 0 < zlen patch) by (destruct patch; [congruence|rewrite zlen_cons; pose proof (zlen_nonneg l); lia]).
  unfold in_place_file_io_init. cbn [fs_stdio fopen fclose]. unfold fs_fopen. cbn [disk fs_file fs_open fs_next]. rewrite Fm. cbn [fs_file fs_open fs_next].
  rewrite Fp. change (1 + 1) with 2. change (2 + 1) with 3.
  match goal with |- context [file_size _ ?x 2] => set (x0 := x) end.
  assert (C : contents x0 np = patch) by (unfold contents, x0; cbn [fs_file]; rewrite Fp; reflexivity).
  destruct (size_ok x0 2 np 0) as (x1 & S1 & S2 & S3 & S4 & S5); [apply put_same|rewrite C; lia|]. rewrite S1. cbn [Z.eqb negb]. rewrite C.
  exists x1. split; [reflexivity|]. unfold ist. rewrite S2. split; [exists 0; rewrite S4 by lia; reflexivity|]. split; [exact S3|]. split.
  - intros h H1 H2. rewrite S4 by auto. unfold x0. cbn [fs_open]. rewrite !put_other by auto. reflexivity.
  - unfold x0. cbn [fs_file]. split; [exact Fm|auto].
Qed.

(** What the strict flash memory holds at the end is what the file holds. *)
Lemma in_place_files_agree : forall fuel junk v s d pos, patch <> [] -> zlen patch < 2 ^ word_bits -> 0 <= v ->
  apply_patch_in_place_callbacks (ip_env_with strict_flash_env Z) fuel junk (patch_file patch) (zlen patch) (new_device (map Some bytes), 0) = Ret (v, s, (d, pos)) ->
  exists x out, apply_patch_in_place_filenames fs_stdio fuel junk (disk file) nm np None None = Ret (v, x) /\
    fs_file x nm = Some out /\ shows out (d_mem d) /\ (forall n, n <> nm -> fs_file x n = file n) /\ (forall h, fs_open x h = None).
Proof using All.
  intros fuel junk v s d pos Hne Hw Hv U. destruct (in_place_init_ok Hne Hw) as (x0 & I0 & S0). unfold apply_patch_in_place_filenames. rewrite I0.
  unfold apply_patch_in_place_callbacks in *.
  edestruct (icallbacks_sim E1 E2 Ri Di True) with (PR1 := patch_file (W := dev) patch) (PR2 := file_io_read fs_stdio 2) (ps := zlen patch) (b := x0)
    as [[N _]|(x & k & D1 & D2)]; [| | | | | | | | |exact U| |].
  - intros k j a b [X _]. exact X.
  - exact iread_sim.
  - exact iwrite_sim.
  - exact ierase_sim.
  - exact inext_sim.
  - exact idone_sim.
  - intros _. exact strict_codes.
  - exact ipatch_sim.
  - left. split; [|reflexivity]. unfold Di. cbn [fst snd new_device d_off d_power d_mem]. split; [reflexivity|]. split; [lia|]. split; [reflexivity|]. split; [reflexivity|].
    split; [rewrite zlen_map; exact Hbytes|]. exists bytes. split; [apply shows_map|exact S0].
  - lia.
  - cbn [ip_patch_file]. match goal with |- context [obind ?m _] => replace m with (Ret (v, s, x)) by (symmetry; exact D1) end. cbn [obind].
    assert (HD : Di k (d, pos) x) by (destruct D2 as [[D2 _]|[_ D2]]; exact D2). destruct HD as (_ & _ & _ & _ & _ & out & S & (q & G1) & G2 & G3 & G4 & G5). cbn [fst snd] in S.
    unfold in_place_file_io_cleanup. cbn [ip_memory ip_patch_file fs_stdio fclose]. unfold fs_fclose at 1. rewrite G1.
    unfold fs_fclose. cbn [fs_open]. rewrite put_other by lia. rewrite G2. cbn [Z.eqb negb orb].
    destruct (Z.eqb_spec v 0); cbn [negb]; [subst v|]; (exists (mkfs (fs_file x) (put (put (fs_open x) 1 None) 2 None) (fs_next x)), out; split; [reflexivity|]; cbn [fs_file fs_open];
      split; [exact G4|]; split; [exact S|]; split; [exact G5|]; intros h; unfold put;
      destruct (Z.eqb_spec h 2); [reflexivity|]; destruct (Z.eqb_spec h 1); [reflexivity|]; apply G3; auto).
Qed.
End Files.

Lemma shows_holds : forall out mem to, shows out mem -> (forall x, 0 <= x < zlen to -> znth mem x = option_map Some (znth to x)) -> zlen to <= zlen mem -> ztake (zlen to) out = to.
Proof.
  intros out mem to [S1 S2] Hh Hl. pose proof (zlen_nonneg to). apply znth_ext; [rewrite zlen_ztake; lia|]. intros i Hi. rewrite zlen_ztake in Hi by lia.
  rewrite znth_ztake by lia. specialize (Hh i ltac:(lia)). destruct (znth to i) as [b|] eqn:T; cbn [option_map] in Hh; [apply S2; exact Hh|].
  exfalso. unfold znth in T. destruct (Z.ltb_spec i 0); [lia|]. apply nth_error_None in T. unfold zlen in *. lia.
Qed.
