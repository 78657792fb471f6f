(** The file functions on a file system in which nothing goes wrong. *)

From Coq Require Import ZArith List Bool Lia ZifyBool ZifyNat ZifyN String.
From Verif Require Import Prelude Lib Heatshrink CReader CSeq CFile CFileSpec CallbackSpec FileSim.
Import ListNotations.
Open Scope Z_scope.

Lemma put_same : forall {A} (f : Z -> A) k v, put f k v k = v.
Proof. intros. unfold put. rewrite Z.eqb_refl. reflexivity. Qed.
Lemma put_other : forall {A} (f : Z -> A) k v x, x <> k -> put f k v x = f x.
Proof. intros. unfold put. destruct (Z.eqb_spec x k); [lia|reflexivity]. Qed.

Lemma overwrite_end : forall c data, overwrite c (zlen c) data = c ++ data.
Proof.
  intros c data. unfold overwrite. pose proof (zlen_nonneg data). rewrite ztake_all by lia. replace (zlen c - zlen c) with 0 by lia. change (zrepeat 0 0) with (@nil Z).
  rewrite (zdrop_all (zlen c + zlen data)) by lia. cbn [app]. rewrite app_nil_r. reflexivity.
Qed.

Section Files.
Context `{WordBits}.
Variables from patch : list Z.
Variable file : Z -> option (list Z).
Variables nf np nt : Z.
Hypothesis Ff : file nf = Some from.
Hypothesis Fp : file np = Some patch.
Hypothesis Df : nt <> nf.
Hypothesis Dp : nt <> np.

Definition st (x : fs) (p1 p2 p3 : Z) (out : list Z) : Prop :=
  fs_open x 1 = Some (nf, p1) /\ fs_open x 2 = Some (nt, p2) /\ fs_open x 3 = Some (np, p3) /\
  (forall h, h <> 1 -> h <> 2 -> h <> 3 -> fs_open x h = None) /\
  fs_file x nt = Some out /\ forall n, n <> nt -> fs_file x n = file n.

Definition Rf (k : Z) (a : files * Z) (x : fs) : Prop :=
  k = snd a /\ 0 <= k /\ 0 <= f_pos (fst a) /\ f_from (fst a) = from /\ st x (f_pos (fst a)) (zlen (f_to (fst a))) k (f_to (fst a)).
Definition Qf (k : Z) (a : files * Z) (x : fs) : Prop :=
  k = snd a /\ 0 <= k /\ exists p1, st x p1 (zlen (f_to (fst a))) k (f_to (fst a)).

Definition io := mkio 1 3 2.

Lemma st_from : forall x p1 p2 p3 out q, st x p1 p2 p3 out -> st (fs_at x 1 nf q) q p2 p3 out.
Proof.
  intros x p1 p2 p3 out q (A & B & C & D & E & G). unfold st, fs_at. cbn [fs_open fs_file].
  split; [apply put_same|]. split; [rewrite put_other by lia; auto|]. split; [rewrite put_other by lia; auto|]. split; [|auto]. intros h H1 H2 H3. rewrite put_other by lia. auto.
Qed.

Lemma st_patch : forall x p1 p2 p3 out q, st x p1 p2 p3 out -> st (fs_at x 3 np q) p1 p2 q out.
Proof.
  intros x p1 p2 p3 out q (A & B & C & D & E & G). unfold st, fs_at. cbn [fs_open fs_file].
  split; [rewrite put_other by lia; auto|]. split; [rewrite put_other by lia; auto|]. split; [apply put_same|]. split; [|auto]. intros h H1 H2 H3. rewrite put_other by lia. auto.
Qed.

Lemma st_files : forall x p1 p2 p3 out, st x p1 p2 p3 out -> contents x nf = from /\ contents x np = patch /\ contents x nt = out.
Proof using All.
  intros x p1 p2 p3 out (A & B & C & D & E & G). unfold contents. rewrite (G nf), (G np), Ff, Fp, E by auto. auto.
Qed.

Lemma read_sim : forall k a b n r buf a1, Rf k a b -> 0 <= n -> from_read (env_with file_env Z) a n = (r, buf, a1) ->
  exists buf2 b1, from_read (file_io_env fs_stdio io) b n = (r, buf2, b1) /\ (r = 0 -> buf2 = buf /\ Rf k a1 b1) /\ (r <> 0 -> Qf k a1 b1).
Proof using All.
  intros k (w, pos) x n r buf a1 (K & K0 & P & FF & S) Hn U. cbn [fst snd] in *. cbn [env_with from_read file_env fst snd] in U. unfold file_read in U.
  cbn [file_io_env from_read io io_from]. unfold file_io_read. destruct (Z.eqb_spec n 0) as [->|N].
  - injection U as <- <- <-. change (0 <? 0) with false. cbv iota. exists [], x. split; [reflexivity|]. split; [|congruence]. intros _. split; [reflexivity|]. unfold Rf. cbn [fst snd]. auto.
  - destruct (Z.ltb_spec 0 n); [|lia]. cbn [fs_stdio fread]. unfold fs_fread. destruct (st_files _ _ _ _ _ S) as (C1 & C2 & C3). rewrite (proj1 S), C1. cbv zeta.
    rewrite FF in U. destruct (Z.leb_spec (f_pos w + n) (zlen from)); cbn [andb] in U.
    + replace (0 <=? f_pos w) with true in U by lia. cbn [andb] in U. injection U as <- <- <-. cbn [Z.eqb Pos.eqb]. do 2 eexists. split; [reflexivity|]. split; [|congruence].
      intros _. split; [reflexivity|]. unfold Rf. cbn [fst snd f_pos f_from f_to]. split; [auto|]. split; [auto|]. split; [lia|]. split; [auto|]. eapply st_from. exact S.
    + rewrite andb_false_r in U. injection U as <- <- <-. change (0 =? 1) with false. cbv iota. do 2 eexists. split; [reflexivity|]. split; [discriminate|].
      intros _. unfold Qf. cbn [fst snd]. split; [auto|]. split; [auto|]. eexists. eapply st_from. exact S.
Qed.

Lemma seek_sim : forall k a b off r a1, Rf k a b -> from_seek (env_with file_env Z) a off = (r, a1) ->
  exists r2 b1, from_seek (file_io_env fs_stdio io) b off = (r2, b1) /\ (r = 0 -> r2 = 0 /\ Rf k a1 b1) /\ (r <> 0 -> r2 <> 0 /\ Qf k a1 b1).
Proof using All.
  intros k (w, pos) x off r a1 (K & K0 & P & FF & S) U. cbn [fst snd] in *. cbn [env_with from_seek file_env fst snd] in U. unfold file_seek in U.
  cbn [file_io_env from_seek io io_from]. unfold file_io_from_seek. cbn [fs_stdio fseek]. unfold fs_fseek. rewrite (proj1 S). cbv zeta.
  destruct (Z.ltb_spec (f_pos w + off) 0); injection U as <- <-.
  - exists (-1), x. split; [reflexivity|]. split; [discriminate|]. intros _. split; [discriminate|]. unfold Qf. cbn [fst snd]. eauto.
  - do 2 eexists. split; [reflexivity|]. split; [|congruence]. intros _. split; [reflexivity|]. unfold Rf. cbn [fst snd f_pos f_from f_to].
    split; [auto|]. split; [auto|]. split; [lia|]. split; [auto|]. eapply st_from. exact S.
Qed.

Lemma write_sim : forall k a b data r a1, Rf k a b -> to_write (env_with file_env Z) a data = (r, a1) ->
  exists r2 b1, to_write (file_io_env fs_stdio io) b data = (r2, b1) /\ (r = 0 -> r2 = 0 /\ Rf k a1 b1) /\ (r <> 0 -> r2 <> 0 /\ Qf k a1 b1).
Proof using All.
  intros k (w, pos) x data r a1 (K & K0 & P & FF & S) U. cbn [fst snd] in *. cbn [env_with to_write file_env file_write fst snd] in U. injection U as <- <-.
  cbn [file_io_env to_write io io_to]. unfold file_io_to_write. pose proof (zlen_nonneg data). destruct (Z.ltb_spec 0 (zlen data)).
  - cbn [fs_stdio fwrite]. unfold fs_fwrite. pose proof S as (S1 & S2 & S3 & S4 & S5 & S6). rewrite S2. destruct (st_files _ _ _ _ _ S) as (C1 & C2 & ->). cbn [Z.eqb Pos.eqb].
    do 2 eexists. split; [reflexivity|]. split; [|congruence]. intros _. split; [reflexivity|]. unfold Rf. cbn [fst snd f_pos f_from f_to].
    split; [auto|]. split; [auto|]. split; [auto|]. split; [auto|]. unfold st. cbn [fs_open fs_file]. rewrite overwrite_end, zlen_app.
    split; [rewrite put_other by lia; auto|]. split; [apply put_same|]. split; [rewrite put_other by lia; auto|]. split; [intros; rewrite put_other by lia; auto|].
    split; [apply put_same|]. intros. rewrite put_other by lia. auto.
  - assert (data = []) by (apply zlen_0_nil; lia). subst data. exists 0, x. split; [reflexivity|]. split; [|congruence]. intros _. split; [reflexivity|].
    unfold Rf. cbn [fst snd f_pos f_from f_to]. rewrite app_nil_r. auto.
Qed.

Lemma patch_sim : forall k s a b n r buf a1, joined (Rf k) (Qf k) s a b -> 0 < n -> k + n <= zlen patch -> patch_file patch a n = (r, buf, a1) ->
  exists r2 buf2 b1, file_io_read fs_stdio 3 b n = (r2, buf2, b1) /\ (r = 0 -> r2 = 0 /\ buf2 = buf /\ joined (Rf (k + n)) (Qf (k + n)) s a1 b1) /\
    (r <> 0 -> r2 <> 0 /\ joined (Rf k) (Qf k) s a1 b1).
Proof using All.
  intros k s (w, pos) x n r buf a1 J Hn Hk U. cbn [patch_file] in U.
  assert (K : k = pos /\ 0 <= k /\ exists p1, st x p1 (zlen (f_to w)) k (f_to w)) by (destruct J as [(A & B & _ & _ & C)|(_ & A & B & C)]; cbn [fst snd] in *; eauto).
  destruct K as (<- & K0 & p1 & S). destruct (Z.leb_spec (k + n) (zlen patch)); [|lia]. injection U as <- <- <-.
  unfold file_io_read. destruct (Z.ltb_spec 0 n); [|lia]. cbn [fs_stdio fread]. unfold fs_fread. destruct (st_files _ _ _ _ _ S) as (C1 & C2 & C3).
  rewrite (proj1 (proj2 (proj2 S))), C2. cbv zeta. destruct (Z.leb_spec (k + n) (zlen patch)); [|lia]. cbn [Z.eqb Pos.eqb].
  do 3 eexists. split; [reflexivity|]. split; [|congruence]. intros _. split; [reflexivity|]. split; [reflexivity|].
  destruct J as [(A & B & C & D & G)|(E & A & B & q & G)]; cbn [fst snd] in *; [left|right; split; [auto|]].
  - unfold Rf. cbn [fst snd]. split; [auto|]. split; [lia|]. split; [auto|]. split; [auto|]. eapply st_patch. exact G.
  - unfold Qf. cbn [fst snd]. split; [auto|]. split; [lia|]. eexists. eapply st_patch. exact G.
Qed.

Lemma size_ok : forall x f name pos, fs_open x f = Some (name, pos) -> 0 < zlen (contents x name) < 2 ^ word_bits ->
  exists x1, file_size fs_stdio x f = (0, zlen (contents x name), x1) /\ fs_file x1 = fs_file x /\ fs_open x1 f = Some (name, 0) /\
    (forall h, h <> f -> fs_open x1 h = fs_open x h) /\ fs_next x1 = fs_next x.
Proof.
  intros x f name pos O L. unfold file_size. cbn [fs_stdio fseek ftell]. unfold fs_fseek at 1. rewrite O. cbv zeta.
  replace (zlen (contents x name) + 0 <? 0) with false by lia. cbn [Z.eqb negb]. unfold fs_ftell. cbn [fs_at fs_open]. rewrite put_same. rewrite Z.add_0_r.
  destruct (Z.leb_spec (zlen (contents x name)) 0); [lia|]. unfold fs_fseek. cbn [fs_at fs_open]. rewrite put_same. cbn [Z.add Z.ltb Z.compare Z.eqb negb].
  unfold wrap. rewrite Z.mod_small by lia. eexists. split; [reflexivity|]. unfold fs_at. cbn [fs_file fs_open fs_next].
  split; [reflexivity|]. split; [apply put_same|]. split; [|reflexivity]. intros h Hh. rewrite !put_other by auto. reflexivity.
Qed.

Lemma init_ok : patch <> [] -> zlen patch < 2 ^ word_bits ->
  exists x0, file_io_init fs_stdio (disk file) nf np nt = (inr (io, zlen patch), x0) /\ st x0 0 0 0 [].
Proof using All.
  intros Hne Hw. assert (Hpos : 0 < zlen patch) by (destruct patch; [congruence|rewrite zlen_cons; pose proof (zlen_nonneg l); lia]).
  unfold file_io_init. cbn [fs_stdio fopen fclose]. unfold fs_fopen. cbn [disk fs_file fs_open fs_next]. rewrite Ff. cbn [fs_file fs_open fs_next].
  rewrite (put_other (A:=option (list Z))) by auto. rewrite Fp. change (1 + 1) with 2. change (2 + 1) with 3. change (3 + 1) with 4.
  match goal with |- context [file_size _ ?x 3] => set (x0 := x) end.
  assert (C : contents x0 np = patch) by (unfold contents, x0; cbn [fs_file]; rewrite (put_other (A:=option (list Z))) by auto; rewrite Fp; reflexivity).
  destruct (size_ok x0 3 np 0) as (x1 & S1 & S2 & S3 & S4 & S5); [apply put_same|rewrite C; lia|]. rewrite S1. cbn [Z.eqb negb]. rewrite C.
  exists x1. split; [reflexivity|]. unfold st. rewrite S2. split; [rewrite S4 by lia; reflexivity|]. split; [rewrite S4 by lia; reflexivity|]. split; [exact S3|]. split.
  - intros h H1 H2 H3. rewrite S4 by auto. unfold x0. cbn [fs_open]. rewrite !put_other by auto. reflexivity.
  - unfold x0. cbn [fs_file]. split; [apply put_same|]. intros n Hn. rewrite put_other by auto. reflexivity.
Qed.

Lemma files_agree : forall fuel junk v s w pos, patch <> [] -> zlen patch < 2 ^ word_bits ->
  apply_patch_callbacks (env_with file_env Z) fuel junk (patch_file patch) (zlen patch) (mkfiles from 0 [], 0) = Ret (v, s, (w, pos)) ->
  exists d, apply_patch_filenames fs_stdio fuel junk (disk file) nf np nt = Ret (v, d) /\
    fs_file d nt = Some (f_to w) /\ (forall n, n <> nt -> fs_file d n = file n) /\ (forall h, fs_open d h = None).
Proof using All.
  intros fuel junk v s w pos Hne Hw U. assert (Hpos : 0 < zlen patch) by (destruct patch; [congruence|rewrite zlen_cons; pose proof (zlen_nonneg l); lia]).
  destruct (init_ok Hne Hw) as (x0 & I0 & S0). unfold apply_patch_filenames. rewrite I0.
  unfold apply_patch_callbacks in *.
  edestruct (callbacks_sim (env_with file_env Z) (file_io_env fs_stdio io) Rf Qf) with (PR1 := patch_file (W:=files) patch) (PR2 := file_io_read fs_stdio 3) (ps := zlen patch) (b := x0)
    as (d & k & D1 & D2); [| | | | | |exact U|].
  - intros k (a, p) b (K & K0 & P & FF & S). unfold Qf. eauto.
  - exact read_sim.
  - exact seek_sim.
  - exact write_sim.
  - exact patch_sim.
  - left. unfold Rf. cbn [fst snd f_pos f_to f_from]. split; [reflexivity|]. split; [lia|]. split; [lia|]. split; [reflexivity|exact S0].
  - change (io_patch io) with 3. match goal with |- context [obind ?m _] => replace m with (Ret (v, s, d)) by (symmetry; exact D1) end. cbn [obind].
    assert (G : exists p1, st d p1 (zlen (f_to w)) k (f_to w)) by (destruct D2 as [(_ & _ & _ & _ & ?)|(_ & _ & _ & ? & ?)]; cbn [fst snd] in *; eauto).
    destruct G as (p1 & G1 & G2 & G3 & G4 & G5 & G6). unfold file_io_cleanup. cbn [io io_from io_to io_patch fs_stdio fclose]. unfold fs_fclose at 1. rewrite G1.
    unfold fs_fclose at 1. cbn [fs_open]. rewrite put_other by lia. rewrite G2. unfold fs_fclose. cbn [fs_open]. rewrite !put_other by lia. rewrite G3. cbn [Z.eqb negb orb].
    destruct (Z.eqb_spec v 0); cbn [negb]; [subst v|]; (eexists; split; [reflexivity|]; cbn [fs_file fs_open]; split; [auto|]; split; [auto|]; intros h; unfold put;
      destruct (Z.eqb_spec h 3); [reflexivity|]; destruct (Z.eqb_spec h 2); [reflexivity|]; destruct (Z.eqb_spec h 1); [reflexivity|]; apply G4; auto).
Qed.
End Files.
