(** Sequential patches of any content, applied with the callback and the file functions
    (C75). *)

From Coq Require Import ZArith List Bool Lia ZifyBool ZifyNat ZifyN.
From Verif Require Import Prelude Lib Heatshrink CReader SizeProofs CSeq CFile CFileSpec Spec SeqSpec SeqTerm SeqSim SeqApply RefuseSpec BodySpec BodyC BodyThms FitSpec FitProofs FitThms
  CallbackSpec CallbackProofs FileSim FileProofs.
Import ListNotations.
Open Scope Z_scope.

Section Back.
Context `{WordBits}.
Context {W : Type} (E : seq_env W).

(** The callback function feeds the patch in pieces, the other direction. *)
Lemma callbacks_pieces : forall patch k fuel po s w v s1 w1 pos, 0 <= po <= zlen patch -> zlen patch - po <= 512 * Z.of_nat k ->
  callbacks_loop (env_with E Z) fuel (patch_file patch) (zlen patch) po s (w, po) = Ret (v, s1, (w1, pos)) ->
  feed E fuel 128 s w (pieces k (zdrop po patch)) = Ret (v, s1, w1).
Proof.
  intros patch. induction k; intros fuel po s w v s1 w1 pos Hpo Hk F.
  - assert (po = zlen patch) by lia. subst po. cbn [pieces feed].
    destruct fuel; cbn [callbacks_loop] in F; destruct (Z.ltb_spec (zlen patch) (zlen patch)); try lia; cbn [negb] in F; rewrite finalize_hom in F;
      (destruct (finalize E _ _ _ _) as [[[a b] c]| |]; cbn [out3 obind] in F; congruence).
  - destruct (Z.eq_dec po (zlen patch)) as [->|Hne].
    + rewrite zdrop_all by lia. cbn [pieces feed].
      destruct fuel; cbn [callbacks_loop] in F; destruct (Z.ltb_spec (zlen patch) (zlen patch)); try lia; cbn [negb] in F; rewrite finalize_hom in F;
        (destruct (finalize E _ _ _ _) as [[[a b] c]| |]; cbn [out3 obind] in F; congruence).
    + set (m := Z.min (zlen patch - po) 512). assert (Hm : ztake 512 (zdrop po patch) = ztake m (zdrop po patch)).
      { assert (zlen (zdrop po patch) = zlen patch - po) by (rewrite zlen_zdrop; lia). unfold m. destruct (Z.min_spec (zlen patch - po) 512) as [(A & ->)|(A & ->)]; [|reflexivity].
        rewrite !ztake_all by lia. reflexivity. }
      assert (Hd : zdrop 512 (zdrop po patch) = zdrop (po + m) patch).
      { rewrite zdrop_zdrop by lia. unfold m. destruct (Z.min_spec (zlen patch - po) 512) as [(A & ->)|(A & ->)].
        - rewrite !zdrop_all by lia. reflexivity.
        - f_equal. lia. }
      assert (Hp : pieces (S k) (zdrop po patch) = ztake m (zdrop po patch) :: pieces k (zdrop (po + m) patch)).
      { rewrite <- Hd, <- Hm. cbn [pieces]. destruct (zdrop po patch) eqn:Z0; [|reflexivity].
        exfalso. assert (zlen (zdrop po patch) = 0) by (rewrite Z0; reflexivity). rewrite zlen_zdrop in * by lia. lia. }
      rewrite Hp. destruct fuel as [|f]; cbn [callbacks_loop] in F; destruct (Z.ltb_spec po (zlen patch)); try lia; cbn [negb] in F; [discriminate|].
      cbv zeta in F. fold m in F. unfold patch_file at 1 in F. destruct (Z.leb_spec (po + m) (zlen patch)); [|lia]. change (negb (0 =? 0)) with false in F. cbv iota in F.
      replace (zlen (ztake m (zdrop po patch))) with m in F by (rewrite zlen_ztake, zlen_zdrop by lia; lia). rewrite Z.eqb_refl in F. cbn [negb] in F.
      rewrite process_hom in F. cbn [feed].
      destruct (process E (S f) 128 s w (ztake m (zdrop po patch))) as [[[res s2] w2]| |] eqn:P; cbn [out3 obind] in *; [|discriminate|discriminate].
      destruct (res =? 0).
      * eapply feed_mono; [eapply IHk; [| |exact F]; lia|discriminate|lia].
      * rewrite finalize_hom in F. destruct (finalize E (S f) 128 s2 w2) as [[[r2 s3] w3]| |]; cbn [out3 obind] in *; congruence.
Qed.
End Back.

Section Files.
Context `{WordBits}.
Variables from patch : list Z.
Variable file : Z -> option (list Z).
Variables nf np nt : Z.
Hypothesis Ff : file nf = Some from.
Hypothesis Fp : file np = Some patch.
Hypothesis Df : nt <> nf.
Hypothesis Dp : nt <> np.

Lemma files_back : forall fuel junk v d, patch <> [] -> zlen patch < 2 ^ word_bits ->
  apply_patch_filenames fs_stdio fuel junk (disk file) nf np nt = Ret (v, d) ->
  exists s w pos, apply_patch_callbacks (env_with file_env Z) fuel junk (patch_file patch) (zlen patch) (mkfiles from 0 [], 0) = Ret (v, s, (w, pos)) /\
    fs_file d nt = Some (f_to w) /\ (forall n, n <> nt -> fs_file d n = file n) /\ (forall h, fs_open d h = None).
Proof.
  intros fuel junk v d Hne Hw U.
  assert (G : exists res s a, apply_patch_callbacks (env_with file_env Z) fuel junk (patch_file patch) (zlen patch) (mkfiles from 0 [], 0) = Ret (res, s, a)).
  { destruct (init_ok from patch file nf np nt Ff Fp Df Dp Hne Hw) as (x0 & I0 & S0). unfold apply_patch_filenames in U. rewrite I0 in U.
    destruct (apply_patch_callbacks _ _ _ _ _ _) as [[[res s] w2]| |] eqn:CB; cbn [obind] in U; try discriminate. clear U.
    unfold apply_patch_callbacks in *.
    edestruct (callbacks_sim (file_io_env fs_stdio io) (env_with file_env Z) (fun k a b => Rf from file nf np nt k b a) (fun k a b => Qf file nf np nt k b a))
      with (PR2 := patch_file (W:=files) patch) (PR1 := file_io_read fs_stdio (io_patch io)) (ps := zlen patch) (b := (mkfiles from 0 [], 0))
      as (b1 & k & D1 & D2); [| | | | | |exact CB|].
    - intros k b (a, p) (K & K0 & P & FF & S). unfold Qf. eauto.
    - intros k a b n r buf a1 R Hn X. destruct (from_read (env_with file_env Z) b n) as [[r2 buf2] b1] eqn:Y.
      destruct (read_sim from patch file nf np nt Ff Fp Df Dp _ _ _ _ _ _ _ R Hn Y) as (buf3 & b3 & Z1 & Z2 & Z3). rewrite X in Z1. injection Z1 as -> -> ->.
      do 2 eexists. split; [reflexivity|]. split; [intros Q; destruct (Z2 Q); auto|auto].
    - intros k a b off r a1 R X. destruct (from_seek (env_with file_env Z) b off) as [r2 b1] eqn:Y.
      destruct (seek_sim from patch file nf np nt Ff Fp Df Dp _ _ _ _ _ _ R Y) as (r3 & b3 & Z1 & Z2 & Z3). rewrite X in Z1. injection Z1 as -> ->.
      do 2 eexists. split; [reflexivity|]. destruct (Z.eq_dec r2 0) as [Q|Q]; [destruct (Z2 Q)|destruct (Z3 Q)]; split; intros; try contradiction; auto.
    - intros k a b data r a1 R X. destruct (to_write (env_with file_env Z) b data) as [r2 b1] eqn:Y.
      destruct (write_sim from patch file nf np nt Ff Fp Df Dp _ _ _ _ _ _ R Y) as (r3 & b3 & Z1 & Z2 & Z3). rewrite X in Z1. injection Z1 as -> ->.
      do 2 eexists. split; [reflexivity|]. destruct (Z.eq_dec r2 0) as [Q|Q]; [destruct (Z2 Q)|destruct (Z3 Q)]; split; intros; try contradiction; auto.
    - intros k s' a b n r buf a1 R Hn Hk X. destruct (patch_file patch b n) as [[r2 buf2] b1] eqn:Y.
      destruct (patch_sim from patch file nf np nt Ff Fp Df Dp _ _ _ _ _ _ _ _ R Hn Hk Y) as (r3 & buf3 & b3 & Z1 & Z2 & Z3). change (io_patch io) with 3 in X. rewrite X in Z1. injection Z1 as -> -> ->.
      do 3 eexists. split; [reflexivity|]. destruct (Z.eq_dec r2 0) as [Q|Q]; [destruct (Z2 Q) as (? & ? & ?)|destruct (Z3 Q)]; split; intros; try contradiction; auto.
    - left. unfold Rf. cbn [fst snd f_pos f_to f_from]. split; [reflexivity|]. split; [lia|]. split; [lia|]. split; [reflexivity|exact S0].
    - eauto. }
  destruct G as (res & s & (w & pos) & G).
  destruct (files_agree from patch file nf np nt Ff Fp Df Dp fuel junk res s w pos Hne Hw G) as (d' & D1 & D2). rewrite U in D1. injection D1 as -> ->. eauto.
Qed.
End Files.
