(** The Python functions that take file names (C76). *)

From Coq Require Import ZArith List Bool Lia ZifyBool ZifyNat ZifyN.
From Verif Require Import Prelude Lib Spec BsdiffSpec PyCreate PyInPlace InPlaceSpec PyApply PySpec PyApplyInPlace PyBsdiff40 PyBsdiff40Spec PyInfo PyFiles PyThms PyMemThms PyMemCreate PyBsdiff40Thms.
Import ListNotations.
Open Scope Z_scope.

Lemma put_same : forall s n d, st_file (st_put s n d) n = Some d.
Proof. intros. cbn. rewrite Z.eqb_refl. reflexivity. Qed.

Lemma put_other : forall s n d m, m <> n -> st_file (st_put s n d) m = st_file s m.
Proof. intros. cbn. destruct (Z.eqb_spec m n); [contradiction|reflexivity]. Qed.

Lemma read_other : forall s n d m l, m <> n -> st_file s m = Some l -> st_read (st_put s n d) m = l.
Proof. intros s n d m l H F. unfold st_read. rewrite put_other, F by auto. reflexivity. Qed.

(** ** What all have in common *)

Section Common.
Context {A : Type} (run : list Z -> list Z -> pyo (A * list Z)) (written : list Z -> list Z -> list Z).

Lemma two_unopened : forall s n1 n2 n3, st_file s n1 = None \/ st_file s n2 = None \/ st_locked s n3 = true ->
  two_to_one run written s n1 n2 n3 = Ret (Raise OtherError, s).
Proof.
  intros s n1 n2 n3 H. unfold two_to_one. destruct (st_file s n1); [|reflexivity]. destruct (st_file s n2); [|reflexivity]. destruct (st_locked s n3); [reflexivity|].
  destruct H as [H|[H|H]]; discriminate.
Qed.

Lemma two_others : forall s n1 n2 n3 r s1, two_to_one run written s n1 n2 n3 = Ret (r, s1) -> forall n, n <> n3 -> st_file s1 n = st_file s n.
Proof.
  intros s n1 n2 n3 r s1 U n Hn. unfold two_to_one in U. destruct (st_file s n1); [|inversion U; subst; auto]. destruct (st_file s n2); [|inversion U; subst; auto].
  destruct (st_locked s n3); [inversion U; subst; auto|]. cbv zeta in U. destruct (run _ _) as [[[a d]|e]| |]; cbn [obind] in U; try discriminate; inversion U; subst; rewrite !put_other by auto; reflexivity.
Qed.

Lemma two_runs : forall s n1 n2 n3 l1 l2, st_file s n1 = Some l1 -> st_file s n2 = Some l2 -> st_locked s n3 = false -> n3 <> n1 -> n3 <> n2 ->
  (forall a d, run l1 l2 = ret (a, d) -> exists s1, two_to_one run written s n1 n2 n3 = Ret (Val a, s1) /\ st_file s1 n3 = Some d) /\
  (forall e, run l1 l2 = raise e -> exists s1, two_to_one run written s n1 n2 n3 = Ret (Raise e, s1) /\ st_file s1 n3 = Some (written l1 l2)).
Proof.
  intros s n1 n2 n3 l1 l2 F1 F2 L N1 N2. unfold two_to_one. rewrite F1, F2, L. cbv zeta. rewrite (read_other s n3 [] n1 l1), (read_other s n3 [] n2 l2) by auto.
  split; [intros a d R|intros e R]; rewrite R; cbn [obind ret raise]; (eexists; split; [reflexivity|apply put_same]).
Qed.

Lemma two_locked : forall s n1 n2 n3 r s1, two_to_one run written s n1 n2 n3 = Ret (r, s1) -> st_locked s1 = st_locked s.
Proof.
  intros s n1 n2 n3 r s1 U. unfold two_to_one in U. destruct (st_file s n1); [|inversion U; subst; auto]. destruct (st_file s n2); [|inversion U; subst; auto].
  destruct (st_locked s n3); [inversion U; subst; auto|]. cbv zeta in U. destruct (run _ _) as [[[a d]|e]| |]; cbn [obind] in U; try discriminate; inversion U; subst; reflexivity.
Qed.
End Common.

(** ** Round trips *)

Lemma files_round : forall create apply written1 written2 s nf nt np no from to (n : nat) size,
  (exists patch, create from to = ret patch /\ forall fuel, (n <= fuel)%nat -> apply fuel from patch = ret (size, to)) ->
  st_file s nf = Some from -> st_file s nt = Some to -> st_locked s np = false -> st_locked s no = false ->
  np <> nf -> np <> nt -> no <> nf -> no <> np ->
  exists s1, create_patch_filenames create written1 s nf nt np = Ret (Val tt, s1) /\ (forall m, m <> np -> st_file s1 m = st_file s m) /\
    forall fuel, (n <= fuel)%nat ->
    exists s2, two_to_one (A := Z) (fun from patch => apply fuel from patch) written2 s1 nf np no = Ret (Val size, s2) /\ st_file s2 no = Some to /\
      forall m, m <> no -> st_file s2 m = st_file s1 m.
Proof.
  intros create apply written1 written2 s nf nt np no from to n size (patch & C & Ap) F1 F2 L1 L2 D1 D2 D3 D4.
  destruct (two_runs (fun from to => dop patch := create from to in ret (tt, patch)) written1 s nf nt np from to F1 F2 L1 D1 D2) as [G _].
  destruct (G tt patch) as (s1 & U & P); [rewrite C; reflexivity|]. exists s1. split; [exact U|].
  assert (O : forall m, m <> np -> st_file s1 m = st_file s m) by (eapply two_others; exact U). split; [exact O|].
  intros fuel Hf. destruct (two_runs (fun from patch => apply fuel from patch) written2 s1 nf np no from patch) as [G2 _]; auto.
  - rewrite O by auto. exact F1.
  - erewrite two_locked by exact U. exact L2.
  - destruct (G2 size to (Ap fuel Hf)) as (s2 & U2 & P2). exists s2. split; [exact U2|]. split; [exact P2|]. eapply two_others. exact U2.
Qed.

Lemma sequential_files : forall X F hdiff c hs sa written1 written2 s nf nt np no from to,
  (forall l, array_ok (sa l) l) -> bytes_ok to -> zlen from < 2 ^ 30 -> zlen to < 2 ^ 30 ->
  (c = CompHeatshrink -> hs_reader_ok (x_heatshrink X) /\
     forall pieces, bytes_ok (concat pieces) -> py_stream CompHeatshrink (concat pieces) (hs pieces)) ->
  st_file s nf = Some from -> st_file s nt = Some to -> st_locked s np = false -> st_locked s no = false ->
  np <> nf -> np <> nt -> no <> nf -> no <> np ->
  exists s1, create_patch_filenames (fun from to => raising (create_sequential c hs (sa from) from to)) written1 s nf nt np = Ret (Val tt, s1) /\
    (forall m, m <> np -> st_file s1 m = st_file s m) /\
    exists n, forall fuel, (n <= fuel)%nat ->
    exists s2, apply_patch_filenames X F hdiff fuel written2 s1 nf np no = Ret (Val (zlen to), s2) /\ st_file s2 no = Some to /\
      forall m, m <> no -> st_file s2 m = st_file s1 m.
Proof.
  intros X F hdiff c hs sa written1 written2 s nf nt np no from to H1 H2 H3 H4 H5 F1 F2 L1 L2 D1 D2 D3 D4.
  destruct (py_round_trip X F hdiff false c hs (sa from) from to (H1 from) H2 H3 H4 H5) as (patch & C & n & N).
  destruct (files_round (fun from to => raising (create_sequential c hs (sa from) from to)) (fun fuel from patch => apply_patch X F hdiff fuel false from patch)
    written1 written2 s nf nt np no from to n (zlen to)) as (s1 & A & B & D); auto.
  { exists patch. split; [|exact N]. unfold raising. rewrite C. reflexivity. }
  exists s1. split; [exact A|]. split; [exact B|]. exists n. exact D.
Qed.

Lemma bsdiff_files : forall bz sa written1 written2 s nf nt np no from to,
  bz_lossless bz -> (forall pieces, zlen (bz_compress bz pieces) <= 2 * zlen (concat pieces) + 1000) ->
  (forall l, array_ok (sa l) l) -> bytes_ok to -> zlen from < 2 ^ 30 -> zlen to < 2 ^ 30 ->
  st_file s nf = Some from -> st_file s nt = Some to -> st_locked s np = false -> st_locked s no = false ->
  np <> nf -> np <> nt -> no <> nf -> no <> np ->
  exists s1, create_patch_filenames (fun from to => create_patch_bsdiff bz (sa from) from to) written1 s nf nt np = Ret (Val tt, s1) /\
    (forall m, m <> np -> st_file s1 m = st_file s m) /\
    exists n, forall fuel, (n <= fuel)%nat ->
    exists s2, apply_patch_bsdiff_filenames bz fuel written2 s1 nf np no = Ret (Val (zlen to), s2) /\ st_file s2 no = Some to /\
      forall m, m <> no -> st_file s2 m = st_file s1 m.
Proof.
  intros bz sa written1 written2 s nf nt np no from to H1 H2 H3 H4 H5 H6 F1 F2 L1 L2 D1 D2 D3 D4.
  destruct (bsdiff40_round_trip bz false (sa from) from to H1 H2 (H3 from) H4 H5 H6) as (patch & C & n & N).
  destruct (files_round (fun from to => create_patch_bsdiff bz (sa from) from to) (fun fuel from patch => apply_patch_bsdiff bz fuel false from patch)
    written1 written2 s nf nt np no from to n (zlen to)) as (s1 & A & B & D); auto.
  { exists patch. split; [exact C|exact N]. }
  exists s1. split; [exact A|]. split; [exact B|]. exists n. exact D.
Qed.

Lemma in_place_files : forall X c hs sa memory segment minimum_shift written1 written2 s nf nt np nm from to mem,
  (forall l, array_ok (sa l) l) -> bytes_ok to ->
  0 < segment < 2 ^ 63 -> (segment | memory) -> (segment | minimum_of segment minimum_shift) ->
  0 <= minimum_of segment minimum_shift <= memory -> memory < 2 ^ 30 -> zlen to <= memory -> zlen from < 2 ^ 63 ->
  memory <= zlen mem -> ztake (zlen from) mem = from ->
  (c = CompHeatshrink -> hs_reader_ok (x_heatshrink X) /\
     forall pieces, bytes_ok (concat pieces) -> py_stream CompHeatshrink (concat pieces) (hs pieces)) ->
  st_file s nf = Some from -> st_file s nt = Some to -> st_file s nm = Some mem -> st_locked s np = false -> st_locked s nm = false ->
  np <> nf -> np <> nt -> np <> nm ->
  exists s1, create_patch_filenames (fun from to => raising (create_in_place c hs sa memory segment minimum_shift from to)) written1 s nf nt np = Ret (Val tt, s1) /\
    (forall m, m <> np -> st_file s1 m = st_file s m) /\
    exists n, forall fuel, (n <= fuel)%nat ->
    exists s2 mem1, apply_patch_in_place_filenames X fuel written2 s1 nm np = Ret (Val (zlen to), s2) /\ st_file s2 nm = Some mem1 /\
      ztake (zlen to) mem1 = to /\ zdrop memory mem1 = zdrop memory mem /\ zlen mem1 = zlen mem /\
      forall m, m <> nm -> st_file s2 m = st_file s1 m.
Proof.
  intros X c hs sa memory segment minimum_shift written1 written2 s nf nt np nm from to mem H1 H2 H3 H4 H5 H6 H7 H8 H9 H10 H11 H12 F1 F2 F3 L1 L2 D1 D2 D3.
  destruct (py_in_place_round_trip X false c hs sa memory segment minimum_shift from to mem H1 H2 H3 H4 H5 H6 H7 H8 H9 H10 H11 H12) as (patch & C & n & N).
  destruct (two_runs (fun from to => dop patch := raising (create_in_place c hs sa memory segment minimum_shift from to) in ret (tt, patch)) written1 s nf nt np from to F1 F2 L1 D1 D2) as [G _].
  destruct (G tt patch) as (s1 & U & P); [unfold raising; rewrite C; reflexivity|]. exists s1. split; [exact U|].
  assert (O : forall m, m <> np -> st_file s1 m = st_file s m) by (eapply two_others; exact U). split; [exact O|].
  exists n. intros fuel Hf. destruct (N fuel Hf) as (mem1 & A1 & A2 & A3 & A4).
  unfold apply_patch_in_place_filenames. rewrite O, F3 by auto. erewrite two_locked by exact U. rewrite L2, P, A1. cbn [obind ret].
  do 2 eexists. split; [reflexivity|]. split; [apply put_same|]. split; [exact A2|]. split; [exact A3|]. split; [exact A4|]. intros m Hm. apply put_other. exact Hm.
Qed.

(** ** Failures *)

Lemma in_place_unopened : forall X fuel written s nm np, st_file s nm = None \/ st_locked s nm = true \/ st_file s np = None ->
  apply_patch_in_place_filenames X fuel written s nm np = Ret (Raise OtherError, s).
Proof.
  intros X fuel written s nm np H. unfold apply_patch_in_place_filenames. destruct (st_file s nm); [|reflexivity]. destruct (st_locked s nm); [reflexivity|].
  destruct (st_file s np); [|reflexivity]. destruct H as [H|[H|H]]; discriminate.
Qed.

Lemma in_place_others : forall X fuel written s nm np r s1, apply_patch_in_place_filenames X fuel written s nm np = Ret (r, s1) ->
  forall m, m <> nm -> st_file s1 m = st_file s m.
Proof.
  intros X fuel written s nm np r s1 U m Hm. unfold apply_patch_in_place_filenames in U. destruct (st_file s nm) as [mem|]; [|inversion U; subst; auto].
  destruct (st_locked s nm); [inversion U; subst; auto|]. destruct (st_file s np) as [patch|]; [|inversion U; subst; auto].
  destruct (apply_patch_in_place _ _ _ _ _) as [[[a d]|e]| |]; cbn [obind] in U; try discriminate; inversion U; subst; rewrite put_other by auto; reflexivity.
Qed.

Lemma info_reads : forall X DI HI fuel s np r s1, patch_info_filename X DI HI fuel s np = Ret (r, s1) -> s1 = s /\
  match st_file s np with Some patch => patch_info X DI HI fuel patch = Ret r | None => r = Raise OtherError end.
Proof.
  intros X DI HI fuel s np r s1 U. unfold patch_info_filename in U. destruct (st_file s np) as [patch|]; [|inversion U; auto].
  destruct (patch_info _ _ _ _ _) as [x| |]; cbn [obind] in U; try discriminate. inversion U; subst; auto.
Qed.

(** An error loses the to file; so does giving the patch file as to file. *)
Lemma failed_loses : forall X F hdiff fuel written s nf np nt from patch e,
  st_file s nf = Some from -> st_file s np = Some patch -> st_locked s nt = false -> nt <> nf -> nt <> np ->
  apply_patch X F hdiff fuel false from patch = raise e ->
  exists s1, apply_patch_filenames X F hdiff fuel written s nf np nt = Ret (Raise e, s1) /\ st_file s1 nt = Some (written from patch).
Proof.
  intros X F hdiff fuel written s nf np nt from patch e F1 F2 L N1 N2 R.
  destruct (two_runs (fun from patch => apply_patch X F hdiff fuel false from patch) written s nf np nt from patch F1 F2 L N1 N2) as [_ G].
  destruct (G e R) as (s1 & U & P). eauto.
Qed.

Lemma empty_loses : forall X F hdiff fuel written s nf np nt from old,
  (forall l, written l [] = []) ->
  st_file s nf = Some from -> st_file s np = Some [] -> st_file s nt = Some old -> st_locked s nt = false -> nt <> nf -> nt <> np ->
  exists s1, apply_patch_filenames X F hdiff fuel written s nf np nt = Ret (Raise DetoolsError, s1) /\ st_file s1 nt = Some [].
Proof.
  intros X F hdiff fuel written s nf np nt from old W F1 F2 F3 L N1 N2.
  destruct (failed_loses X F hdiff fuel written s nf np nt from [] DetoolsError F1 F2 L N1 N2 eq_refl) as (s1 & U & P). rewrite W in P. eauto.
Qed.

Lemma same_name : forall X F hdiff fuel written s nf np from patch,
  (forall l, written l [] = []) ->
  st_file s nf = Some from -> st_file s np = Some patch -> st_locked s np = false -> np <> nf ->
  exists s1, apply_patch_filenames X F hdiff fuel written s nf np np = Ret (Raise DetoolsError, s1) /\ st_file s1 np = Some [].
Proof.
  intros X F hdiff fuel written s nf np from patch W F1 F2 L N. unfold apply_patch_filenames, two_to_one. rewrite F1, F2, L. cbv zeta.
  assert (R : st_read (st_put s np []) np = []) by (unfold st_read; rewrite put_same; reflexivity). rewrite R. cbn [apply_patch obind raise]. rewrite W.
  eexists. split; [reflexivity|apply put_same].
Qed.
