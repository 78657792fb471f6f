(** The Python functions that take file names, with the compressions of other packages
    and with patches of any content. *)

From Coq Require Import ZArith List Bool Lia ZifyBool ZifyNat ZifyN.
From Verif Require Import Prelude Lib Spec SeqSpec Bsdiff BsdiffSpec PyCreate PyInPlace InPlaceSpec PyApply PySpec PyApplyInPlace PyBsdiff40 PyBsdiff40Spec PyFiles PyFilesProofs.
From Verif Require Import PyOther PyOtherSpec PyOtherProofs RefuseSpec BodySpec LooseSpec LooseThms PyAnySpec IpLooseSpec IpLooseThms Bs40Spec Bs40Proofs.
Import ListNotations.
Open Scope Z_scope.

(** ** Other compressions *)

Lemma other_files : forall X F hdiff number compress sa written1 written2 s nf nt np no from to,
  other_number number -> pair_ok compress (x_other X number) -> (forall l, array_ok (sa l) l) -> bytes_ok to -> zlen from < 2 ^ 30 -> zlen to < 2 ^ 30 ->
  st_file s nf = Some from -> st_file s nt = Some to -> st_locked s np = false -> st_locked s no = false ->
  np <> nf -> np <> nt -> no <> nf -> no <> np ->
  exists s1, create_patch_filenames (fun from to => raising (create_sequential_with number compress (sa from) from to)) written1 s nf nt np = Ret (Val tt, s1) /\
    (forall m, m <> np -> st_file s1 m = st_file s m) /\
    exists n, forall fuel, (n <= fuel)%nat ->
    exists s2, apply_patch_filenames X F hdiff fuel written2 s1 nf np no = Ret (Val (zlen to), s2) /\ st_file s2 no = Some to /\
      forall m, m <> no -> st_file s2 m = st_file s1 m.
Proof.
  intros X F hdiff number compress sa written1 written2 s nf nt np no from to Ho Hp H1 H2 H3 H4 F1 F2 L1 L2 D1 D2 D3 D4.
  destruct (other_round_trip X F hdiff false number compress (sa from) from to Ho Hp (H1 from) H2 H3 H4) as (patch & C & n & N).
  destruct (files_round (fun from to => raising (create_sequential_with number compress (sa from) from to)) (fun fuel from patch => apply_patch X F hdiff fuel false from patch)
    written1 written2 s nf nt np no from to n (zlen to)) as (s1 & A & B & D); auto.
  { exists patch. split; [|exact N]. unfold raising. rewrite C. reflexivity. }
  exists s1. split; [exact A|]. split; [exact B|]. exists n. exact D.
Qed.

Lemma other_in_place_files : forall X number compress sa memory segment minimum_shift written1 written2 s nf nt np nm from to mem,
  other_number number -> pair_ok compress (x_other X number) -> (forall l, array_ok (sa l) l) -> bytes_ok to ->
  0 < segment < 2 ^ 63 -> (segment | memory) -> (segment | minimum_of segment minimum_shift) ->
  0 <= minimum_of segment minimum_shift <= memory -> memory < 2 ^ 30 -> zlen to <= memory -> zlen from < 2 ^ 63 ->
  memory <= zlen mem -> ztake (zlen from) mem = from ->
  st_file s nf = Some from -> st_file s nt = Some to -> st_file s nm = Some mem -> st_locked s np = false -> st_locked s nm = false ->
  np <> nf -> np <> nt -> np <> nm ->
  exists s1, create_patch_filenames (fun from to => raising (create_in_place_with number compress sa memory segment minimum_shift from to)) written1 s nf nt np = Ret (Val tt, s1) /\
    (forall m, m <> np -> st_file s1 m = st_file s m) /\
    exists n, forall fuel, (n <= fuel)%nat ->
    exists s2 mem1, apply_patch_in_place_filenames X fuel written2 s1 nm np = Ret (Val (zlen to), s2) /\ st_file s2 nm = Some mem1 /\
      ztake (zlen to) mem1 = to /\ zdrop memory mem1 = zdrop memory mem /\ zlen mem1 = zlen mem /\
      forall m, m <> nm -> st_file s2 m = st_file s1 m.
Proof.
  intros X number compress sa memory segment minimum_shift written1 written2 s nf nt np nm from to mem Ho Hp H1 H2 H3 H4 H5 H6 H7 H8 H9 H10 H11 F1 F2 F3 L1 L2 D1 D2 D3.
  destruct (other_in_place X false number compress sa memory segment minimum_shift from to mem Ho H1 H2 H3 H4 H5 H6 H7 H8 H9 H10 H11 Hp) as (patch & C & n & N).
  destruct (two_runs (fun from to => dop patch := raising (create_in_place_with number compress sa memory segment minimum_shift from to) in ret (tt, patch)) written1 s nf nt np from to F1 F2 L1 D1 D2) as [G _].
  destruct (G tt patch) as (s1 & U & P); [unfold raising; rewrite C; reflexivity|]. exists s1. split; [exact U|].
  assert (O : forall m, m <> np -> st_file s1 m = st_file s m) by (eapply two_others; exact U). split; [exact O|].
  exists n. intros fuel Hf. destruct (N fuel Hf) as (mem1 & A1 & A2 & A3 & A4).
  unfold apply_patch_in_place_filenames. rewrite O, F3 by auto. erewrite two_locked by exact U. rewrite L2, P, A1. cbn [obind ret].
  do 2 eexists. split; [reflexivity|]. split; [apply put_same|]. split; [exact A2|]. split; [exact A3|]. split; [exact A4|]. intros m Hm. apply put_other. exact Hm.
Qed.

(** ** Patches of any content *)

Lemma plain_exact_files : forall X F hdiff written s nf np no from patch,
  st_file s nf = Some from -> st_file s np = Some patch -> st_locked s no = false -> no <> nf -> no <> np ->
  bytes_ok patch -> patch_type (hd 0 patch) = 0 -> announced_comp patch = 0 ->
  (forall n body d l, dec_size (tl patch) = Some (n, body) -> dec_size body = Some (d, l) -> d <= 0) ->
  exists m, forall fuel, (m <= fuel)%nat ->
  match loose_patch false from patch with
  | Some (n, to) => exists s1, apply_patch_filenames X F hdiff fuel written s nf np no = Ret (Val n, s1) /\ st_file s1 no = Some to
  | None => exists e s1, apply_patch_filenames X F hdiff fuel written s nf np no = Ret (Raise e, s1) /\ st_file s1 no = Some (written from patch)
  end.
Proof.
  intros X F hdiff written s nf np no from patch F1 F2 L D1 D2 H1 H2 H3 H4.
  destruct (py_exact_plain X F hdiff false from patch H1 H2 H3 H4) as (m & M). exists m. intros fuel Hf. specialize (M fuel Hf).
  destruct (two_runs (fun from patch => apply_patch X F hdiff fuel false from patch) written s nf np no from patch F1 F2 L D1 D2) as [G1 G2].
  destruct (loose_patch false from patch) as [[n to]|].
  - exact (G1 n to M).
  - destruct M as (e & M). exists e. exact (G2 e M).
Qed.

Lemma in_place_exact_files : forall X written s nm np mem patch z stream body c,
  st_file s nm = Some mem -> st_file s np = Some patch -> st_locked s nm = false ->
  bytes_ok patch -> patch_type (hd 0 patch) = 1 -> announced_comp patch = comp_number c -> in_place_header patch = Some (z, stream) -> fitting z (zlen mem) ->
  compressed c body stream -> bytes_ok body -> body <> [] -> (c = CompHeatshrink -> hs_reader_ok (x_heatshrink X)) ->
  exists m, forall fuel, (m <= fuel)%nat ->
  match body_means z mem body with
  | Means to [] => exists s1, apply_patch_in_place_filenames X fuel written s nm np = Ret (Val (is_to z), s1) /\
      st_file s1 nm = Some (to ++ zdrop (zlen to) (moved z mem))
  | Means _ _ | Bad => exists e s1, apply_patch_in_place_filenames X fuel written s nm np = Ret (Raise e, s1) /\ st_file s1 nm = Some (written mem patch)
  | Stale => True
  end.
Proof.
  intros X written s nm np mem patch z stream body c F1 F2 L H1 H2 H3 H4 H5 H6 H7 H8 H9.
  destruct (in_place_exact X false mem patch z stream body c H1 H2 H3 H4 H5 H6 H7 H8 H9) as (m & M). exists m. intros fuel Hf. specialize (M fuel Hf).
  unfold apply_patch_in_place_filenames. rewrite F1, L, F2.
  destruct (body_means z mem body) as [to [|x rest]| |]; [| | |exact I]; [rewrite M|destruct M as (e & M); rewrite M|destruct M as (e & M); rewrite M];
    cbn [obind ret raise]; repeat eexists; apply put_same.
Qed.

Lemma bsdiff_exact_files : forall bz R, bz_ok bz R -> forall written s nf np no from n c d e ctrl diff extra,
  st_file s nf = Some from -> st_file s np = Some (bsdiff40 n ctrl diff extra) -> st_locked s no = false -> no <> nf -> no <> np ->
  bz_stream bz R c ctrl -> bz_stream bz R d diff -> bz_stream bz R e extra -> bytes_ok c ->
  zlen ctrl < 2 ^ 63 -> zlen diff < 2 ^ 63 -> - 2 ^ 63 < n < 2 ^ 63 ->
  exists m, forall fuel, (m <= fuel)%nat ->
  match bsdiff_records (length c) false from 0 n c d e with
  | Some (to, ([], [], [])) => exists s1, apply_patch_bsdiff_filenames bz fuel written s nf np no = Ret (Val n, s1) /\ st_file s1 no = Some to
  | _ => exists x s1, apply_patch_bsdiff_filenames bz fuel written s nf np no = Ret (Raise x, s1) /\ st_file s1 no = Some (written from (bsdiff40 n ctrl diff extra))
  end.
Proof.
  intros bz R Hb written s nf np no from n c d e ctrl diff extra F1 F2 L D1 D2 H1 H2 H3 H4 H5 H6 H7.
  destruct (bsdiff40_exact bz R Hb false from n c d e ctrl diff extra H1 H2 H3 H4 H5 H6 H7) as (m & M). exists m. intros fuel Hf. specialize (M fuel Hf).
  destruct (two_runs (fun from patch => apply_patch_bsdiff bz fuel false from patch) written s nf np no from (bsdiff40 n ctrl diff extra) F1 F2 L D1 D2) as [G1 G2].
  assert (B : (exists x, apply_patch_bsdiff bz fuel false from (bsdiff40 n ctrl diff extra) = raise x) ->
    exists x s1, apply_patch_bsdiff_filenames bz fuel written s nf np no = Ret (Raise x, s1) /\ st_file s1 no = Some (written from (bsdiff40 n ctrl diff extra))).
  { intros (x & E). exists x. exact (G2 x E). }
  destruct (bsdiff_records (length c) false from 0 n c d e) as [[to [[[|] [|]] [|]]]|]; try (exact (B M)). exact (G1 n to M).
Qed.
