(** A library with LZMA treats patches of the other compressions as one without. *)

From Coq Require Import ZArith List Bool Lia ZifyBool ZifyNat ZifyN.
From Verif Require Import Prelude Lib Heatshrink HsProofs CReader ReaderProofs SizeProofs CSeq Spec SeqSim SeqRun SeqSpec CLzma CSeqLzma LzmaSpec LzmaProofs LzmaSafe.
Import ListNotations.
Open Scope Z_scope.

Section Plain.
Context {WBits : WordBits}.
Context {D : Type} (L : lzma_lib D).
Context {W : Type} (E : seq_env W).

Definition plain (r : option (xreader (D := D))) : option reader :=
  match r with Some (XPlain r) => Some r | _ => None end.

Definition pl (x : xap D) : ap := set_reader (x_ap x) (plain (x_reader x)) (a_rsize (x_ap x)) (a_left (x_ap x)).

Definition pinv (f : list Z) (x : xap D) : Prop :=
  match x_reader x with None | Some (XPlain _) => True | _ => False end /\
  match a_state (x_ap x) with
  | SInit => if a_to_init (x_ap x) then a_compression (x_ap x) <> 1 else a_left (x_ap x) ++ f = [] \/ announced_comp (a_left (x_ap x) ++ f) <> 1
  | _ => True
  end.

Definition psim {A B C} (I : B -> Prop) (p : B -> C) (o1 : outcome (A * B * W)) (o2 : outcome (A * C * W)) : Prop :=
  match o1, o2 with
  | Ret (v, x, w), Ret (v', s, w') => v' = v /\ w' = w /\ s = p x /\ I x
  | Undef, Undef => True
  | OutOfFuel, OutOfFuel => True
  | _, _ => False
  end.

Lemma xunpack_plain : forall K z r left byte n,
  xunpack_size_loop L K z (XPlain r) left byte n = letm (res, v, z1, r1, l1) := unpack_size_loop K z r left byte n in Ret (res, v, z1, XPlain r1, l1).
Proof.
  induction K; intros z r left byte n; cbn [xunpack_size_loop unpack_size_loop xdecompress]; [reflexivity|].
  destruct (decompress r left n) as [[[[res out] r1] l1]| |]; cbn [obind]; try reflexivity.
  destruct (negb _); [reflexivity|]. cbv zeta. destruct (match out with [] => byte | b :: _ => Some b end); [|reflexivity].
  destruct (size_byte z z0) as [[z1|]| |]; cbn [obind]; try reflexivity. destruct (_ =? 0); [reflexivity|]. apply IHK.
Qed.

Ltac fin Es :=
  match goal with |- context [if ?r <? 0 then _ else _] => destruct (r <? 0) | _ => idtac end;
  (split; [reflexivity|]); (split; [reflexivity|]); (split; [reflexivity|]); (split; [exact I|]); cbn; rewrite ?Es; exact I.

(** The end of process_once. *)
Definition xend (o : outcome (Z * xap D * W)) : outcome (Z * xap D * W) :=
  letm (res, x1, w1) := o in Ret (res, if res <? 0 then mkxap (set_st (x_ap x1) SFailed) (x_reader x1) else x1, w1).
Definition pend (o : outcome (Z * ap * W)) : outcome (Z * ap * W) :=
  letm (res, s1, w1) := o in Ret (res, if res <? 0 then set_st s1 SFailed else s1, w1).

Lemma end_plain : forall f a b, psim (fun x => pinv f x) pl a b -> psim (pinv f) pl (xend a) (pend b).
Proof.
  intros f a b H. destruct a as [[[v x] w]| |], b as [[[v' s] w']| |]; cbn in H; try contradiction; try exact I.
  destruct H as (-> & -> & -> & [A B]). cbn [xend pend obind psim]. destruct (v <? 0).
  - split; [reflexivity|]. split; [reflexivity|]. split; [reflexivity|]. split; [exact A|]. exact I.
  - split; [reflexivity|]. split; [reflexivity|]. split; [reflexivity|]. split; assumption.
Qed.

Lemma size_plain : forall f s xr w next, match xr with None | Some (XPlain _) => True | _ => False end ->
  a_state s <> SInit -> next <> SInit ->
  psim (pinv f) pl (xend (letm (r, x1) := x_size L (mkxap s xr) next in Ret (r, x1, w)))
                   (pend (letm (r, s1) := process_size (pl (mkxap s xr)) next in Ret (r, s1, w))).
Proof.
  intros f s xr w next Hr Hs Hn. apply end_plain.
  assert (K : forall t r1, a_state t <> SInit -> pinv f (mkxap t (Some (XPlain r1)))).
  { intros t r1 Ht. split; [exact I|]. cbn. destruct (a_state t); auto. congruence. }
  destruct xr as [[r|r|h]|]; try contradiction; cbn [obind]; [|exact I]. unfold x_size, process_size. cbn [x_reader x_ap].
  change (a_reader (pl (mkxap s (Some (XPlain r))))) with (Some r). cbv iota zeta.
  unfold xcommon_process_size, common_process_size, xunpack_size, unpack_size. rewrite xunpack_plain.
  change (a_rsize (pl (mkxap s (Some (XPlain r))))) with (a_rsize s). change (a_left (pl (mkxap s (Some (XPlain r))))) with (a_left s).
  change (a_to_size (pl (mkxap s (Some (XPlain r))))) with (a_to_size s). change (a_to_offset (pl (mkxap s (Some (XPlain r))))) with (a_to_offset s).
  destruct (unpack_size_loop 6 (a_rsize s) r (a_left s) None 1) as [[[[[res v] z1] r1] l1]| |]; cbn [obind]; try exact I.
  destruct (negb (res =? 0)) eqn:En; cbn [obind].
  { rewrite En. cbn [obind psim]. splits; auto; apply K; auto. }
  destruct (_ <? _); cbn [obind].
  { change (negb (- E_CORRUPT_PATCH =? 0)) with true. cbv iota. cbn [obind psim]. splits; auto; apply K; auto. }
  change (negb (0 =? 0)) with false. cbv iota. cbn [obind psim]. splits; auto; apply K; auto.
Qed.

Lemma data_plain : forall f s xr w next, match xr with None | Some (XPlain _) => True | _ => False end ->
  a_state s <> SInit -> next <> SInit ->
  psim (pinv f) pl (xend (x_data L E (mkxap s xr) w next)) (pend (process_data E 128 (pl (mkxap s xr)) w next)).
Proof.
  intros f s xr w next Hr Hs Hn. apply end_plain.
  assert (K : forall t r1, a_state t <> SInit -> pinv f (mkxap t (Some (XPlain r1)))).
  { intros t r1 Ht. split; [exact I|]. cbn. destruct (a_state t); auto. congruence. }
  unfold x_data, process_data. cbn [x_reader x_ap]. cbv zeta. change (a_chunk_size (pl (mkxap s xr))) with (a_chunk_size s).
  destruct (_ =? 0). { cbn [psim]. splits; auto. split; [exact Hr|]. cbn. destruct next; auto. congruence. }
  destruct xr as [[r|r|h]|]; try contradiction; [|exact I].
  change (a_reader (pl (mkxap s (Some (XPlain r))))) with (Some r). cbv iota zeta. cbn [xdecompress].
  change (a_rsize (pl (mkxap s (Some (XPlain r))))) with (a_rsize s). change (a_left (pl (mkxap s (Some (XPlain r))))) with (a_left s).
  destruct (decompress r (a_left s) _) as [[[[res out] r1] l1]| |]; cbn [obind]; try exact I.
  destruct (negb (res =? 0)); cbn [obind]; [cbn [psim]; splits; auto; apply K; auto|].
  assert (Fin : forall (d : list Z) (s1 : ap) w1, a_state s1 <> SInit ->
    psim (pinv f) pl
     (let '(rw, w3) := to_write E w1 d in
       if negb (rw =? 0) then Ret (- E_IO_FAILED, mkxap (set_chunk_size (set_to_offset s1 (wrap (a_to_offset s1 + zlen out))) (wrap (a_chunk_size s1 - zlen out))) (Some (XPlain r1)), w3)
       else Ret (0, mkxap (set_chunk_size (set_to_offset s1 (wrap (a_to_offset s1 + zlen out))) (wrap (a_chunk_size s1 - zlen out))) (Some (XPlain r1)), w3))
     (let s2 := pl (mkxap s1 (Some (XPlain r1))) in let '(rw, w3) := to_write E w1 d in
       if negb (rw =? 0) then Ret (- E_IO_FAILED, set_chunk_size (set_to_offset s2 (wrap (a_to_offset s2 + zlen out))) (wrap (a_chunk_size s2 - zlen out)), w3)
       else Ret (0, set_chunk_size (set_to_offset s2 (wrap (a_to_offset s2 + zlen out))) (wrap (a_chunk_size s2 - zlen out)), w3))).
  { intros d s1 w1 Hs1. cbv zeta. destruct (to_write E w1 d) as [rw w3]. destruct (negb (rw =? 0)); cbn [psim]; splits; auto; apply K; auto. }
  destruct next; try (cbn [obind]; apply (Fin out (set_size_left s (a_rsize s) l1) w Hs)).
  destruct (from_read E w (zlen out)) as [[rr from] w1]. destruct (negb (rr =? 0)); cbn [obind]; [cbn [psim]; splits; auto; apply K; auto|].
  destruct (add_data out from) as [d| |]; cbn [obind]; try exact I.
  apply (Fin d (set_from_offset (set_size_left s (a_rsize s) l1) (to_int (a_from_offset s + zlen out))) w1 Hs).
Qed.

Lemma once_plain : forall f x w, pinv f x -> psim (pinv f) pl (x_once L E x w) (process_once E 128 (pl x) w).
Proof.
  intros f [s xr] w [Hr Hs]. cbn [x_ap x_reader] in *. unfold x_once, process_once. cbn [x_ap x_reader].
  assert (E1 : a_state (pl (mkxap s xr)) = a_state s) by reflexivity. rewrite E1. clear E1.
  destruct (a_state s) eqn:Es.
  - unfold x_init, process_init. cbn [x_ap]. change (a_to_init (pl (mkxap s xr))) with (a_to_init s). destruct (a_to_init s) eqn:Et.
    + unfold x_init_to_size, process_init_to_size. cbn [x_ap x_reader]. cbv zeta.
      change (a_left (pl (mkxap s xr))) with (a_left s). change (a_size (pl (mkxap s xr))) with (a_size s).
      destruct (unpack_header_size (a_left s) (a_size s)) as [[[[res v] z1] l1]| |]; cbn [obind]; try exact I.
      destruct (negb (res =? 0)); cbn [obind].
      { cbn [psim]. destruct (res <? 0); cbn [psim]; (split; [reflexivity|]); (split; [reflexivity|]); (split; [reflexivity|]); unfold pinv; cbn; rewrite ?Es, ?Et; auto. }
      change (a_compression (set_header (pl (mkxap s xr)) (a_to_init (pl (mkxap s xr))) (a_compression (pl (mkxap s xr))) z1 l1)) with (a_compression s).
      change (a_compression (set_header s (a_to_init s) (a_compression s) z1 l1)) with (a_compression s).
      unfold xreader_init. destruct (Z.eqb_spec (a_compression s) 1); [congruence|].
      change (chunk_offset (set_header (pl (mkxap s xr)) (a_to_init (pl (mkxap s xr))) (a_compression (pl (mkxap s xr))) z1 l1)) with (chunk_offset (set_header s (a_to_init s) (a_compression s) z1 l1)).
      change (a_patch_size (set_header (pl (mkxap s xr)) (a_to_init (pl (mkxap s xr))) (a_compression (pl (mkxap s xr))) z1 l1)) with (a_patch_size s).
      change (a_patch_size (set_header s (a_to_init s) (a_compression s) z1 l1)) with (a_patch_size s).
      destruct (reader_init _ _) as [r|]; cbn [obind].
      2:{ unfold pinv; cbn; auto. }
      destruct (v <? 0); cbn [obind]; [unfold pinv; cbn; auto|].
      change (0 <? 0) with false. cbv iota. split; [reflexivity|]. split; [reflexivity|]. split; [reflexivity|]. unfold pinv. cbn. split; [auto|]. destruct (0 <? v); auto.
    + unfold process_init_fixed_header. change (a_left (pl (mkxap s xr))) with (a_left s). destruct (a_left s) as [|b l] eqn:El; cbn [obind].
      { unfold pinv; cbn; auto. }
      cbv zeta. destruct (negb _); cbn [obind]; [unfold pinv; cbn; auto|].
      change (0 <? 0) with false. cbv iota. split; [reflexivity|]. split; [reflexivity|]. split; [reflexivity|]. unfold pinv. cbn. split; [auto|]. rewrite Es.
      destruct Hs as [Hs|Hs]; [discriminate|exact Hs].
  - destruct xr as [[r|r|h]|]; try contradiction; cbn [obind]; [|exact I]. unfold x_dfpatch_size, process_dfpatch_size. cbn [x_reader x_ap]. change (a_reader (pl (mkxap s (Some (XPlain r))))) with (Some r). cbv iota zeta.
    unfold xunpack_size, unpack_size. rewrite xunpack_plain.
    change (a_rsize (pl (mkxap s (Some (XPlain r))))) with (a_rsize s). change (a_left (pl (mkxap s (Some (XPlain r))))) with (a_left s).
    destruct (unpack_size_loop 6 (a_rsize s) r (a_left s) None 1) as [[[[[res v] z1] r1] l1]| |]; cbn [obind]; try exact I.
    destruct (negb (res =? 0)); cbn [obind]; [|destruct (0 <? v); cbn [obind]]; fin Es.
  - apply size_plain; [auto|rewrite Es; discriminate|discriminate].
  - apply data_plain; [auto|rewrite Es; discriminate|discriminate].
  - apply size_plain; [auto|rewrite Es; discriminate|discriminate].
  - apply data_plain; [auto|rewrite Es; discriminate|discriminate].
  - destruct xr as [[r|r|h]|]; try contradiction; cbn [obind]; [|exact I]. unfold x_adjustment, process_adjustment. cbn [x_reader x_ap]. change (a_reader (pl (mkxap s (Some (XPlain r))))) with (Some r). cbv iota zeta.
    unfold xunpack_size, unpack_size. rewrite xunpack_plain.
    change (a_rsize (pl (mkxap s (Some (XPlain r))))) with (a_rsize s). change (a_left (pl (mkxap s (Some (XPlain r))))) with (a_left s).
    destruct (unpack_size_loop 6 (a_rsize s) r (a_left s) None 1) as [[[[[res v] z1] r1] l1]| |]; cbn [obind]; try exact I.
    destruct (negb (res =? 0)); cbn [obind]; [fin Es|]. destruct (from_seek E w v) as [rs w1]. destruct (negb (rs =? 0)); cbn [obind]; [fin Es|].
    change (a_from_offset (set_reader (pl (mkxap s (Some (XPlain r)))) (Some r1) z1 l1)) with (a_from_offset s). change (a_from_offset (set_size_left s z1 l1)) with (a_from_offset s).
    destruct (int_add _ _); cbn [obind]; try exact I. change (0 <? 0) with false. cbv iota. split; [reflexivity|]. split; [reflexivity|]. split; [reflexivity|].
    split; [exact I|]. cbn. destruct (_ =? _); exact I.
  - cbn. split; [reflexivity|]. split; [reflexivity|]. split; [reflexivity|]. split; [exact Hr|]. cbn. rewrite Es. exact I.
  - cbn. split; [reflexivity|]. split; [reflexivity|]. split; [reflexivity|]. split; [exact Hr|]. exact I.
Qed.

Lemma psim_bind : forall {A B C A' B'} (I : B -> Prop) (p : B -> C) (o1 : outcome (A * B * W)) (o2 : outcome (A * C * W))
    (J : B' -> Prop) (q : B' -> C) (k1 : A * B * W -> outcome (A' * B' * W)) (k2 : A * C * W -> outcome (A' * C * W)),
  psim I p o1 o2 -> (forall v x w, o1 = Ret (v, x, w) -> I x -> psim J q (k1 (v, x, w)) (k2 (v, p x, w))) -> psim J q (obind o1 k1) (obind o2 k2).
Proof.
  intros A B C A' B' I p o1 o2 J q k1 k2 H K. destruct o1 as [[[v x] w]| |], o2 as [[[v' s] w']| |]; cbn in H; try contradiction; try exact Logic.I.
  destruct H as (-> & -> & -> & H). cbn [obind]. apply K; auto.
Qed.

Lemma loop_plain : forall fuel f res x w, pinv f x -> psim (pinv f) pl (x_process_loop L E fuel res x w) (process_loop E fuel 128 res (pl x) w).
Proof.
  induction fuel; intros f res x w Hi; cbn [x_process_loop process_loop]; change (a_left (pl x)) with (a_left (x_ap x)).
  - destruct (a_left (x_ap x)); [cbn; auto|]. destruct (res <? 0); [cbn; auto|exact I].
  - destruct (a_left (x_ap x)); [cbn; auto|]. destruct (res <? 0); [cbn; auto|].
    eapply psim_bind; [apply once_plain; eauto|]. intros v x1 w1 _ H1. apply IHfuel; auto.
Qed.

Lemma finloop_plain : forall fuel f x w, pinv f x -> psim (pinv f) pl (x_finalize_loop L E fuel x w) (finalize_loop E fuel 128 (pl x) w).
Proof.
  induction fuel; intros f x w Hi; cbn [x_finalize_loop finalize_loop]; [exact I|].
  eapply psim_bind; [apply once_plain; eauto|]. intros v x1 w1 _ H1. destruct (v =? 0); [apply IHfuel; auto|]. cbn; auto.
Qed.

(** Once process() has consumed its piece or has failed. *)
Lemma loop_ends : forall fuel res x w r1 x1 w1, (res < 0 -> a_state (x_ap x) <> SInit) -> x_process_loop L E fuel res x w = Ret (r1, x1, w1) ->
  a_left (x_ap x1) = [] \/ a_state (x_ap x1) <> SInit.
Proof.
  induction fuel; intros res x w r1 x1 w1 Hf H; cbn [x_process_loop] in H; destruct (a_left (x_ap x)) eqn:El; try (injection H as <- <- <-; auto; fail).
  - destruct (Z.ltb_spec res 0); [injection H as <- <- <-; auto|discriminate].
  - destruct (Z.ltb_spec res 0); [injection H as <- <- <-; auto|]. apply obind_ret in H. destruct H as ([[r2 x2] w2] & A & H). apply IHfuel in H; auto.
    intros Hr2. unfold x_once in A. apply obind_ret in A. destruct A as ([[r3 x3] w3] & A & B).
    destruct (a_state (x_ap x)) eqn:Es; try (injection B as <- <- <-; destruct (Z.ltb_spec r3 0); [cbn; discriminate|lia]).
    injection A as <- <- <-. injection B as <- <- <-. rewrite Es. discriminate.
Qed.

Lemma pinv_chunk : forall f c x s', pinv (c ++ f) x -> a_left (x_ap x) = [] \/ a_state (x_ap x) <> SInit ->
  a_state s' = a_state (x_ap x) -> a_to_init s' = a_to_init (x_ap x) -> a_compression s' = a_compression (x_ap x) -> a_left s' = c ->
  pinv f (mkxap s' (x_reader x)).
Proof.
  intros f c x s' [Hi Hj] Hl H1 H2 H3 H4. split; [exact Hi|]. cbn [x_ap x_reader]. rewrite H1, H2, H3, H4.
  destruct (a_state (x_ap x)); auto. destruct Hl as [Hl|Hl]; [|congruence]. rewrite Hl in Hj. exact Hj.
Qed.

Lemma finalize_plain : forall fuel f x w, pinv f x -> a_left (x_ap x) = [] \/ a_state (x_ap x) <> SInit ->
  psim (fun _ => True) pl (x_finalize L E fuel x w) (finalize E fuel 128 (pl x) w).
Proof.
  intros fuel f x w Hi Hl. unfold x_finalize, finalize. cbv zeta.
  assert (Hi' : pinv f (mkxap (set_chunk (x_ap x) []) (x_reader x))) by (apply pinv_chunk with (c := []); auto).
  eapply psim_bind; [exact (finloop_plain fuel f _ w Hi')|]. intros v x1 w1 _ [H1 _].
  unfold x_common_finalize, common_finalize. cbv zeta. change (a_to_size (pl x1)) with (a_to_size (x_ap x1)). change (a_reader (pl x1)) with (plain (x_reader x1)).
  destruct (x_reader x1) as [[r|r|h]|] eqn:Er; try contradiction; cbn [plain xdestroy obind].
  - destruct (destroy r) as [d| |]; cbn [obind psim]; auto. splits; auto. unfold pl. cbn [x_ap x_reader]. rewrite Er. reflexivity.
  - cbn [psim]. splits; auto. unfold pl. cbn [x_ap x_reader]. rewrite Er. reflexivity.
Qed.

Lemma feed_plain : forall cs fuel x w, pinv (concat cs) x -> a_left (x_ap x) = [] \/ a_state (x_ap x) <> SInit ->
  psim (fun _ => True) pl (x_feed L E fuel x w cs) (feed E fuel 128 (pl x) w cs).
Proof.
  induction cs as [|c cs IH]; intros fuel x w Hi Hl; cbn [x_feed feed]; [eapply finalize_plain; eauto|].
  cbn [concat] in Hi.
  assert (P : psim (fun x => pinv (concat cs) x /\ (a_left (x_ap x) = [] \/ a_state (x_ap x) <> SInit)) pl (x_process L E fuel x w c) (process E fuel 128 (pl x) w c)).
  { unfold x_process, process. cbv zeta.
    assert (Hi' : pinv (concat cs) (mkxap (set_chunk (set_patch_offset (x_ap x) (wrap (a_patch_offset (x_ap x) + zlen c))) c) (x_reader x))) by (apply pinv_chunk with (c := c); auto).
    eapply psim_bind; [exact (loop_plain fuel _ 0 _ w Hi')|]. intros v x1 w1 A B. apply loop_ends in A; [|lia]. cbn. auto. }
  eapply psim_bind; [exact P|]. intros v x1 w1 _ [B C]. destruct (v =? 0); [apply IH; auto|].
  eapply psim_bind; [eapply finalize_plain; eauto|]. intros v2 x2 w2 _ _. cbn. auto.
Qed.

Theorem plain_same : forall fuel junk ps w chunks, concat chunks = [] \/ announced_comp (concat chunks) <> 1 ->
  (letm (v, x, w1) := x_feed L E fuel (xap_init junk ps) w chunks in Ret (v, w1)) =
  (letm (v, s, w1) := feed E fuel 128 (ap_init junk ps) w chunks in Ret (v, w1)).
Proof.
  intros fuel junk ps w chunks H.
  assert (K : psim (fun _ => True) pl (x_feed L E fuel (xap_init junk ps) w chunks) (feed E fuel 128 (ap_init junk ps) w chunks)).
  2:{ destruct (x_feed _ _ _ _ _ _) as [[[v x] w1]| |], (feed _ _ _ _ _ _) as [[[v' s] w1']| |]; cbn in K; try contradiction; try reflexivity.
      destruct K as (-> & -> & _). reflexivity. }
  (* the piece in the struct before the first call is overwritten *)
  assert (Z1 : forall l j, x_feed L E fuel (xap_init j ps) w chunks = x_feed L E fuel (xap_init (set_chunk j l) ps) w chunks).
  { intros l j. destruct chunks; reflexivity. }
  assert (Z2 : forall l j, feed E fuel 128 (ap_init j ps) w chunks = feed E fuel 128 (ap_init (set_chunk j l) ps) w chunks).
  { intros l j. destruct chunks; reflexivity. }
  rewrite (Z1 []), (Z2 []). apply (feed_plain chunks fuel (xap_init (set_chunk junk []) ps)); [|left; reflexivity].
  split; [exact I|]. exact H.
Qed.

End Plain.
