(** A library with LZMA treats in-place patches of the other compressions as one
    without. *)

From Coq Require Import ZArith List Bool Lia ZifyBool ZifyNat ZifyN.
From Verif Require Import Prelude Lib Heatshrink HsProofs CReader ReaderProofs SizeProofs CSeq CInPlace Spec SeqSim SeqRun SeqSpec CLzma CSeqLzma LzmaSpec LzmaProofs LzmaSafe LzmaPlain CIpLzma.
Import ListNotations.
Open Scope Z_scope.

Section Plain.
Context {WBits : WordBits}.
Context {D : Type} (L : lzma_lib D).
Context {W : Type} (E : ip_env W).

Definition ipl (y : xip D) : ip := iset_reader (y_ip y) (plain (y_reader y)) (i_rsize (y_ip y)) (i_left (y_ip y)).

Definition yinv (f : list Z) (y : xip D) : Prop :=
  match y_reader y with None | Some (XPlain _) => True | _ => False end /\
  match i_state (y_ip y) with
  | SInit => match i_init (y_ip y) with
             | IFixed => i_left (y_ip y) ++ f = [] \/ announced_comp (i_left (y_ip y) ++ f) <> 1
             | _ => i_compression (y_ip y) <> 1
             end
  | _ => True
  end.

(** The end of process_once. *)
Definition yend (o : outcome (Z * xip D * W)) : outcome (Z * xip D * W) :=
  letm (res, y1, w1) := o in Ret (res, if res <? 0 then mkxip (iset_st (y_ip y1) SFailed) (y_reader y1) else y1, w1).
Definition iend (o : outcome (Z * ip * W)) : outcome (Z * ip * W) :=
  letm (res, s1, w1) := o in Ret (res, if res <? 0 then iset_st s1 SFailed else s1, w1).

Lemma yend_plain : forall f a b, psim (fun y => yinv f y) ipl a b -> psim (yinv f) ipl (yend a) (iend b).
Proof.
  intros f a b H. destruct a as [[[v x] w]| |], b as [[[v' s] w']| |]; cbn in H; try contradiction; try exact I.
  destruct H as (-> & -> & -> & [A B]). cbn [yend iend obind psim]. destruct (v <? 0).
  - split; [reflexivity|]. split; [reflexivity|]. split; [reflexivity|]. split; [exact A|]. exact I.
  - split; [reflexivity|]. split; [reflexivity|]. split; [reflexivity|]. split; assumption.
Qed.

Ltac flds := cbn [ipl plain i_patch_size i_state i_init i_compression i_step i_to_pos i_to_size i_from_size i_memory_size i_segment_size i_shift_size
  i_chunk_size i_seg i_reader i_rsize i_csize i_left i_size iset_st iset_chunk iset_header iset_sizes iset_reader iset_to iset_seg iset_chunk_size iset_step
  iset_size_left y_ip y_reader].

Lemma yinv_state : forall f t xr, match xr with None | Some (XPlain _) => True | _ => False end -> i_state t <> SInit -> yinv f (mkxip t xr).
Proof. intros f t xr Hr Ht. split; [exact Hr|]. cbn [y_ip]. destruct (i_state t); auto. congruence. Qed.

Ltac body := splits; auto; apply yinv_state; [exact I|cbn; congruence].

Lemma init_plain : forall f s xr w, match xr with None | Some (XPlain _) => True | _ => False end -> yinv f (mkxip s xr) -> i_state s = SInit ->
  psim (yinv f) ipl (yend (y_init L E (mkxip s xr) w)) (iend (ip_process_init E (ipl (mkxip s xr)) w)).
Proof.
  intros f s xr w Hr [_ Hi] Es. cbn [y_ip] in Hi. rewrite Es in Hi. unfold y_init. cbn [y_ip y_reader]. unfold ip_process_init. change (i_init (ipl (mkxip s xr))) with (i_init s).
  assert (Sz : forall k' store, (forall s v, i_state (store s v) = i_state s /\ i_init (store s v) = i_init s /\ i_compression (store s v) = i_compression s) ->
    (forall s v r z l, store (iset_reader s r z l) v = iset_reader (store s v) r z l) -> (forall s v, i_rsize (store s v) = i_rsize s /\ i_left (store s v) = i_left s) ->
    i_init s <> IFixed -> k' <> IFixed -> i_compression s <> 1 ->
    psim (yinv f) ipl (letm (res, s1, w1) := (letm (r, s1) := ip_init_size s k' store in Ret (r, s1, w)) in Ret (res, mkxip s1 xr, w1))
      (letm (r, s1) := ip_init_size (ipl (mkxip s xr)) k' store in Ret (r, s1, w))).
  { intros k' store P1 P2 P3 Hk Hk' Hc. unfold ip_init_size. change (i_left (ipl (mkxip s xr))) with (i_left s). change (i_size (ipl (mkxip s xr))) with (i_size s).
    destruct (unpack_header_size (i_left s) (i_size s)) as [[[[res v] z1] l1]| |]; cbn [obind]; try exact I.
    destruct (negb (res =? 0)); cbn [obind psim].
    - splits; auto. split; [exact Hr|]. flds. rewrite Es. destruct (i_init s); solve [auto|congruence].
    - match goal with |- context [store (iset_header s ?a ?b ?c ?d) ?e] => set (X := iset_header s a b c d); set (v0 := e) end.
      destruct (P1 X v0) as (Q1 & Q2 & Q3). destruct (P3 X v0) as (Q4 & Q5). splits; auto.
      + unfold ipl. cbn [y_ip y_reader]. rewrite Q4, Q5, <- P2. reflexivity.
      + split; [exact Hr|]. cbn [y_ip]. rewrite Q1, Q2, Q3. unfold X. flds. rewrite Es. destruct k'; solve [auto|congruence]. }
  destruct (i_init s) eqn:Ei.
  - unfold ip_init_fixed_header. change (i_left (ipl (mkxip s xr))) with (i_left s). destruct (i_left s) as [|b l] eqn:El; cbn [obind].
    { apply yend_plain. cbn [psim]. splits; auto. split; [exact Hr|]. flds. rewrite Es, Ei, El. exact Hi. }
    cbv zeta. destruct (negb _); cbn [obind].
    { cbn. splits; auto. split; [exact Hr|exact I]. }
    apply yend_plain. cbn [psim]. splits; auto. split; [exact Hr|]. flds. rewrite Es. destruct Hi as [Hi|Hi]; [discriminate|exact Hi].
  - apply yend_plain, Sz; try discriminate; auto; intros; splits; auto; reflexivity.
  - apply yend_plain, Sz; try discriminate; auto; intros; splits; auto; reflexivity.
  - apply yend_plain, Sz; try discriminate; auto; intros; splits; auto; reflexivity.
  - apply yend_plain, Sz; try discriminate; auto; intros; splits; auto; reflexivity.
  - apply yend_plain. unfold y_init_to_size, ip_init_to_size. cbn [y_ip y_reader]. cbv zeta. change (i_left (ipl (mkxip s xr))) with (i_left s). change (i_size (ipl (mkxip s xr))) with (i_size s).
    destruct (unpack_header_size (i_left s) (i_size s)) as [[[[res v] z1] l1]| |]; cbn [obind]; try exact I.
    destruct (negb (res =? 0)); cbn [obind].
    { cbn [psim]. splits; auto. split; [exact Hr|]. flds. rewrite Es, Ei. exact Hi. }
    change (i_compression (iset_header (ipl (mkxip s xr)) (i_init (ipl (mkxip s xr))) (i_compression (ipl (mkxip s xr))) z1 l1)) with (i_compression s).
    change (i_compression (iset_header s (i_init s) (i_compression s) z1 l1)) with (i_compression s).
    unfold xreader_init. destruct (Z.eqb_spec (i_compression s) 1); [congruence|].
    change (ichunk_offset (iset_header (ipl (mkxip s xr)) (i_init (ipl (mkxip s xr))) (i_compression (ipl (mkxip s xr))) z1 l1)) with (ichunk_offset (iset_header s (i_init s) (i_compression s) z1 l1)).
    change (i_patch_size (iset_header (ipl (mkxip s xr)) (i_init (ipl (mkxip s xr))) (i_compression (ipl (mkxip s xr))) z1 l1)) with (i_patch_size (iset_header s (i_init s) (i_compression s) z1 l1)).
    destruct (reader_init _ _) as [r|]; cbn [obind].
    2:{ cbn [psim]. splits; auto. split; [exact Hr|]. flds. rewrite Es, Ei. exact Hi. }
    destruct (v <? 0); cbn [obind].
    { cbn [psim]. splits; auto. split; [exact I|]. flds. rewrite Es, Ei. exact Hi. }
    flds. destruct (0 <? v); cbn [psim]; [|body].
    destruct (shift_memory E (i_step s) w (i_memory_size s) (i_from_size s) (i_segment_size s) (i_shift_size s)) as [[[r0 st0] w0]| |]; cbn [obind]; try exact I.
    destruct (negb (r0 =? 0)); cbn [psim]; [|body]. splits; auto. split; [exact I|]. flds. rewrite Es, Ei. exact Hi.
Qed.

Lemma ysize_plain : forall f s xr w next, match xr with None | Some (XPlain _) => True | _ => False end ->
  i_state s <> SInit -> next <> SInit ->
  psim (yinv f) ipl (yend (letm (r, x1) := y_size L (mkxip s xr) next in Ret (r, x1, w)))
                   (iend (letm (r, s1) := ip_process_size (ipl (mkxip s xr)) next in Ret (r, s1, w))).
Proof.
  intros f s xr w next Hr Hs Hn. apply yend_plain.
  destruct xr as [[r|r|h]|]; try contradiction; cbn [obind]; [|exact I]. unfold y_size, ip_process_size. cbv zeta. flds.
  unfold xcommon_process_size, common_process_size, xunpack_size, unpack_size. rewrite xunpack_plain.
  destruct (unpack_size_loop 6 (i_rsize s) r (i_left s) None 1) as [[[[[res v] z1] r1] l1]| |]; cbn [obind]; try exact I.
  destruct (negb (res =? 0)) eqn:En; cbn [obind].
  { rewrite En. cbn [obind psim]. body. }
  destruct (_ <? _); cbn [obind].
  { change (negb (- E_CORRUPT_PATCH =? 0)) with true. cbv iota. cbn [obind psim]. body. }
  change (negb (0 =? 0)) with false. cbv iota. cbn [obind psim]. body.
Qed.

Lemma ydata_plain : forall f s xr w next, match xr with None | Some (XPlain _) => True | _ => False end ->
  i_state s <> SInit -> next <> SInit ->
  psim (yinv f) ipl (yend (y_data L E (mkxip s xr) w next)) (iend (ip_process_data E (ipl (mkxip s xr)) w next)).
Proof.
  intros f s xr w next Hr Hs Hn. apply yend_plain. unfold y_data, ip_process_data. cbv zeta. change (i_chunk_size (ipl (mkxip s xr))) with (i_chunk_size s). cbn [y_ip].
  destruct (_ =? 0). { cbn [psim]. splits; auto. apply yinv_state; [exact Hr|cbn; congruence]. }
  destruct xr as [[r|r|h]|]; try contradiction; [|exact I]. flds. cbn [xdecompress].
  destruct (decompress r (i_left s) _) as [[[[res out] r1] l1]| |]; cbn [obind]; try exact I.
  destruct (negb (res =? 0)); cbn [obind]; [cbn [psim]; body|].
  destruct next; try (cbn [obind]; flds; destruct (ip_mem_write E _ _ _ _) as [rw w3]; destruct (negb (rw =? 0)); cbn [psim]; body).
  destruct (ip_mem_read E _ _ _ _) as [[rr from] w1]. destruct (negb (rr =? 0)); cbn [obind]; [cbn [psim]; body|].
  destruct (int_add _ _) as [fo| |]; cbn [obind]; try exact I. destruct (add_data out from) as [d| |]; cbn [obind]; try exact I. flds.
  destruct (ip_mem_write E _ _ _ _) as [rw w3]; destruct (negb (rw =? 0)); cbn [psim]; body.
Qed.

Lemma yonce_plain : forall f x w, yinv f x -> psim (yinv f) ipl (y_once L E x w) (ip_process_once E (ipl x) w).
Proof.
  intros f [s xr] w Hi. assert (Hr := proj1 Hi). cbn [y_reader] in Hr. unfold y_once, ip_process_once. cbn [y_ip].
  change (i_state (ipl (mkxip s xr))) with (i_state s).
  destruct (i_state s) eqn:Es.
  - apply init_plain; auto.
  - apply yend_plain. destruct xr as [[r|r|h]|]; try contradiction; cbn [obind]; [|exact I]. unfold y_dfpatch_size, ip_process_dfpatch_size. cbv zeta. flds.
    unfold xunpack_size, unpack_size. rewrite xunpack_plain.
    destruct (unpack_size_loop 6 (i_rsize s) r (i_left s) None 1) as [[[[[res v] z1] r1] l1]| |]; cbn [obind]; try exact I.
    destruct (negb (res =? 0)); cbn [obind psim]; [body|]. destruct (0 <? v); cbn [obind psim]; [body|]. flds.
    destruct (ip_mem_erase E _ _ _ _) as [re we]. cbn [psim]. body.
  - apply ysize_plain; [auto|rewrite Es; discriminate|discriminate].
  - apply ydata_plain; [auto|rewrite Es; discriminate|discriminate].
  - apply ysize_plain; [auto|rewrite Es; discriminate|discriminate].
  - apply ydata_plain; [auto|rewrite Es; discriminate|discriminate].
  - apply yend_plain. destruct xr as [[r|r|h]|]; try contradiction; cbn [obind]; [|exact I]. unfold y_adjustment, ip_process_adjustment. cbv zeta. flds.
    unfold xunpack_size, unpack_size. rewrite xunpack_plain.
    destruct (unpack_size_loop 6 (i_rsize s) r (i_left s) None 1) as [[[[[res v] z1] r1] l1]| |]; cbn [obind]; try exact I.
    destruct (negb (res =? 0)); cbn [obind psim]; [body|]. flds.
    destruct (i_to_pos s =? i_to_size s); [destruct (all_steps_completed E w) as [ra wa]; cbn [psim]; body|].
    destruct (g_to_pos (i_seg s) =? g_to_size (i_seg s)).
    + destruct (next_step E (i_step s) w) as [[[rn st] wn]| |]; cbn [obind]; try exact I. cbn [psim]. body.
    + destruct (int_add _ _) as [fo| |]; cbn [obind]; try exact I. cbn [psim]. body.
  - cbn. split; [reflexivity|]. split; [reflexivity|]. split; [reflexivity|]. exact Hi.
  - cbn. splits; auto. apply yinv_state; [exact Hr|discriminate].
Qed.

Lemma yloop_plain : forall fuel f res x w, yinv f x -> psim (yinv f) ipl (y_process_loop L E fuel res x w) (ip_process_loop E fuel res (ipl x) w).
Proof.
  induction fuel; intros f res x w Hi; cbn [y_process_loop ip_process_loop]; change (i_left (ipl x)) with (i_left (y_ip x)).
  - destruct (i_left (y_ip x)); [cbn; auto|]. destruct (res <? 0); [cbn; auto|exact I].
  - destruct (i_left (y_ip x)); [cbn; auto|]. destruct (res <? 0); [cbn; auto|].
    eapply psim_bind; [apply yonce_plain; eauto|]. intros v x1 w1 _ H1. apply IHfuel; auto.
Qed.

Lemma yfinloop_plain : forall fuel f x w, yinv f x -> psim (yinv f) ipl (y_finalize_loop L E fuel x w) (ip_finalize_loop E fuel (ipl x) w).
Proof.
  induction fuel; intros f x w Hi; cbn [y_finalize_loop ip_finalize_loop]; [exact I|].
  eapply psim_bind; [apply yonce_plain; eauto|]. intros v x1 w1 _ H1. destruct (v =? 0); [apply IHfuel; auto|]. cbn; auto.
Qed.

(** Once process() has consumed its piece or has failed. *)
Lemma yloop_ends : forall fuel res x w r1 x1 w1, (res < 0 -> i_state (y_ip x) <> SInit) -> y_process_loop L E fuel res x w = Ret (r1, x1, w1) ->
  i_left (y_ip x1) = [] \/ i_state (y_ip x1) <> SInit.
Proof.
  induction fuel; intros res x w r1 x1 w1 Hf H; cbn [y_process_loop] in H; destruct (i_left (y_ip x)) eqn:El; try (injection H as <- <- <-; auto; fail).
  - destruct (Z.ltb_spec res 0); [injection H as <- <- <-; auto|discriminate].
  - destruct (Z.ltb_spec res 0); [injection H as <- <- <-; auto|]. apply obind_ret in H. destruct H as ([[r2 x2] w2] & A & H). apply IHfuel in H; auto.
    intros Hr2. unfold y_once in A. apply obind_ret in A. destruct A as ([[r3 x3] w3] & A & B).
    destruct (i_state (y_ip x)) eqn:Es; try (injection B as <- <- <-; destruct (Z.ltb_spec r3 0); [cbn; discriminate|lia]).
    injection A as <- <- <-. injection B as <- <- <-. rewrite Es. discriminate.
Qed.

Lemma yinv_chunk : forall f c x s', yinv (c ++ f) x -> i_left (y_ip x) = [] \/ i_state (y_ip x) <> SInit ->
  i_state s' = i_state (y_ip x) -> i_init s' = i_init (y_ip x) -> i_compression s' = i_compression (y_ip x) -> i_left s' = c ->
  yinv f (mkxip s' (y_reader x)).
Proof.
  intros f c x s' [Hi Hj] Hl H1 H2 H3 H4. split; [exact Hi|]. cbn [y_ip y_reader]. rewrite H1, H2, H3, H4.
  destruct (i_state (y_ip x)); auto. destruct Hl as [Hl|Hl]; [|congruence]. rewrite Hl in Hj. exact Hj.
Qed.

Lemma yfinalize_plain : forall fuel f x w, yinv f x -> i_left (y_ip x) = [] \/ i_state (y_ip x) <> SInit ->
  psim (fun _ => True) ipl (y_finalize L E fuel x w) (ip_finalize E fuel (ipl x) w).
Proof.
  intros fuel f x w Hi Hl. unfold y_finalize, ip_finalize. cbv zeta.
  assert (Hi' : yinv f (mkxip (iset_chunk (y_ip x) []) (y_reader x))) by (apply yinv_chunk with (c := []); auto).
  eapply psim_bind; [exact (yfinloop_plain fuel f _ w Hi')|]. intros v x1 w1 _ [H1 _].
  unfold x_common_finalize, common_finalize. cbv zeta. change (i_to_size (ipl x1)) with (i_to_size (y_ip x1)). change (i_reader (ipl x1)) with (plain (y_reader x1)).
  destruct (y_reader x1) as [[r|r|h]|] eqn:Er; try contradiction; cbn [plain xdestroy obind].
  - destruct (destroy r) as [d| |]; cbn [obind psim]; auto. splits; auto. unfold ipl. cbn [y_ip y_reader]. rewrite Er. reflexivity.
  - cbn [psim]. splits; auto. unfold ipl. cbn [y_ip y_reader]. rewrite Er. reflexivity.
Qed.

Lemma yfeed_plain : forall cs fuel x w, yinv (concat cs) x -> i_left (y_ip x) = [] \/ i_state (y_ip x) <> SInit ->
  psim (fun _ => True) ipl (y_feed L E fuel x w cs) (ip_feed E fuel (ipl x) w cs).
Proof.
  induction cs as [|c cs IH]; intros fuel x w Hi Hl; cbn [y_feed ip_feed]; [eapply yfinalize_plain; eauto|].
  cbn [concat] in Hi.
  assert (P : psim (fun x => yinv (concat cs) x /\ (i_left (y_ip x) = [] \/ i_state (y_ip x) <> SInit)) ipl (y_process L E fuel x w c) (ip_process E fuel (ipl x) w c)).
  { unfold y_process, ip_process. cbv zeta.
    assert (Hi' : yinv (concat cs) (mkxip (iset_chunk (y_ip x) c) (y_reader x))) by (apply yinv_chunk with (c := c); auto).
    eapply psim_bind; [exact (yloop_plain fuel _ 0 _ w Hi')|]. intros v x1 w1 A B. apply yloop_ends in A; [|lia]. cbn. auto. }
  eapply psim_bind; [exact P|]. intros v x1 w1 _ [B C]. destruct (v =? 0); [apply IH; auto|].
  eapply psim_bind; [eapply yfinalize_plain; eauto|]. intros v2 x2 w2 _ _. cbn. auto.
Qed.

Theorem ip_plain_same : forall fuel junk ps w chunks, concat chunks = [] \/ announced_comp (concat chunks) <> 1 ->
  (letm (v, x, w1) := y_feed L E fuel (xip_init junk ps) w chunks in Ret (v, w1)) =
  (letm (v, s, w1) := ip_feed E fuel (ip_init junk ps) w chunks in Ret (v, w1)).
Proof.
  intros fuel junk ps w chunks H.
  assert (K : psim (fun _ => True) ipl (y_feed L E fuel (xip_init junk ps) w chunks) (ip_feed E fuel (ip_init junk ps) w chunks)).
  2:{ destruct (y_feed _ _ _ _ _ _) as [[[v x] w1]| |], (ip_feed _ _ _ _ _) as [[[v' s] w1']| |]; cbn in K; try contradiction; try reflexivity.
      destruct K as (-> & -> & _). reflexivity. }
  (* the piece in the struct before the first call is overwritten *)
  assert (Z1 : forall l j, y_feed L E fuel (xip_init j ps) w chunks = y_feed L E fuel (xip_init (iset_chunk j l) ps) w chunks).
  { intros l j. destruct chunks; reflexivity. }
  assert (Z2 : forall l j, ip_feed E fuel (ip_init j ps) w chunks = ip_feed E fuel (ip_init (iset_chunk j l) ps) w chunks).
  { intros l j. destruct chunks; reflexivity. }
  rewrite (Z1 []), (Z2 []). apply (yfeed_plain chunks fuel (xip_init (iset_chunk junk []) ps)); [|left; reflexivity].
  split; [exact I|]. exact H.
Qed.

End Plain.
