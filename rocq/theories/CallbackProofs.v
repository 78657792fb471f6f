(** The callback API is the same as feeding the patch in pieces of 512 bytes. *)

From Coq Require Import ZArith List Bool Lia ZifyBool ZifyNat ZifyN.
From Verif Require Import Prelude Lib Heatshrink CReader CSeq CallbackSpec SeqTerm.
Import ListNotations.
Open Scope Z_scope.

Section Hom.
Context `{WordBits}.
Context {W X : Type} (E : seq_env W) (x : X).

Definition out3 (o : outcome (Z * ap * W)) : outcome (Z * ap * (W * X)) :=
  letm (r, s, w) := o in Ret (r, s, (w, x)).

Lemma data_hom : forall B s w next, process_data (env_with E X) B s (w, x) next = out3 (process_data E B s w next).
Proof.
  intros. unfold process_data. cbv zeta. destruct (Z.min B (a_chunk_size s) =? 0); [reflexivity|]. destruct (a_reader s) as [r|]; [|reflexivity].
  destruct (decompress r (a_left s) _) as [[[[res out] r1] l1]| |]; cbn [obind]; [|reflexivity|reflexivity].
  destruct (negb (res =? 0)); [reflexivity|].
  destruct next; cbn [obind env_with from_read to_write fst snd];
    try (destruct (to_write E w out) as [rw w3]; destruct (negb (rw =? 0)); reflexivity).
  destruct (from_read E w (zlen out)) as [[rr from] w1]. destruct (negb (rr =? 0)); [reflexivity|].
  destruct (add_data out from); cbn [obind]; [|reflexivity|reflexivity]. cbn [env_with to_write fst snd].
  destruct (to_write E w1 _) as [rw w3]. destruct (negb (rw =? 0)); reflexivity.
Qed.

Lemma adjustment_hom : forall s w, process_adjustment (env_with E X) s (w, x) = out3 (process_adjustment E s w).
Proof.
  intros. unfold process_adjustment. destruct (a_reader s) as [r|]; [|reflexivity].
  destruct (unpack_size _ _ _) as [[[[[res v] z1] r1] l1]| |]; cbn [obind]; [|reflexivity|reflexivity]. destruct (negb (res =? 0)); [reflexivity|].
  cbn [env_with from_seek fst snd]. destruct (from_seek E w v) as [rs w1]. destruct (negb (rs =? 0)); [reflexivity|].
  destruct (int_add _ _); reflexivity.
Qed.

Lemma once_hom : forall B s w, process_once (env_with E X) B s (w, x) = out3 (process_once E B s w).
Proof.
  intros. unfold process_once. destruct (a_state s); try reflexivity.
  - destruct (process_init s) as [[r s1]| |]; reflexivity.
  - destruct (process_dfpatch_size s) as [[r s1]| |]; reflexivity.
  - destruct (process_size s SDiffData) as [[r s1]| |]; reflexivity.
  - rewrite data_hom. destruct (process_data E B s w SExtraSize) as [[[r s1] w1]| |]; reflexivity.
  - destruct (process_size s SExtraData) as [[r s1]| |]; reflexivity.
  - rewrite data_hom. destruct (process_data E B s w SAdjustment) as [[[r s1] w1]| |]; reflexivity.
  - rewrite adjustment_hom. destruct (process_adjustment E s w) as [[[r s1] w1]| |]; reflexivity.
Qed.

Lemma loop_hom : forall f B res s w, process_loop (env_with E X) f B res s (w, x) = out3 (process_loop E f B res s w).
Proof.
  induction f; intros; cbn [process_loop]; destruct (a_left s); try reflexivity; destruct (res <? 0); try reflexivity.
  rewrite once_hom. destruct (process_once E B s w) as [[[r s1] w1]| |]; cbn [obind out3]; [apply IHf|reflexivity|reflexivity].
Qed.

Lemma process_hom : forall f B s w c, process (env_with E X) f B s (w, x) c = out3 (process E f B s w c).
Proof. intros. unfold process. rewrite loop_hom. destruct (process_loop _ _ _ _ _ _) as [[[r s1] w1]| |]; reflexivity. Qed.

Lemma finloop_hom : forall f B s w, finalize_loop (env_with E X) f B s (w, x) = out3 (finalize_loop E f B s w).
Proof.
  induction f; intros; cbn [finalize_loop]; [reflexivity|]. rewrite once_hom.
  destruct (process_once E B s w) as [[[r s1] w1]| |]; cbn [obind out3]; [|reflexivity|reflexivity]. destruct (r =? 0); [apply IHf|reflexivity].
Qed.

Lemma finalize_hom : forall f B s w, finalize (env_with E X) f B s (w, x) = out3 (finalize E f B s w).
Proof.
  intros. unfold finalize. rewrite finloop_hom. destruct (finalize_loop _ _ _ _ _) as [[[r s1] w1]| |]; cbn [obind out3]; [|reflexivity|reflexivity].
  destruct (common_finalize _ _ _); reflexivity.
Qed.
End Hom.

Section Callbacks.
Context `{WordBits}.
Context {W : Type} (E : seq_env W).

(** Pieces of 512 bytes. *)
Fixpoint pieces (k : nat) (l : list Z) : list (list Z) :=
  match k with
  | O => []
  | S k' => match l with [] => [] | _ => ztake 512 l :: pieces k' (zdrop 512 l) end
  end.

Lemma pieces_concat : forall k l, zlen l <= 512 * Z.of_nat k -> concat (pieces k l) = l.
Proof.
  induction k; intros l Hl; cbn [pieces].
  - symmetry. apply zlen_0_nil. pose proof (zlen_nonneg l). lia.
  - destruct l as [|b l]; [reflexivity|]. cbn [concat]. rewrite IHk; [apply ztake_zdrop|]. rewrite zlen_zdrop by lia. lia.
Qed.

Lemma callbacks_feed : forall patch k n po s w v s1 w1, 0 <= po <= zlen patch -> zlen patch - po <= 512 * Z.of_nat k ->
  feed E n 128 s w (pieces k (zdrop po patch)) = Ret (v, s1, w1) ->
  exists pos, forall fuel, (n + k <= fuel)%nat ->
    callbacks_loop (env_with E Z) fuel (patch_file patch) (zlen patch) po s (w, po) = Ret (v, s1, (w1, pos)).
Proof.
  intros patch. induction k; intros n po s w v s1 w1 Hpo Hk F.
  - assert (po = zlen patch) by lia. subst po. cbn [pieces feed] in F. exists (zlen patch). intros fuel Hf.
    destruct fuel; cbn [callbacks_loop]; destruct (Z.ltb_spec (zlen patch) (zlen patch)); try lia; cbn [negb]; rewrite finalize_hom;
      rewrite (finalize_mono _ _ _ _ _ _ F) by (try discriminate; lia); reflexivity.
  - destruct (Z.eq_dec po (zlen patch)) as [->|Hne].
    + rewrite zdrop_all in F by lia. cbn [pieces feed] in F. exists (zlen patch). intros fuel Hf.
      destruct fuel; [lia|]; cbn [callbacks_loop]; destruct (Z.ltb_spec (zlen patch) (zlen patch)); try lia; cbn [negb]; rewrite finalize_hom;
        rewrite (finalize_mono _ _ _ _ _ _ F) by (try discriminate; lia); reflexivity.
    + set (m := Z.min (zlen patch - po) 512). assert (Hm : ztake 512 (zdrop po patch) = ztake m (zdrop po patch)).
      { assert (zlen (zdrop po patch) = zlen patch - po) by (rewrite zlen_zdrop; lia). unfold m. destruct (Z.min_spec (zlen patch - po) 512) as [(A & ->)|(A & ->)]; [|reflexivity].
        rewrite !ztake_all by lia. reflexivity. }
      assert (Hd : zdrop 512 (zdrop po patch) = zdrop (po + m) patch).
      { rewrite zdrop_zdrop by lia. unfold m. destruct (Z.min_spec (zlen patch - po) 512) as [(A & ->)|(A & ->)].
        - rewrite !zdrop_all by lia. reflexivity.
        - f_equal. lia. }
      assert (Hp : pieces (S k) (zdrop po patch) = ztake m (zdrop po patch) :: pieces k (zdrop (po + m) patch)).
      { rewrite <- Hd, <- Hm. cbn [pieces]. destruct (zdrop po patch) eqn:Z0; [|reflexivity].
        exfalso. assert (zlen (zdrop po patch) = 0) by (rewrite Z0; reflexivity). rewrite zlen_zdrop in * by lia. lia. }
      rewrite Hp in F. cbn [feed] in F.
      destruct (process E n 128 s w (ztake m (zdrop po patch))) as [[[res s2] w2]| |] eqn:P; cbn [obind] in F; [|discriminate|discriminate].
      assert (Step : forall fuel, (n + S k <= fuel)%nat -> callbacks_loop (env_with E Z) fuel (patch_file patch) (zlen patch) po s (w, po) =
        if res =? 0 then callbacks_loop (env_with E Z) (pred fuel) (patch_file patch) (zlen patch) (po + m) s2 (w2, po + m)
        else letm (r2, s3, w3) := finalize (env_with E Z) fuel 128 s2 (w2, po + m) in Ret (res, s3, w3)).
      { intros fuel Hf. destruct fuel as [|f]; [lia|]. cbn [callbacks_loop pred]. destruct (Z.ltb_spec po (zlen patch)); [|lia]. cbn [negb]. cbv zeta. fold m.
        unfold patch_file at 1. destruct (Z.leb_spec (po + m) (zlen patch)); [|lia]. change (negb (0 =? 0)) with false. cbv iota.
        replace (zlen (ztake m (zdrop po patch))) with m by (rewrite zlen_ztake, zlen_zdrop by lia; lia). rewrite Z.eqb_refl. cbn [negb].
        rewrite process_hom. rewrite (process_mono E _ _ _ _ _ _ P) by (try discriminate; lia). reflexivity. }
      destruct (Z.eqb_spec res 0) as [->|Hr].
      * destruct (IHk n (po + m) s2 w2 v s1 w1) as (pos & G); [lia|lia|exact F|]. exists pos. intros fuel Hf. rewrite Step by exact Hf.
        apply G. lia.
      * destruct (finalize E n 128 s2 w2) as [[[r2 s3] w3]| |] eqn:Fi; cbn [obind] in F; [|discriminate|discriminate]. injection F as <- <- <-.
        exists (po + m). intros fuel Hf. rewrite Step by exact Hf.
        rewrite finalize_hom. rewrite (finalize_mono _ _ _ _ _ _ Fi) by (try discriminate; lia). reflexivity.
Qed.
End Callbacks.

(** ** Return codes are at most 1 *)

Section Codes.
Context `{WordBits}.
Context {W : Type} (E : seq_env W).

Ltac codes := unfold E_CORRUPT_PATCH, E_CORRUPT_PATCH_OVERFLOW, E_CORRUPT_PATCH_CRLE_KIND, E_HEATSHRINK_SINK, E_HEATSHRINK_POLL,
  E_HEATSHRINK_HEADER, E_BAD_COMPRESSION, E_NOT_IMPLEMENTED, E_IO_FAILED, E_ALREADY_DONE, E_ALREADY_FAILED, E_BAD_PATCH_TYPE in *.

Lemma header_le : forall left z res v z1 l1, unpack_header_size left z = Ret (res, v, z1, l1) -> res <= 1.
Proof.
  induction left as [|b left IH]; intros z res v z1 l1 U; cbn [unpack_header_size] in U; [injection U as <- _ _ _; lia|].
  match type of U with context [obind ?m _] => destruct m as [[z2|]| |]; cbn [obind] in U; try discriminate end;
    [|injection U as <- _ _ _; codes; lia].
  destruct (Z.land b 128 =? 0); [injection U as <- _ _ _; lia|eauto].
Qed.

Lemma usize_le : forall left u res v u1 l1, unpack_usize_loop left u = Ret (res, v, u1, l1) -> res <= 1.
Proof.
  induction left as [|b left IH]; intros u res v u1 l1 U; cbn [unpack_usize_loop] in U; [injection U as <- _ _ _; lia|].
  destruct (is_overflow _); [injection U as <- _ _ _; codes; lia|].
  destruct (acc_bits _ _ _); cbn [obind] in U; try discriminate.
  destruct (Z.land b 128 =? 0); [injection U as <- _ _ _; lia|eauto].
Qed.

Lemma crle_step_le : forall c l n res out c1 l1, crle_step c l n = Ret (res, out, c1, l1) -> res <= 2.
Proof.
  intros c l n res out c1 l1 U. destruct c; cbn [crle_step] in U.
  - destruct l; [injection U as <- _ _ _; lia|]. destruct (_ =? _); [injection U as <- _ _ _; lia|]. destruct (_ =? _); injection U as <- _ _ _; codes; lia.
  - unfold unpack_usize in U. destruct (unpack_usize_loop _ _) as [[[[r v] u1] l2]| |] eqn:X; cbn [obind] in U; try discriminate.
    apply usize_le in X. destruct (_ =? _); injection U as <- _ _ _; lia.
  - destruct l; injection U as <- _ _ _; lia.
  - unfold unpack_usize in U. destruct (unpack_usize_loop _ _) as [[[[r v] u1] l2]| |] eqn:X; cbn [obind] in U; try discriminate.
    apply usize_le in X. destruct (_ =? _); injection U as <- _ _ _; lia.
  - destruct l; injection U as <- _ _ _; lia.
  - injection U as <- _ _ _; lia.
Qed.

Lemma crle_loop_le : forall f c l n res out c1 l1, crle_loop f c l n = Ret (res, out, c1, l1) -> res <= 1.
Proof.
  induction f; intros c l n res out c1 l1 U; cbn [crle_loop] in U; [discriminate|].
  destruct (crle_step c l n) as [[[[r o] c2] l2]| |] eqn:X; cbn [obind] in U; try discriminate.
  apply crle_step_le in X. destruct (Z.eqb_spec r 2); [eauto|]. injection U as <- _ _ _. lia.
Qed.

Lemma hs_loop_le : forall l d n o res out d1 l1, hs_decompress_loop l d n o = Ret (res, out, d1, l1) -> res <= 1.
Proof.
  induction l as [|b l IH]; intros d n o res out d1 l1 U; cbn [hs_decompress_loop] in U;
    destruct (hs_poll _ _ _ _) as [[d2 o2]| |]; cbn [obind] in U; try discriminate; destruct (n - _ =? 0); try (injection U as <- _ _ _; lia).
  - destruct (_ =? 0); injection U as <- _ _ _; lia.
  - destruct (hs_sink1 d2 b) as [[d3|]| |]; cbn [obind] in U; try discriminate; [eauto|]. injection U as <- _ _ _; codes; lia.
Qed.

Lemma dec_le : forall r l n res out r1 l1, decompress r l n = Ret (res, out, r1, l1) -> res <= 1.
Proof.
  intros r l n res out r1 l1 U. destruct r as [ps po|c|h]; cbn [decompress] in U.
  - unfold none_decompress in U. destruct (_ <? _); [injection U as <- _ _ _; codes; lia|]. destruct l; injection U as <- _ _ _; lia.
  - unfold crle_decompress in U. destruct (crle_loop _ _ _ _) as [[[[r o] c2] l2]| |] eqn:X; cbn [obind] in U; try discriminate.
    apply crle_loop_le in X. injection U as <- _ _ _. lia.
  - assert (R : forall h l, (if hr_ptr h then match hr_dec h with None => Undef | Some d =>
        letm (r, out, d1, left1) := hs_decompress_loop l d n [] in Ret (r, out, mkhr (hr_window h) (hr_lookahead h) true (Some d1), left1) end
        else Ret (- E_HEATSHRINK_POLL, [], h, l)) = Ret (res, out, match r1 with RHs h => h | _ => h end, l1) -> res <= 1).
    { intros h0 l0 V. destruct (hr_ptr h0); [|injection V as <- _ _ _; codes; lia]. destruct (hr_dec h0) as [d|]; [|discriminate].
      destruct (hs_decompress_loop l0 d n []) as [[[[r o] c2] l2]| |] eqn:X; cbn [obind] in V; try discriminate. apply hs_loop_le in X. injection V as <- _ _ _. lia. }
    destruct (hs_decompress h l n) as [[[[r o] h2] l2]| |] eqn:X; cbn [obind] in U; try discriminate. injection U as <- <- <- <-.
    unfold hs_decompress in X. destruct (hr_window h =? -1).
    + destruct l; [injection X as <- _ _ _; lia|]. cbv zeta in X. destruct (_ || _); [injection X as <- _ _ _; codes; lia|]. match type of X with (if hr_ptr ?h then _ else _) = _ => exact (R h _ X) end.
    + eapply R; exact X.
Qed.

Lemma unpack_le : forall f z r l b n res v z1 r1 l1, unpack_size_loop f z r l b n = Ret (res, v, z1, r1, l1) -> res <= 1.
Proof.
  induction f; intros z r l b n res v z1 r1 l1 U; cbn [unpack_size_loop] in U; [discriminate|].
  destruct (decompress r l n) as [[[[r0 o] r2] l2]| |] eqn:X; cbn [obind] in U; try discriminate. apply dec_le in X.
  destruct (negb (r0 =? 0)); [injection U as <- _ _ _ _; lia|].
  destruct (match o with [] => b | b0 :: _ => Some b0 end) as [b0|]; [|discriminate].
  destruct (size_byte z b0) as [[z2|]| |]; cbn [obind] in U; try discriminate; [|injection U as <- _ _ _ _; codes; lia].
  destruct (Z.land b0 128 =? 0); [injection U as <- _ _ _ _; lia|eauto].
Qed.

Lemma once_le : forall B s w res s1 w1, process_once E B s w = Ret (res, s1, w1) -> res <= 1.
Proof.
  intros B s w res s1 w1 U. unfold process_once in U.
  match type of U with obind ?m _ = _ => destruct m as [[[r0 s0] w0]| |] eqn:M; cbn [obind] in U; try discriminate end.
  assert (r0 = res) by (destruct (a_state s); injection U; auto). subst r0. clear U.
  assert (D : forall next, process_data E B s w next = Ret (res, s0, w0) -> res <= 1).
  { intros next U. unfold process_data in U. cbv zeta in U. destruct (_ =? 0); [injection U as <- _ _; lia|]. destruct (a_reader s) as [r|]; [|discriminate].
    destruct (decompress _ _ _) as [[[[r1 o] r2] l2]| |] eqn:X; cbn [obind] in U; try discriminate. apply dec_le in X.
    destruct (negb (r1 =? 0)); [injection U as <- _ _; lia|].
    match type of U with obind ?m _ = _ => destruct m as [[[[io d] s3] w3]| |]; cbn [obind] in U; try discriminate end.
    destruct io; [injection U as <- _ _; codes; lia|]. destruct (to_write _ _ _) as [rw w4]. destruct (negb _); injection U as <- _ _; codes; lia. }
  assert (S : forall next, (letm (r, s1) := process_size s next in Ret (r, s1, w)) = Ret (res, s0, w0) -> res <= 1).
  { intros next U. unfold process_size in U. destruct (a_reader s) as [r|]; [|discriminate]. unfold common_process_size, unpack_size in U.
    destruct (unpack_size_loop _ _ _ _ _ _) as [[[[[r1 v] z1] r2] l2]| |] eqn:X; cbn [obind] in U; try discriminate. apply unpack_le in X.
    destruct (Z.eqb_spec r1 0) as [->|Hr]; cbn [negb] in U.
    - destruct (_ <? _); cbn [obind negb Z.eqb] in U; [|change (0 =? 0) with true in U; cbn [negb obind] in U; injection U as <- _ _; lia].
      change (- E_CORRUPT_PATCH =? 0) with false in U. cbn [negb obind] in U. injection U as <- _ _. codes; lia.
    - cbn [obind] in U. destruct (Z.eqb_spec r1 0); [lia|]. cbn [negb obind] in U. injection U as <- _ _. lia. }
  destruct (a_state s); eauto; try (injection M as <- _ _; codes; lia).
  - destruct (process_init s) as [[r1 s2]| |] eqn:P; cbn [obind] in M; try discriminate. injection M as <- _ _.
    unfold process_init in P. destruct (a_to_init s).
    + unfold process_init_to_size in P. destruct (unpack_header_size _ _) as [[[[r0 v] z1] l1]| |] eqn:X; cbn [obind] in P; try discriminate.
      apply header_le in X. cbv zeta in P. destruct (negb _); [injection P as <- _; lia|]. destruct (reader_init _ _); [|injection P as <- _; codes; lia].
      destruct (v <? 0); injection P as <- _; codes; lia.
    + unfold process_init_fixed_header in P. destruct (a_left s); [injection P as <- _; lia|]. cbv zeta in P.
      destruct (negb _); injection P as <- _; codes; lia.
  - unfold process_dfpatch_size, unpack_size in M. destruct (a_reader s) as [r|]; [|discriminate].
    destruct (unpack_size_loop _ _ _ _ _ _) as [[[[[r1 v] z1] r2] l2]| |] eqn:X; cbn [obind] in M; try discriminate. apply unpack_le in X.
    destruct (negb _); cbn [obind] in M; [injection M as <- _ _; lia|]. destruct (0 <? v); cbn [obind] in M; injection M as <- _ _; codes; lia.
  - unfold process_adjustment, unpack_size in M. destruct (a_reader s) as [r|]; [|discriminate].
    destruct (unpack_size_loop _ _ _ _ _ _) as [[[[[r1 v] z1] r2] l2]| |] eqn:X; cbn [obind] in M; try discriminate. apply unpack_le in X.
    destruct (negb _); cbn [obind] in M; [injection M as <- _ _; lia|]. destruct (from_seek _ _ _) as [rs w2]. destruct (negb _); cbn [obind] in M; [injection M as <- _ _; codes; lia|].
    destruct (int_add _ _); cbn [obind] in M; try discriminate. injection M as <- _ _; lia.
Qed.

Lemma loop_le : forall f B res s w r s1 w1, res <= 1 -> process_loop E f B res s w = Ret (r, s1, w1) -> r <= 1.
Proof.
  induction f; intros B res s w r s1 w1 Hr U; cbn [process_loop] in U; (destruct (a_left s); [injection U as <- _ _; lia|]);
    (destruct (res <? 0); [injection U as <- _ _; lia|]); [discriminate|].
  destruct (process_once E B s w) as [[[r2 s2] w2]| |] eqn:X; cbn [obind] in U; try discriminate. apply once_le in X. eauto.
Qed.

Lemma process_le : forall f B s w c r s1 w1, process E f B s w c = Ret (r, s1, w1) -> r <= 0.
Proof.
  intros f B s w c r s1 w1 U. unfold process in U. destruct (process_loop _ _ _ _ _ _) as [[[r2 s2] w2]| |] eqn:X; cbn [obind] in U; try discriminate.
  apply loop_le in X; [|lia]. injection U as <- _ _. destruct (Z.eqb_spec r2 1); cbn [orb]; [lia|]. destruct (_ =? _); lia.
Qed.
End Codes.

(** ** The requests made (C40) *)

Section Requests.
Context `{WordBits}.
Context {W : Type} (E : seq_env W).


Lemma requests : forall fuel patch_read ps po s w log v s1 w1 log1, 0 <= po <= ps ->
  callbacks_loop (env_with E (list Z)) fuel (recorded patch_read) ps po s (w, log) = Ret (v, s1, (w1, log1)) ->
  exists more, log1 = log ++ more /\ Forall (fun n => 1 <= n <= 512) more /\ po + sum more <= ps /\
    (0 <= v -> po + sum more = ps) /\
    exists f r s0 w0, finalize E f 128 s0 w0 = Ret (r, s1, w1).
Proof.
  induction fuel; intros patch_read ps po s w log v s1 w1 log1 Hpo C; cbn [callbacks_loop] in C.
  - destruct (Z.ltb_spec po ps); cbn [negb] in C; [discriminate|]. rewrite finalize_hom in C. unfold out3 in C.
    discriminate C.
  - destruct (Z.ltb_spec po ps); cbn [negb] in C.
    2:{ rewrite finalize_hom in C. unfold out3 in C.
      destruct (finalize E (S fuel) 128 s w) as [[[r s2] w2]| |] eqn:F; cbn [obind] in C; try discriminate. injection C as <- <- <- <-.
      exists []. rewrite app_nil_r. cbn [sum fold_right]. split; [auto|]. split; [constructor|]. split; [lia|]. split; [lia|]. eauto 10. }
    cbv zeta in C. set (m := Z.min (ps - po) 512) in *. unfold recorded at 1 in C. cbn [fst snd] in C.
    destruct (patch_read w m) as [[rr buf] w2]. destruct (negb (rr =? 0)).
    { rewrite finalize_hom in C. unfold out3 in C.
      destruct (finalize E (S fuel) 128 s w2) as [[[r s2] w3]| |] eqn:F; cbn [obind] in C; try discriminate. injection C as <- <- <- <-.
      exists [m]. cbn [sum fold_right]. unfold E_IO_FAILED, m. split; [auto|]. split; [repeat constructor; lia|]. split; [lia|]. split; [unfold E_IO_FAILED; lia|]. eauto 10. }
    destruct (negb (zlen buf =? m)); [discriminate|]. rewrite process_hom in C. unfold out3 at 1 in C.
    destruct (process E (S fuel) 128 s w2 buf) as [[[res s2] w3]| |] eqn:P; cbn [obind] in C; try discriminate.
    destruct (Z.eqb_spec res 0) as [->|Hr].
    + apply IHfuel in C; [|lia]. destruct C as (more & A & B & D & F & G). exists (m :: more).
      cbn [sum fold_right]. fold (sum more). unfold m in *. split; [rewrite A, <- app_assoc; reflexivity|]. split; [constructor; [lia|auto]|]. split; [lia|]. split; [intros V; specialize (F V); lia|exact G].
    + rewrite finalize_hom in C. unfold out3 in C.
      destruct (finalize E (S fuel) 128 s2 w3) as [[[r s3] w4]| |] eqn:F; cbn [obind] in C; try discriminate. injection C as <- <- <- <-.
      exists [m]. cbn [sum fold_right]. unfold E_IO_FAILED, m. split; [auto|]. split; [repeat constructor; lia|]. split; [lia|].
      apply process_le in P. split; [lia|eauto 10].
Qed.
End Requests.
