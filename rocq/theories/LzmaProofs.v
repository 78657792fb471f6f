(** The LZMA reader: memory safety for any library that keeps to its buffers, and
    what it delivers for a stream the library can decode. *)

From Coq Require Import ZArith List Bool Lia ZifyBool ZifyNat ZifyN.
From Verif Require Import Prelude Lib Heatshrink CReader CLzma LzmaSpec.
Import ListNotations.
Open Scope Z_scope.

Ltac splits := repeat match goal with |- _ /\ _ => split end.

(** ** Blocks *)

Definition ids (b : option (Z * list Z)) : list Z := match b with Some (i, _) => [i] | None => [] end.

(** Exactly the blocks [l] are allocated. *)
Definition owns (h : heap) (l : list Z) : Prop :=
  NoDup l /\ NoDup (h_live h) /\ (forall b, In b (h_live h) <-> In b l) /\ Forall (fun b => b < h_calls h) l.

Lemma owns_alloc : forall D (L : lzma_lib D) h l p h1, owns h l -> h_alloc L h = (p, h1) ->
  match p with
  | None => owns h1 l
  | Some b => owns h1 (b :: l) /\ ~ In b l
  end.
Proof.
  intros D L h l p h1 (A & B & C & F) H. unfold h_alloc in H.
  assert (Hn : ~ In (h_calls h) l). { intros X. rewrite Forall_forall in F. specialize (F _ X). lia. }
  destruct (lz_malloc L (h_calls h)); inv H.
  - split; [|auto]. unfold owns. cbn. splits.
    + constructor; auto.
    + constructor; auto. rewrite C. auto.
    + intros b. cbn. rewrite C. tauto.
    + constructor; [lia|]. eapply Forall_impl; [|exact F]. cbn. intros; lia.
  - unfold owns. cbn. splits; auto. eapply Forall_impl; [|exact F]. cbn. intros; lia.
Qed.

Lemma owns_free : forall h b l1 l2, owns h (l1 ++ b :: l2) -> exists h1, h_free h b = Ret h1 /\ owns h1 (l1 ++ l2).
Proof.
  intros h b l1 l2 (A & B & C & F). unfold h_free.
  assert (X : existsb (Z.eqb b) (h_live h) = true).
  { apply existsb_exists. exists b. split; [|lia]. apply C. apply in_or_app. right. left. reflexivity. }
  rewrite X. eexists. split; [reflexivity|]. apply NoDup_remove in A. destruct A as [A1 A2]. unfold owns. cbn. splits; auto.
  - apply NoDup_filter. auto.
  - intros x. rewrite filter_In, C, !in_app_iff. cbn [In]. rewrite in_app_iff in A2. split.
    + intros [[Y|[Y|Y]] Z]; auto. subst. destruct (Z.eqb_spec x x); cbn in Z; congruence.
    + intros Y. split; [tauto|]. destruct (Z.eqb_spec x b); [subst; tauto|reflexivity].
  - apply Forall_app in F. destruct F as [F1 F2]. inv F2. apply Forall_app. auto.
Qed.

Lemma owns_nil : forall h, owns h [] -> h_live h = [].
Proof. intros h (_ & _ & C & _). destruct (h_live h) as [|b l]; [reflexivity|]. exfalso. apply (C b). left. reflexivity. Qed.

Section Reader.
Context {WBits : WordBits}.
Context {D : Type} (L : lzma_lib D).

(** The reader owns its two buffers. *)
Definition owned (r : lzma_reader D) : Prop := owns (l_heap r) (ids (l_in r) ++ ids (l_out r)).

Lemma owned_start : forall d, owned (mklz d None None (mkheap [] 0)).
Proof. intros d. unfold owned, owns. cbn. splits; try constructor; auto. Qed.

Lemma get_none : forall (r : lzma_reader D) n, 0 < n -> get_decompressed_data r n = None -> zlen (held (l_out r)) < n.
Proof.
  intros r n Hn H. unfold get_decompressed_data in H. destruct (l_out r) as [[b l]|]; cbn [held].
  - destruct (Z.leb_spec n (zlen l)); [discriminate|auto].
  - change (zlen (@nil Z)) with 0. auto.
Qed.

Lemma get_some : forall (r : lzma_reader D) n out r1, 0 < n -> get_decompressed_data r n = Some (out, r1) ->
  n <= zlen (held (l_out r)) /\ out = ztake n (held (l_out r)) /\ held (l_out r1) = zdrop n (held (l_out r)) /\
  l_dec r1 = l_dec r /\ l_in r1 = l_in r /\ (owned r -> owned r1).
Proof.
  intros r n out r1 Hn H. unfold get_decompressed_data in H. destruct (l_out r) as [[b l]|] eqn:E; cbn [held].
  - destruct (Z.leb_spec n (zlen l)); [|discriminate]. inv H. cbn. splits; auto. unfold owned. rewrite E. auto.
  - destruct (Z.leb_spec n 0); [lia|discriminate].
Qed.

Lemma input_spec : forall r left, owned r -> zlen (held (l_in r)) + zlen left < 2 ^ word_bits ->
  (left = [] /\ prepare_input_buffer L r left = Ret (1, r, [])) \/
  (left <> [] /\ exists h1, prepare_input_buffer L r left = Ret (- E_OUT_OF_MEMORY, mklz (l_dec r) (l_in r) (l_out r) h1, left) /\
     owned (mklz (l_dec r) (l_in r) (l_out r) h1) /\ lz_malloc L (h_calls (l_heap r)) = false) \/
  (left <> [] /\ exists b h2, prepare_input_buffer L r left = Ret (0, mklz (l_dec r) (Some (b, held (l_in r) ++ left)) (l_out r) h2, []) /\
     owned (mklz (l_dec r) (Some (b, held (l_in r) ++ left)) (l_out r) h2)).
Proof.
  intros r left Ho Hs. destruct left as [|x left]; [left; auto|]. right. unfold prepare_input_buffer.
  destruct (h_alloc L (l_heap r)) as [p h1] eqn:A. pose proof (owns_alloc _ L _ _ _ _ Ho A) as B.
  pose proof (zlen_nonneg (held (l_in r))). pose proof (zlen_nonneg (x :: left)).
  destruct p as [b|].
  - right. split; [discriminate|]. rewrite wrap_small by lia. destruct (Z.ltb_spec (zlen (held (l_in r)) + zlen (x :: left)) (zlen (held (l_in r)) + zlen (x :: left))); [lia|].
    destruct B as [B B']. destruct (l_in r) as [[old l]|]; cbn [ids app held] in *.
    + destruct (owns_free h1 old [b] (ids (l_out r)) B) as (h2 & F1 & F2). rewrite F1. cbn [obind]. exists b, h2. split; [reflexivity|]. exact F2.
    + cbn [obind]. exists b, h1. split; [reflexivity|]. exact B.
  - left. split; [discriminate|]. exists h1. split; [reflexivity|]. split; [exact B|]. unfold h_alloc in A. destruct (lz_malloc L (h_calls (l_heap r))); congruence.
Qed.

Lemma output_spec : forall r n, owned r -> zlen (held (l_out r)) < n ->
  (exists h1, prepare_output_buffer L r n = Ret (- E_OUT_OF_MEMORY, mklz (l_dec r) (l_in r) (l_out r) h1) /\
     owned (mklz (l_dec r) (l_in r) (l_out r) h1) /\ lz_malloc L (h_calls (l_heap r)) = false) \/
  (exists b h2, prepare_output_buffer L r n = Ret (0, mklz (l_dec r) (l_in r) (Some (b, held (l_out r))) h2) /\
     owned (mklz (l_dec r) (l_in r) (Some (b, held (l_out r))) h2)).
Proof.
  intros r n Ho Hs. unfold prepare_output_buffer.
  destruct (h_alloc L (l_heap r)) as [p h1] eqn:A. pose proof (owns_alloc _ L _ _ _ _ Ho A) as B.
  destruct p as [b|].
  - right. destruct (Z.ltb_spec n (zlen (held (l_out r)))); [lia|].
    destruct B as [B B'].
    assert (Hp : forall x l1 l2, owns h1 (x :: l1 ++ l2) -> owns h1 (l1 ++ x :: l2)).
    { clear. intros x l1 l2 (P & Q & R & S). assert (T : NoDup (l1 ++ x :: l2)) by (apply NoDup_Add with (a := x) (l := l1 ++ l2); [apply Add_app|inv P; auto]).
      unfold owns. splits; auto.
      - intros y. rewrite R. cbn [In]. rewrite !in_app_iff. cbn [In]. tauto.
      - inv S. apply Forall_app in H2. destruct H2. apply Forall_app. auto. }
    destruct (l_out r) as [[old l]|]; cbn [ids app held] in *.
    + destruct (owns_free h1 old (b :: ids (l_in r)) []) as (h2 & F1 & F2); [exact B|]. rewrite F1. cbn [obind]. exists b, h2. split; [reflexivity|].
      unfold owned. cbn. apply Hp in B. clear B. cbn [app] in F2. destruct F2 as (P & Q & R & S).
      rewrite app_nil_r in *. unfold owns. inv P. inv S. splits; auto.
      * apply NoDup_Add with (a := b) (l := ids (l_in r) ++ []); [apply Add_app|rewrite app_nil_r; auto].
      * intros y. rewrite R. cbn [In]. rewrite in_app_iff. cbn [In]. tauto.
      * apply Forall_app. auto.
    + cbn [obind]. exists b, h1. split; [reflexivity|]. unfold owned. cbn. apply Hp. exact B.
  - left. exists h1. split; [reflexivity|]. split; [exact B|]. unfold h_alloc in A. destruct (lz_malloc L (h_calls (l_heap r))); congruence.
Qed.

Lemma destroy_spec : forall r, owned r -> exists h, lzma_destroy r =
    Ret (if (zlen (held (l_in r)) =? 0) && (zlen (held (l_out r)) =? 0) then 0 else - E_CORRUPT_PATCH, h) /\ h_live h = [].
Proof.
  intros r Ho. unfold owned in Ho. unfold lzma_destroy. destruct (l_in r) as [[b l]|]; cbn [ids app] in Ho.
  - destruct (owns_free _ b [] _ Ho) as (h1 & F1 & F2). rewrite F1. cbn [obind app] in *.
    destruct (l_out r) as [[b2 l2]|]; cbn [ids] in F2.
    + destruct (owns_free _ b2 [] _ F2) as (h2 & F3 & F4). rewrite F3. cbn [obind app] in *. eexists. split; [reflexivity|]. apply owns_nil. exact F4.
    + cbn [obind]. eexists. split; [reflexivity|]. apply owns_nil. exact F2.
  - cbn [obind]. destruct (l_out r) as [[b2 l2]|]; cbn [ids] in Ho.
    + destruct (owns_free _ b2 [] _ Ho) as (h2 & F3 & F4). rewrite F3. cbn [obind app] in *. eexists. split; [reflexivity|]. apply owns_nil. exact F4.
    + cbn [obind]. eexists. split; [reflexivity|]. apply owns_nil. exact Ho.
Qed.

(** ** Any library that keeps to its buffers *)

Section Safe.
Hypothesis Hlib : lib_ok L.

Definition ins (r : lzma_reader D) : Z := zlen (held (l_in r)).

Lemma held_map : forall f (b : option (Z * list Z)), (f [] = []) ->
  held (option_map (fun bl => (fst bl, f (snd bl))) b) = f (held b).
Proof. intros f [[i l]|] H; cbn; auto. Qed.

Lemma ids_map : forall f (b : option (Z * list Z)), ids (option_map (fun bl => (fst bl, f (snd bl))) b) = ids b.
Proof. intros f [[i l]|]; reflexivity. Qed.

Lemma attempt_safe : forall r n, owned r -> 0 < n -> zlen (held (l_out r)) < n ->
  bytes_ok (held (l_out r)) ->
  exists res r1,
    (match held (l_in r) with
     | [] => Ret (0, r)
     | _ =>
         letm (res, r1) := prepare_output_buffer L r n in
         if negb (res =? 0) then Ret (res, r1) else run_decoder L r1 n
     end) = Ret (res, r1) /\ res <= 0 /\ owned r1 /\ ins r1 <= ins r /\ bytes_ok (held (l_out r1)).
Proof.
  intros r n Ho Hn Hs Hb. destruct (held (l_in r)) as [|x inp] eqn:Ei.
  - exists 0, r. splits; auto; lia.
  - destruct (output_spec r n Ho Hs) as [(h1 & A & B & _)|(b & h2 & A & B)]; rewrite A; cbn [obind].
    + change (negb (- E_OUT_OF_MEMORY =? 0)) with true. cbv iota. do 2 eexists. split; [reflexivity|]. unfold E_OUT_OF_MEMORY, ins. cbn. splits; auto; lia.
    + change (negb (0 =? 0)) with false. cbv iota. unfold run_decoder. cbn [l_dec l_in l_out l_heap held]. rewrite Ei.
      destruct (lz_code L (l_dec r) (x :: inp) (n - zlen (held (l_out r)))) as [[[ret k] out] d] eqn:Ec.
      assert (Hroom : 0 < n - zlen (held (l_out r))) by lia. assert (Hne : x :: inp <> []) by discriminate.
      destruct (Hlib _ _ _ _ _ _ _ Hne Hroom Ec) as (K1 & K2 & K3).
      destruct (Z.ltb_spec k 0); [lia|]. destruct (Z.ltb_spec (zlen (x :: inp)) k); [lia|].
      destruct (Z.ltb_spec (n - zlen (held (l_out r))) (zlen out)); [lia|]. cbn [orb].
      assert (Hi : zlen (held (option_map (fun bl => (fst bl, zdrop k (snd bl))) (l_in r))) <= ins r).
      { rewrite (held_map (zdrop k)) by (unfold zdrop; apply skipn_nil). unfold ins. rewrite Ei. rewrite zlen_zdrop by lia. lia. }
      destruct ret; (do 2 eexists; split; [reflexivity|]); splits;
        try (unfold E_LZMA_DECODE; lia); try exact Hi;
        try (unfold owned; cbn [l_heap l_in l_out option_map fst]; rewrite ids_map; exact B);
        cbn [l_out held option_map snd]; auto; apply Forall_app; auto.
Qed.

Lemma loop_safe : forall K left r n, owned r -> 0 < n -> zlen (held (l_out r)) < n -> bytes_ok (held (l_out r)) ->
  ins r + zlen left < 2 ^ word_bits -> (1 <= K)%nat -> (2 <= K \/ left = [])%nat -> exists res out r1 l1,
    lzma_loop L K r left n = Ret (res, out, r1, l1) /\ owned r1 /\ res <= 1 /\ (res = 0 -> zlen out = n) /\ bytes_ok out /\
    bytes_ok (held (l_out r1)) /\ ins r1 + zlen l1 <= ins r + zlen left /\ (l1 = left \/ l1 = []) /\ (res = 1 -> l1 = []).
Proof.
  induction K; intros left r n Ho Hn Hs Hb Hw HK1 HK; [lia|]. cbn [lzma_loop].
  destruct (attempt_safe r n Ho Hn Hs Hb) as (res & r1 & A & A1 & A2 & A3 & A4). rewrite A. cbn [obind].
  destruct (Z.eqb_spec res 0) as [->|Hne]; cbn [negb].
  2:{ do 4 eexists. split; [reflexivity|]. splits; auto; try lia. apply Forall_nil. }
  destruct (get_decompressed_data r1 n) as [[out r2]|] eqn:G.
  { apply get_some in G; [|auto]. destruct G as (G1 & G2 & G3 & G4 & G5 & G6). do 4 eexists. split; [reflexivity|]. splits; auto; try lia.
    - intros _. subst out. rewrite zlen_ztake; lia.
    - subst out. apply Forall_ztake. auto.
    - rewrite G3. apply Forall_zdrop. auto.
    - unfold ins in *. rewrite G5. lia. }
  apply get_none in G; [|auto].
  destruct (input_spec r1 left A2 ltac:(unfold ins in *; lia)) as [(I1 & I2)|[(I1 & h1 & I2 & I3 & _)|(I1 & b & h2 & I2 & I3)]]; rewrite I2; cbn [obind].
  - subst left. change (negb (1 =? 0)) with true. cbv iota. do 4 eexists. split; [reflexivity|]. splits; auto; try lia. apply Forall_nil.
  - change (negb (- E_OUT_OF_MEMORY =? 0)) with true. cbv iota. do 4 eexists. split; [reflexivity|]. unfold E_OUT_OF_MEMORY, ins in *. cbn. splits; auto; try lia. apply Forall_nil.
  - change (negb (0 =? 0)) with false. cbv iota. destruct HK as [HK|HK]; [|congruence].
    destruct (IHK [] (mklz (l_dec r1) (Some (b, held (l_in r1) ++ left)) (l_out r1) h2) n I3 Hn G A4)
      as (res' & out' & r1' & l1' & B1 & B2 & B3 & B4 & B5 & B6 & B7 & B8 & B9).
    + unfold ins in *. cbn [l_in held]. rewrite zlen_app. change (zlen (@nil Z)) with 0. lia.
    + lia.
    + right. reflexivity.
    + exists res', out', r1', l1'. splits; auto.
      * unfold ins in *. cbn [l_in held] in B7. rewrite zlen_app in B7. change (zlen (@nil Z)) with 0 in B7. lia.
      * right. destruct B8; auto.
Qed.

Lemma lzma_safe : forall r left n, owned r -> 0 < n -> bytes_ok (held (l_out r)) -> ins r + zlen left < 2 ^ word_bits ->
  exists res out r1 l1,
    lzma_decompress L r left n = Ret (res, out, r1, l1) /\ owned r1 /\ res <= 1 /\ (res = 0 -> zlen out = n) /\ bytes_ok out /\
    bytes_ok (held (l_out r1)) /\ ins r1 + zlen l1 <= ins r + zlen left /\ (l1 = left \/ l1 = []) /\ (res = 1 -> l1 = []).
Proof.
  intros r left n Ho Hn Hb Hw. unfold lzma_decompress. destruct (get_decompressed_data r n) as [[out r2]|] eqn:G.
  - apply get_some in G; [|auto]. destruct G as (G1 & G2 & G3 & G4 & G5 & G6). do 4 eexists. split; [reflexivity|]. splits; auto; try lia.
    + intros _. subst out. rewrite zlen_ztake; lia.
    + subst out. apply Forall_ztake. auto.
    + rewrite G3. apply Forall_zdrop. auto.
    + unfold ins. rewrite G5. lia.
  - apply get_none in G; [|auto]. apply loop_safe; auto.
Qed.

End Safe.

(** ** A stream the library can decode *)

Section Stream.
Hypothesis Hmem : enough_memory L.

(** The reader, the unread bytes of the chunk and the pieces to come hold the rest
    [rest] of the data. *)
Definition yields (f : list Z) (r : lzma_reader D) (left rest : list Z) : Prop :=
  owned r /\ zlen (held (l_in r)) + zlen left + zlen f < 2 ^ word_bits /\
  exists R o, decoder_invariant L R /\ R (l_dec r) (held (l_in r) ++ left ++ f) o /\ rest = held (l_out r) ++ o /\
    (o = [] -> held (l_in r) = []).

Lemma attempt_yields : forall f r left rest n, yields f r left rest -> 0 < n -> zlen (held (l_out r)) < n -> n <= zlen rest ->
  exists r1,
    (match held (l_in r) with
     | [] => Ret (0, r)
     | _ =>
         letm (res, r1) := prepare_output_buffer L r n in
         if negb (res =? 0) then Ret (res, r1) else run_decoder L r1 n
     end) = Ret (0, r1) /\ yields f r1 left rest /\ (zlen (held (l_out r1)) < n -> held (l_in r1) = []).
Proof.
  intros f r left rest n (Ho & Hw & R & o & HR & H1 & H2 & H3) Hn Hs Hl. destruct (held (l_in r)) as [|x inp] eqn:Ei.
  - exists r. split; [reflexivity|]. split; [|auto]. split; [auto|]. rewrite Ei. split; [auto|]. exists R, o. auto.
  - destruct (output_spec r n Ho Hs) as [(h1 & A & B & C)|(b & h2 & A & B)]; [rewrite Hmem in C; discriminate|]. rewrite A. cbn [obind].
    change (negb (0 =? 0)) with false. cbv iota. unfold run_decoder. cbn [l_dec l_in l_out l_heap held]. rewrite Ei.
    destruct HR as [HR0 HR]. assert (Hroom : 0 < n - zlen (held (l_out r))) by lia.
    destruct (HR _ _ _ H1 (x :: inp) (left ++ f) (n - zlen (held (l_out r))) eq_refl ltac:(discriminate) Hroom)
      as (ret & k & out & d' & o' & C1 & C2 & C3 & C4 & C5 & C6 & C7 & C8).
    rewrite C1. destruct (Z.ltb_spec k 0); [lia|]. destruct (Z.ltb_spec (zlen (x :: inp)) k); [lia|].
    destruct (Z.ltb_spec (n - zlen (held (l_out r))) (zlen out)); [lia|]. cbn [orb].
    destruct (l_in r) as [[bi li]|] eqn:Eli; [|discriminate]. cbn [held] in Ei. subst li. cbn [option_map fst snd].
    destruct ret; [| |congruence]; (eexists; split; [reflexivity|]); (split; [split; [exact B|]; cbn [l_in l_out l_dec held]; split; [rewrite zlen_zdrop by lia; lia|]|cbn [l_in l_out held]; rewrite zlen_app; intros X; rewrite C7 by lia; apply zdrop_all; lia]);
      (exists R, o'; split; [split; auto|]; split; [rewrite zdrop_app_l in C6 by lia; exact C6|]; split; [rewrite H2, C5, app_assoc; reflexivity|];
       intros X; rewrite (C8 X); apply zdrop_all; lia).
Qed.

Lemma loop_yields : forall K f r left rest n, yields f r left rest -> 0 < n -> zlen (held (l_out r)) < n -> n <= zlen rest ->
  (1 <= K)%nat -> (2 <= K \/ left = [])%nat ->
  exists r1, 
    (exists l1, lzma_loop L K r left n = Ret (0, ztake n rest, r1, l1) /\ yields f r1 l1 (zdrop n rest) /\ (l1 = left \/ l1 = [])) \/
    (lzma_loop L K r left n = Ret (1, [], r1, []) /\ yields f r1 [] rest /\ f <> []).
Proof.
  induction K; intros f r left rest n Hy Hn Hs Hl HK1 HK; [lia|]. cbn [lzma_loop].
  destruct (attempt_yields f r left rest n Hy Hn Hs Hl) as (r1 & A & B & C). rewrite A. cbn [obind]. change (negb (0 =? 0)) with false. cbv iota.
  destruct (get_decompressed_data r1 n) as [[out r2]|] eqn:G.
  - apply get_some in G; [|auto]. destruct G as (G1 & G2 & G3 & G4 & G5 & G6). exists r2. left. exists left. destruct B as (Ho & Hw & R & o & HR & H1 & H2 & H3).
    split; [subst; rewrite ztake_app_l by lia; reflexivity|]. split; [|auto]. split; [auto|]. rewrite G5. split; [auto|].
    exists R, o. rewrite G3, G4. splits; auto. subst rest. apply zdrop_app_l. lia.
  - apply get_none in G; [|auto]. specialize (C G). destruct B as (Ho & Hw & R & o & HR & H1 & H2 & H3).
    destruct (input_spec r1 left Ho ltac:(pose proof (zlen_nonneg f); lia)) as [(I1 & I2)|[(I1 & h1 & I2 & I3 & I4)|(I1 & b & h2 & I2 & I3)]]; rewrite I2; cbn [obind].
    + change (negb (1 =? 0)) with true. cbv iota. exists r1. right. split; [reflexivity|]. subst left. split; [split; [auto|]; split; [auto|]; exists R, o; auto|].
      intros ->. rewrite C in H1. cbn [app] in H1. destruct HR as [HR0 HR]. apply HR0 in H1. subst o. rewrite app_nil_r in H2. subst rest. lia.
    + rewrite Hmem in I4. discriminate.
    + change (negb (0 =? 0)) with false. cbv iota. destruct HK as [HK|HK]; [|congruence].
      destruct (IHK f (mklz (l_dec r1) (Some (b, held (l_in r1) ++ left)) (l_out r1) h2) [] rest n) as (r3 & P).
      * split; [exact I3|]. cbn [l_in l_out l_dec held]. rewrite zlen_app. change (zlen (@nil Z)) with 0. split; [lia|].
        exists R, o. splits; auto.
        { rewrite <- !app_assoc. cbn [app]. exact H1. }
        intros ->. rewrite app_nil_r in H2. subst rest. lia.
      * auto.
      * exact G.
      * auto.
      * lia.
      * auto.
      * exists r3. destruct P as [(l1 & P1 & P2 & P3)|P]; [left|right; auto]. exists l1. splits; auto. right. destruct P3; auto.
Qed.

(** A read of [n] bytes that are still to come delivers them, or waits for the next
    piece after the chunk has been used up. *)
Lemma lzma_yields : forall f r left rest n, yields f r left rest -> 0 < n <= zlen rest ->
  exists r1,
    (exists l1, lzma_decompress L r left n = Ret (0, ztake n rest, r1, l1) /\ yields f r1 l1 (zdrop n rest) /\ (l1 = left \/ l1 = [])) \/
    (lzma_decompress L r left n = Ret (1, [], r1, []) /\ yields f r1 [] rest /\ f <> []).
Proof.
  intros f r left rest n Hy [Hn Hl]. unfold lzma_decompress. destruct (get_decompressed_data r n) as [[out r2]|] eqn:G.
  - apply get_some in G; [|auto]. destruct G as (G1 & G2 & G3 & G4 & G5 & G6). exists r2. left. exists left. destruct Hy as (Ho & Hw & R & o & HR & H1 & H2 & H3).
    split; [subst; rewrite ztake_app_l by lia; reflexivity|]. split; [|auto]. split; [auto|]. rewrite G5. split; [auto|].
    exists R, o. rewrite G3, G4. splits; auto. subst rest. apply zdrop_app_l. lia.
  - apply get_none in G; [|auto]. apply loop_yields; auto.
Qed.

(** Nothing is left in the reader when all the data has been delivered. *)
Lemma yields_end : forall f r left, yields f r left [] -> exists h, lzma_destroy r = Ret (0, h) /\ h_live h = [].
Proof.
  intros f r left (Ho & Hw & R & o & HR & H1 & H2 & H3). symmetry in H2. apply app_eq_nil in H2. destruct H2 as [H2 H2'].
  destruct (destroy_spec r Ho) as (h & A & B). exists h. rewrite A, H2, (H3 H2'). cbn. auto.
Qed.

(** The next piece. *)
Lemma yields_chunk : forall f r c rest, yields (c ++ f) r [] rest -> yields f r c rest.
Proof.
  intros f r c rest (Ho & Hw & R & o & HR & H1 & H2 & H3). split; [auto|]. rewrite zlen_app in Hw. change (zlen (@nil Z)) with 0 in Hw. split; [lia|].
  exists R, o. splits; auto.
Qed.

Lemma yields_start : forall d f left rest, decodes L d (left ++ f) rest -> zlen left + zlen f < 2 ^ word_bits ->
  yields f (mklz d None None (mkheap [] 0)) left rest.
Proof.
  intros d f left rest (R & HR & H) Hw. split; [apply owned_start|]. cbn. change (zlen (@nil Z)) with 0. split; [lia|]. exists R, rest. splits; auto.
Qed.

End Stream.

End Reader.
