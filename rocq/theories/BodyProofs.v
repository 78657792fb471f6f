(** The records of a body one field at a time. *)

From Coq Require Import ZArith List Bool Lia ZifyBool ZifyNat ZifyN.
From Verif Require Import Prelude Lib Spec SeqSpec SeqBound BodySpec.
Import ListNotations.
Open Scope Z_scope.

Definition prefix (p : list Z) (x : option (list Z * list Z)) : option (list Z * list Z) :=
  match x with None => None | Some (o, r) => Some (p ++ o, r) end.

Lemma prefix_app : forall a b x, prefix a (prefix b x) = prefix (a ++ b) x.
Proof. intros a b [[o r]|]; cbn [prefix]; [rewrite app_assoc|]; reflexivity. Qed.

Lemma prefix_nil : forall x, prefix [] x = x.
Proof. intros [[o r]|]; reflexivity. Qed.

Definition bm (from : list Z) (pos left : Z) (l : list Z) := records_mean (length l) from pos left l.

Definition at_adj (from : list Z) (pos left : Z) (x : option (Z * list Z)) :=
  match x with
  | None => None
  | Some (a, l3) => if pos + a <? 0 then None else bm from (pos + a) left l3
  end.

Definition extra_data (from : list Z) (pos left n : Z) (rest : list Z) :=
  if zlen rest <? n then None
  else prefix (ztake n rest) (at_adj from pos (left - n) (dec_size (zdrop n rest))).

Definition at_esize (from : list Z) (pos left : Z) (x : option (Z * list Z)) :=
  match x with
  | None => None
  | Some (e, l2) => if (e <? 0) || (left <? e) then None else extra_data from pos left e l2
  end.

Definition diff_data (from : list Z) (pos left n : Z) (rest : list Z) :=
  if zlen rest <? n then None
  else match slice from pos n with
       | None => None
       | Some old => prefix (add_mod (ztake n rest) old) (at_esize from (pos + n) (left - n) (dec_size (zdrop n rest)))
       end.

Definition at_dsize (from : list Z) (pos left : Z) (x : option (Z * list Z)) :=
  match x with
  | None => None
  | Some (d, l1) => if (d <? 0) || (left <? d) then None else diff_data from pos left d l1
  end.

Lemma mean_fuel : forall k j from pos left l, (length l <= k)%nat -> (length l <= j)%nat ->
  records_mean k from pos left l = records_mean j from pos left l.
Proof.
  induction k; intros j from pos left l Hk Hj.
  - destruct l; [|cbn in Hk; lia]. destruct j; [reflexivity|]. cbn. destruct (left =? 0); reflexivity.
  - destruct j as [|j].
    { destruct l; [|cbn in Hj; lia]. cbn. destruct (left =? 0); reflexivity. }
    cbn [records_mean]. destruct (left =? 0); [reflexivity|].
    destruct (dec_size l) as [[d l1]|] eqn:D1; [|reflexivity].
    destruct (_ || _); [reflexivity|]. destruct (slice from pos d); [|reflexivity].
    destruct (dec_size (zdrop d l1)) as [[e l2]|] eqn:D2; [|reflexivity].
    destruct (_ || _); [reflexivity|].
    destruct (dec_size (zdrop e l2)) as [[a l3]|] eqn:D3; [|reflexivity].
    destruct (_ <? 0); [reflexivity|].
    apply dec_size_len in D1, D2, D3. pose proof (zdrop_length d l1). pose proof (zdrop_length e l2).
    rewrite (IHk j); [reflexivity|lia|lia].
Qed.

Lemma bm_done : forall from pos l, bm from pos 0 l = Some ([], l).
Proof. intros. unfold bm. destruct l; reflexivity. Qed.

Lemma bm_unfold : forall from pos left l, left <> 0 -> bm from pos left l = at_dsize from pos left (dec_size l).
Proof.
  intros from pos left l Hl. unfold bm.
  rewrite (mean_fuel (length l) (Datatypes.S (length l))) by lia. cbn [records_mean].
  destruct (Z.eqb_spec left 0); [lia|]. unfold at_dsize.
  destruct (dec_size l) as [[d l1]|] eqn:D1; [|reflexivity].
  unfold diff_data. destruct ((d <? 0) || (left <? d)); [reflexivity|]. cbn [orb].
  destruct (zlen l1 <? d); [reflexivity|].
  destruct (slice from pos d); [|reflexivity]. unfold at_esize.
  destruct (dec_size (zdrop d l1)) as [[e l2]|] eqn:D2; [|reflexivity].
  destruct ((e <? 0) || (left - d <? e)); [reflexivity|]. cbn [orb]. unfold extra_data.
  destruct (zlen l2 <? e); [reflexivity|]. unfold at_adj.
  destruct (dec_size (zdrop e l2)) as [[a l3]|] eqn:D3; [|reflexivity].
  destruct (_ <? 0); [reflexivity|].
  apply dec_size_len in D1, D2, D3. pose proof (zdrop_length d l1). pose proof (zdrop_length e l2).
  unfold bm. rewrite (mean_fuel (length l) (length l3)) by lia.
  destruct (records_mean _ _ _ _ _) as [[o r]|]; reflexivity.
Qed.

(** A part of the diff data, and of the extra data. *)
Lemma add_mod_app : forall a b c d, zlen a = zlen b -> add_mod (a ++ c) (b ++ d) = add_mod a b ++ add_mod c d.
Proof.
  induction a as [|x a IH]; intros [|y b] c d H; rewrite ?zlen_nil, ?zlen_cons in H; try reflexivity.
  - pose proof (zlen_nonneg b). lia.
  - pose proof (zlen_nonneg a). lia.
  - cbn [app add_mod]. rewrite IH by lia. reflexivity.
Qed.

Lemma slice_split : forall from pos m n, 0 < m <= n -> 0 <= pos -> pos + m <= zlen from ->
  slice from pos n = match slice from (pos + m) (n - m) with
                     | None => None
                     | Some r => Some (ztake m (zdrop pos from) ++ r)
                     end.
Proof.
  intros from pos m n Hm Hp Hl. unfold slice. destruct (Z.eqb_spec n 0); [lia|]. destruct (Z.eqb_spec (n - m) 0) as [E|E].
  - replace n with m by lia. destruct ((0 <=? pos) && (pos + m <=? zlen from)) eqn:X; [|lia]. rewrite app_nil_r. reflexivity.
  - replace (pos + m + (n - m)) with (pos + n) by lia.
    destruct (Z.leb_spec 0 pos); [|lia]. destruct (Z.leb_spec 0 (pos + m)); [|lia]. cbn [andb].
    destruct (pos + n <=? zlen from); [|reflexivity]. f_equal.
    unfold ztake, zdrop. replace (Z.to_nat (pos + m)) with (Z.to_nat pos + Z.to_nat m)%nat by lia.
    assert (SS : forall a b (l : list Z), skipn (a + b) l = skipn b (skipn a l)).
    { clear. induction a; intros b [|x l]; cbn; auto. destruct b; reflexivity. }
    rewrite SS.
    replace (Z.to_nat n) with (Z.to_nat m + Z.to_nat (n - m))%nat by lia.
    generalize (skipn (Z.to_nat pos) from). generalize (Z.to_nat m). generalize (Z.to_nat (n - m)). clear.
    intros a b. induction b; intros [|x l]; cbn; auto; [destruct a; reflexivity|f_equal; apply IHb].
Qed.

Lemma diff_split : forall from pos left n o rest, 0 < zlen o <= n -> 0 <= pos -> pos + zlen o <= zlen from ->
  diff_data from pos left n (o ++ rest) =
  prefix (add_mod o (ztake (zlen o) (zdrop pos from))) (diff_data from (pos + zlen o) (left - zlen o) (n - zlen o) rest).
Proof.
  intros from pos left n o rest Ho Hp Hl. unfold diff_data. rewrite zlen_app.
  destruct (Z.ltb_spec (zlen o + zlen rest) n); destruct (Z.ltb_spec (zlen rest) (n - zlen o)); try lia; [reflexivity|].
  rewrite (slice_split from pos (zlen o) n) by lia.
  destruct (slice from (pos + zlen o) (n - zlen o)) as [r|]; [|reflexivity].
  rewrite prefix_app. rewrite (ztake_app_r) by lia. rewrite zdrop_app_r by lia.
  rewrite add_mod_app by (rewrite zlen_ztake, zlen_zdrop by lia; lia).
  replace (pos + zlen o + (n - zlen o)) with (pos + n) by lia. replace (left - zlen o - (n - zlen o)) with (left - n) by lia. reflexivity.
Qed.

Lemma extra_split : forall from pos left n o rest, 0 < zlen o <= n ->
  extra_data from pos left n (o ++ rest) = prefix o (extra_data from pos (left - zlen o) (n - zlen o) rest).
Proof.
  intros from pos left n o rest Ho. unfold extra_data. rewrite zlen_app.
  destruct (Z.ltb_spec (zlen o + zlen rest) n); destruct (Z.ltb_spec (zlen rest) (n - zlen o)); try lia; [reflexivity|].
  rewrite prefix_app. rewrite ztake_app_r by lia. rewrite zdrop_app_r by lia.
  replace (left - zlen o - (n - zlen o)) with (left - n) by lia. reflexivity.
Qed.

Lemma diff_none : forall from pos left rest, diff_data from pos left 0 rest = at_esize from pos left (dec_size rest).
Proof.
  intros. unfold diff_data. pose proof (zlen_nonneg rest). destruct (Z.ltb_spec (zlen rest) 0); [lia|].
  unfold slice. cbn [Z.eqb]. change (ztake 0 rest) with (@nil Z). change (zdrop 0 rest) with rest. cbn [add_mod]. rewrite prefix_nil, Z.add_0_r, Z.sub_0_r. reflexivity.
Qed.

Lemma extra_none : forall from pos left rest, extra_data from pos left 0 rest = at_adj from pos left (dec_size rest).
Proof.
  intros. unfold extra_data. pose proof (zlen_nonneg rest). destruct (Z.ltb_spec (zlen rest) 0); [lia|].
  change (ztake 0 rest) with (@nil Z). change (zdrop 0 rest) with rest. rewrite prefix_nil, Z.sub_0_r. reflexivity.
Qed.

(** ** The length *)

Lemma zlen_add : forall a b, zlen a = zlen b -> zlen (add_mod a b) = zlen a.
Proof.
  induction a as [|x a IH]; intros [|y b] H; cbn [add_mod]; try reflexivity.
  - rewrite zlen_cons in H. change (zlen (@nil Z)) with 0 in H. pose proof (zlen_nonneg a). lia.
  - rewrite !zlen_cons in *. rewrite IH by lia. reflexivity.
Qed.

Lemma slice_len : forall from pos n old, 0 <= n -> slice from pos n = Some old -> zlen old = n.
Proof.
  intros from pos n old Hn H. unfold slice in H. destruct (Z.eqb_spec n 0) as [->|]; [inv H; reflexivity|].
  destruct ((0 <=? pos) && (pos + n <=? zlen from)) eqn:X; inv H. rewrite zlen_ztake, zlen_zdrop by lia. lia.
Qed.

Lemma mean_len : forall k from pos left l to rest, 0 <= left -> records_mean k from pos left l = Some (to, rest) -> zlen to = left.
Proof.
  induction k; intros from pos left l to rest Hl H; cbn [records_mean] in H; (destruct (Z.eqb_spec left 0) as [->|]; [inv H; reflexivity|]); [discriminate|].
  destruct (dec_size l) as [[d l1]|]; [|discriminate]. destruct ((d <? 0) || (left <? d) || (zlen l1 <? d)) eqn:C1; [discriminate|].
  destruct (slice from pos d) as [old|] eqn:S; [|discriminate]. destruct (dec_size (zdrop d l1)) as [[e l2]|]; [|discriminate].
  destruct ((e <? 0) || (left - d <? e) || (zlen l2 <? e)) eqn:C2; [discriminate|]. destruct (dec_size (zdrop e l2)) as [[a l3]|]; [|discriminate].
  destruct (pos + d + a <? 0); [discriminate|]. destruct (records_mean k _ _ _ _) as [[to2 rest2]|] eqn:M; [|discriminate]. inv H.
  apply IHk in M; [|lia]. apply slice_len in S; [|lia].
  assert (zlen (ztake d l1) = d) by (rewrite zlen_ztake by lia; lia).
  assert (zlen (ztake e l2) = e) by (rewrite zlen_ztake by lia; lia).
  rewrite !zlen_app, zlen_add by lia. lia.
Qed.

Lemma described_size : forall from n body to rest, 0 <= n -> described from n body = Some (to, rest) -> zlen to = n.
Proof.
  intros from n body to rest Hn H. unfold described in H. destruct (Z.eqb_spec n 0) as [->|]; [inv H; reflexivity|].
  destruct (dec_size body) as [[d l]|]; [|discriminate]. destruct (0 <? d); [discriminate|]. eapply mean_len; eauto.
Qed.
