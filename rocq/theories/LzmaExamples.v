(** A small decoder that meets the assumptions about liblzma, and patches for it. *)

From Coq Require Import ZArith List Bool Lia ZifyBool ZifyNat ZifyN.
From Verif Require Import Prelude Lib Heatshrink CReader CSeq Spec SeqSpec SeqExamples CLzma CSeqLzma LzmaSpec.
Import ListNotations.
Open Scope Z_scope.

(** A stream is a sequence of 1 followed by a byte, ended by 0. *)
Inductive toy := TMark | TByte | TEnd.

(** As liblzma, the decoder also looks at the next mark if there is no room left. *)
Fixpoint toy_code (d : toy) (input : list Z) (n : Z) : lzma_ret * Z * list Z * toy :=
  match d, input with
  | TEnd, _ => (LzStreamEnd, 0, [], TEnd)
  | _, [] => (LzOk, 0, [], d)
  | TMark, b :: l =>
      if b =? 0 then (LzStreamEnd, 1, [], TEnd)
      else if b =? 1 then let '(r, k, out, d1) := toy_code TByte l n in (r, k + 1, out, d1)
      else (LzOther, 1, [], TMark)
  | TByte, b :: l =>
      if n <=? 0 then (LzOk, 0, [], TByte)
      else let '(r, k, out, d1) := toy_code TMark l (n - 1) in (r, k + 1, b mod 256 :: out, d1)
  end.

Definition toy_lib : lzma_lib toy := mklib toy (Some TMark) toy_code (fun _ => true).

(** The same with memory for [m] allocations only. *)
Definition toy_poor (m : Z) : lzma_lib toy := mklib toy (Some TMark) toy_code (fun k => k <? m).

Definition toy_stream (body : list Z) : list Z := flat_map (fun b => [1; b]) body ++ [0].

Lemma toy_fits : forall input d n ret k out d', 0 <= n -> toy_code d input n = (ret, k, out, d') ->
  0 <= k <= zlen input /\ zlen out <= n /\ bytes_ok out /\ zlen out <= k.
Proof.
  assert (B : bytes_ok []) by apply Forall_nil. assert (N : zlen (@nil Z) = 0) by reflexivity.
  induction input as [|b l IH]; intros d n ret k out d' Hn H; cbn [toy_code] in H.
  - destruct d; injection H as <- <- <- <-; rewrite N; repeat split; auto; lia.
  - pose proof (zlen_nonneg l). rewrite zlen_cons. destruct d.
    + destruct (b =? 0); [injection H as <- <- <- <-; rewrite N; repeat split; auto; lia|]. destruct (b =? 1).
      2:{ injection H as <- <- <- <-; rewrite N; repeat split; auto; lia. }
      destruct (toy_code TByte l n) as [[[r k1] o1] d1] eqn:Q. injection H as <- <- <- <-. apply IH in Q; auto. destruct Q as (Q1 & Q2 & Q3 & Q4). repeat split; auto; lia.
    + destruct (Z.leb_spec n 0); [injection H as <- <- <- <-; rewrite N; repeat split; auto; lia|].
      destruct (toy_code TMark l (n - 1)) as [[[r k1] o1] d1] eqn:Q. injection H as <- <- <- <-. apply IH in Q; [|lia]. destruct Q as (Q1 & Q2 & Q3 & Q4).
      rewrite zlen_cons. repeat split; try lia. constructor; [|exact Q3]. pose proof (Z.mod_pos_bound b 256). unfold byte_ok; lia.
    + injection H as <- <- <- <-; rewrite N; repeat split; auto; lia.
Qed.

Lemma toy_lib_ok : lib_ok toy_lib.
Proof. intros d input n ret k out d' _ Hn H. destruct (toy_fits input d n ret k out d' ltac:(lia) H) as (A & B & C & _). auto. Qed.

Lemma toy_poor_ok : forall m, lib_ok (toy_poor m).
Proof. intros m. exact toy_lib_ok. Qed.

Lemma toy_bounded : bounded_output toy_lib.
Proof.
  exists 1, (fun _ => 0). split; [lia|]. split; [intros; lia|]. intros d input n ret k out d' _ Hn H.
  destruct (toy_fits input d n ret k out d' ltac:(lia) H) as (_ & _ & _ & A). lia.
Qed.

Lemma toy_memory : enough_memory toy_lib.
Proof. intros k. reflexivity. Qed.

(** A decoder in the middle of a stream. *)
Definition toy_rest (d : toy) (i o : list Z) : Prop :=
  bytes_ok o /\
  match d with
  | TMark => i = toy_stream o
  | TByte => exists b o', o = b :: o' /\ i = b :: toy_stream o'
  | TEnd => i = [] /\ o = []
  end.

Lemma toy_decodes : forall given d rest o n, 0 <= n -> toy_rest d (given ++ rest) o ->
  exists ret k out d' o', toy_code d given n = (ret, k, out, d') /\ ret <> LzOther /\ 0 <= k <= zlen given /\ zlen out <= n /\ o = out ++ o' /\
    toy_rest d' (zdrop k (given ++ rest)) o' /\ (zlen out < n -> k = zlen given) /\ (o' = [] -> k = zlen given).
Proof.
  induction given as [|g given IH]; intros d rest o n Hn [Hb H].
  - cbn [toy_code app]. exists (match d with TEnd => LzStreamEnd | _ => LzOk end), 0, [], d, o. change (zlen (@nil Z)) with 0.
    split; [destruct d; reflexivity|]. split; [destruct d; discriminate|]. split; [lia|]. split; [lia|]. split; [reflexivity|]. split; [split; assumption|]. auto.
  - destruct d; cbn [toy_code app toy_rest] in *.
    + destruct o as [|b o]; cbn [toy_stream flat_map app] in H; injection H as -> H.
      * apply app_eq_nil in H. destruct H as [-> ->]. cbn. exists LzStreamEnd, 1, [], TEnd, []. repeat split; auto; try lia; discriminate.
      * change (1 =? 0) with false. change (1 =? 1) with true. cbv iota.
        destruct (IH TByte rest (b :: o) n Hn) as (ret & k & out & d' & o' & A1 & A2 & A3 & A4 & A5 & A6 & A7 & A8).
        { split; [exact Hb|]. exists b, o. split; [reflexivity|]. exact H. }
        rewrite A1. exists ret, (k + 1), out, d', o'. rewrite zlen_cons. split; [reflexivity|]. split; [auto|]. split; [lia|]. split; [lia|]. split; [auto|].
        split; [|split; intros X; [specialize (A7 X)|specialize (A8 X)]; lia]. replace (zdrop (k + 1) (1 :: given ++ rest)) with (zdrop k (given ++ rest)); [exact A6|].
        unfold zdrop. replace (Z.to_nat (k + 1)) with (S (Z.to_nat k)) by lia. reflexivity.
    + destruct H as (b & o1 & -> & H). injection H as -> H. destruct (Z.leb_spec n 0).
      * exists LzOk, 0, [], TByte, (b :: o1). change (zlen (@nil Z)) with 0. rewrite zlen_cons. pose proof (zlen_nonneg given). split; [reflexivity|]. split; [discriminate|]. split; [lia|]. split; [lia|]. split; [reflexivity|].
        split; [split; [exact Hb|]; exists b, o1; split; [reflexivity|]; cbn; rewrite H; reflexivity|]. split; [lia|discriminate].
      * inversion Hb as [|? ? Hb1 Hb2]; subst.
        destruct (IH TMark rest o1 (n - 1) ltac:(lia)) as (ret & k & out & d' & o' & A1 & A2 & A3 & A4 & A5 & A6 & A7 & A8); [split; assumption|].
        rewrite A1. exists ret, (k + 1), (b mod 256 :: out), d', o'. rewrite Z.mod_small by (unfold byte_ok in Hb1; lia). rewrite !zlen_cons. split; [reflexivity|]. split; [auto|]. split; [lia|]. split; [lia|].
        split; [rewrite A5; reflexivity|].
        split; [|split; intros X; [specialize (A7 ltac:(lia))|specialize (A8 X)]; lia]. replace (zdrop (k + 1) (b :: given ++ rest)) with (zdrop k (given ++ rest)); [exact A6|].
        unfold zdrop. replace (Z.to_nat (k + 1)) with (S (Z.to_nat k)) by lia. reflexivity.
    + destruct H as [H _]. discriminate.
Qed.

Lemma toy_stream_ok : forall L, lz_start L = Some TMark -> lz_code L = toy_code -> forall body, bytes_ok body -> lzma_stream L body (toy_stream body).
Proof.
  intros L H1 H2 body Hb. exists TMark. split; [exact H1|]. exists toy_rest. split; [|split; [exact Hb|reflexivity]]. split.
  - intros d o [_ H]. destruct d; cbn in H.
    + unfold toy_stream in H. destruct (flat_map _ o); discriminate.
    + destruct H as (b & o1 & _ & H). discriminate.
    + tauto.
  - intros d i o H given rest n -> Hg Hn. rewrite H2. apply toy_decodes; auto. lia.
Qed.

(** The example patch of SeqExamples.v with this compression. *)
Definition ex_lzma : list Z := [1; 7] ++ toy_stream ex_body.

Lemma ex_lzma_patch : lzma_patch toy_lib ex_recs ex_lzma.
Proof.
  right. split.
  - exists [mkrec [1; 0; 2] [7; 8] (-3)], (mkrec [5; 5] [] 0). split; reflexivity.
  - exists (toy_stream ex_body). split; [|reflexivity]. apply (toy_stream_ok toy_lib eq_refl eq_refl ex_body).
    repeat (constructor; [unfold byte_ok; lia|]). constructor.
Qed.
