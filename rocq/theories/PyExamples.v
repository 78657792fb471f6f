(** Concrete cases for the theorems about the Python functions, and the cases in
    which trailing bytes are accepted. *)

From Coq Require Import ZArith List Bool Lia ZifyBool ZifyNat ZifyN.
From Verif Require Import Prelude Lib Heatshrink CReader CSeq Spec PySize PyCrle Bsdiff BsdiffSpec PyCreate HsProofs HsSpec CreateExamples PyApply PySpec PySeq PyThms.
Import ListNotations.
Open Scope Z_scope.

(** ** A heatshrink decoder *)

(** It collects everything and decodes in finish(). *)
Fixpoint decode (fuel : nat) (wb lb : nat) (bits : list bool) : list token :=
  match fuel, bits with
  | S f, true :: l =>
      if Nat.ltb (length l) 8 then []
      else Lit (bval (firstn 8 l)) :: decode f wb lb (skipn 8 l)
  | S f, false :: l =>
      if Nat.ltb (length l) (wb + lb) then []
      else Ref (bval (firstn wb l) + 1) (bval (firstn lb (skipn wb l)) + 1) :: decode f wb lb (skipn (wb + lb) l)
  | _, _ => []
  end.

Definition ex_reader : hs_reader :=
  mkhsr (Z * Z * list Z) (fun wb lb => (wb, lb, []))
        (fun st data => let '(wb, lb, l) := st in Some ([], (wb, lb, l ++ data)))
        (fun st => let '(wb, lb, l) := st in
                   Some (tokens_expand [] (decode (length (bytes_bits l)) (Z.to_nat wb) (Z.to_nat lb) (bytes_bits l)))).

Lemma split_at : forall (n : nat) v (l : list bool), firstn n (to_bits n v ++ l) = to_bits n v /\ skipn n (to_bits n v ++ l) = l.
Proof.
  intros. pose proof (to_bits_length n v) as E. split.
  - rewrite firstn_app, E, Nat.sub_diag. rewrite firstn_all2 by lia. apply app_nil_r.
  - rewrite skipn_app, E, Nat.sub_diag. rewrite skipn_all2 by lia. reflexivity.
Qed.

Lemma decode_tokens : forall wb lb ts pad fuel, 4 <= wb -> 3 <= lb -> Forall (token_ok wb lb) ts -> (length pad < 8)%nat ->
  (length (enc_tokens wb lb ts ++ pad) <= fuel)%nat ->
  decode fuel (Z.to_nat wb) (Z.to_nat lb) (enc_tokens wb lb ts ++ pad) = ts.
Proof.
  intros wb lb ts pad. induction ts as [|t ts IH]; intros fuel Hw Hl Ht Hp Hf.
  - cbn [enc_tokens flat_map app]. destruct fuel; [reflexivity|]. destruct pad as [|[] pad]; cbn [decode length] in *; [reflexivity| |].
    + destruct (Nat.ltb_spec (length pad) 8); [reflexivity|lia].
    + destruct (Nat.ltb_spec (length pad) (Z.to_nat wb + Z.to_nat lb)); [reflexivity|lia].
  - inversion Ht as [|? ? T1 T2]; subst. unfold enc_tokens in *. cbn [flat_map] in *. rewrite <- app_assoc in *. set (rest := flat_map (enc_token wb lb) ts ++ pad) in *.
    rewrite app_length in Hf. destruct t as [b|d c]; cbn [enc_token token_ok] in *.
    + destruct fuel; [cbn in Hf; lia|]. cbn [app]. cbn [decode]. rewrite app_length, to_bits_length. destruct (Nat.ltb_spec (8 + length rest) 8); [lia|].
      rewrite (proj1 (split_at 8 b rest)), (proj2 (split_at 8 b rest)), bval_to_bits. unfold byte_ok in T1. change (2 ^ Z.of_nat 8) with 256. rewrite Z.mod_small by lia. rewrite IH; auto.
      cbn [length] in Hf. rewrite to_bits_length in Hf. lia.
    + destruct fuel; [cbn in Hf; lia|]. cbn [app]. rewrite <- app_assoc. cbn [decode]. rewrite !app_length, !to_bits_length.
      destruct (Nat.ltb_spec (Z.to_nat wb + (Z.to_nat lb + length rest)) (Z.to_nat wb + Z.to_nat lb)); [lia|].
      rewrite (proj1 (split_at _ (d - 1) _)), (proj2 (split_at _ (d - 1) _)). rewrite (proj1 (split_at _ (c - 1) _)).
      replace (skipn (Z.to_nat wb + Z.to_nat lb) (to_bits (Z.to_nat wb) (d - 1) ++ to_bits (Z.to_nat lb) (c - 1) ++ rest)) with rest.
      2:{ rewrite app_assoc, skipn_app, skipn_all2 by (rewrite app_length, !to_bits_length; lia). rewrite app_length, !to_bits_length, Nat.sub_diag. reflexivity. }
      rewrite !bval_to_bits, !Z2Nat.id by lia. rewrite !Z.mod_small by lia. rewrite IH; auto.
      * f_equal. f_equal; lia.
      * cbn [length] in Hf. rewrite app_length, !to_bits_length in Hf. lia.
Qed.

Lemma expand_nothing : forall wb lb ts, Forall (token_ok wb lb) ts -> tokens_expand [] ts = [] -> ts = [].
Proof.
  intros wb lb [|[b|d c] ts] H E; [reflexivity|discriminate|]. inversion H as [|? ? T _]; subst. cbn [token_ok] in T. cbn [tokens_expand] in E.
  pose proof (copy_back_len (Z.to_nat c) d []) as L. destruct (copy_back (Z.to_nat c) d []) as [out hist]. cbn [fst] in L. apply app_eq_nil in E. destruct E as [-> _]. cbn in L. lia.
Qed.

Lemma ex_reader_ok : hs_reader_ok ex_reader.
Proof.
  exists (fun st rest out => let '(wb, lb, l) := st in exists ts pad, 4 <= wb /\ 3 <= lb /\ Forall (token_ok wb lb) ts /\ (length pad < 8)%nat /\
            bytes_bits (l ++ rest) = enc_tokens wb lb ts ++ pad /\ out = tokens_expand [] ts /\ (out = [] -> l = [])).
  split; [|split; [|split]].
  - intros [[wb lb] l] data rest out (ts & pad & A & B & C & D & E & F & G). exists [], out, (wb, lb, l ++ data). split; [reflexivity|]. split; [reflexivity|].
    exists ts, pad. rewrite <- app_assoc. repeat (split; [assumption|]). intros ->. symmetry in F. pose proof (expand_nothing _ _ _ C F) as ->. cbn [enc_tokens flat_map app] in E.
    rewrite <- E in D. rewrite G in * by reflexivity. cbn [app] in *. apply (f_equal zlen) in E. rewrite zlen_bytes_bits in E. destruct data; [reflexivity|]. cbn [bytes_bits flat_map app] in D.
    rewrite app_length, to_bits_length in D. lia.
  - intros [[wb lb] l] out (ts & pad & A & B & C & D & E & F & G). cbn [ex_reader hsr_finish]. rewrite app_nil_r in E. rewrite E. rewrite decode_tokens by auto. congruence.
  - intros [[wb lb] l] rest (ts & pad & A & B & C & D & E & F & G). symmetry in F. pose proof (expand_nothing _ _ _ C F) as ->. cbn [enc_tokens flat_map app] in E. rewrite <- E in D.
    rewrite G in D by reflexivity. destruct rest; [reflexivity|]. cbn [app bytes_bits flat_map] in D. rewrite app_length, to_bits_length in D. lia.
  - intros wb lb ts pad bytes A B C D E F. cbn [ex_reader hsr_open]. exists ts, pad. repeat (split; [first [lia|assumption]|]). auto.
Qed.

Lemma literals_stream : forall pieces, bytes_ok (concat pieces) -> py_stream CompHeatshrink (concat pieces) (literals pieces).
Proof. intros. apply compressed_py. apply literals_ok. assumption. Qed.

(** ** Runs *)

(** No other compressions, no data formats and no hdiffpatch. *)
Definition ex_ext : externals := mkext ex_reader (fun _ => none_dec).
Definition ex_formats : df_readers := fun _ _ _ _ => raise OtherError.
Definition ex_hdiff (from patch : list Z) : pyo (Z * list Z) := raise OtherError.

Lemma ex_py_run : forall c, exists patch, create_sequential c literals ex_sa ex_from ex_to = Ret (Some patch) /\
  apply_patch ex_ext ex_formats ex_hdiff 100 false ex_from patch = ret (28, ex_to).
Proof. intros []; eexists; (split; [vm_compute; reflexivity|]); vm_compute; reflexivity. Qed.

(** ** Accepted trailing bytes *)

Lemma py_empty_trailing : forall X F hdiff fuel clamps c hs sa from tl,
  exists patch, create_sequential c hs sa from [] = Ret (Some patch) /\ apply_patch X F hdiff fuel clamps from (patch ++ tl) = ret (0, []).
Proof. intros X F hdiff fuel clamps c hs sa from tl. destruct c; eexists; (split; [reflexivity|]); reflexivity. Qed.

Lemma py_void_trailing : exists patch, create_sequential CompCrle literals ex_sa ex_from ex_to = Ret (Some patch) /\
  forall X F hdiff, apply_patch X F hdiff 100 false ex_from (patch ++ [0; 0]) = ret (28, ex_to) /\
  apply_patch X F hdiff 100 false ex_from (patch ++ [0; 5]) = ret (28, ex_to).
Proof. eexists. split; [vm_compute; reflexivity|]. intros. split; vm_compute; reflexivity. Qed.

Lemma ex_not_void : ~ crle_void [0; 1; 7] /\ ~ crle_void [1] /\ ~ crle_void [2; 0; 0].
Proof.
  split; [|split]; intros H; inversion H as [|l rest D V|l v rest D V|l n D]; subst; vm_compute in D; try discriminate.
Qed.

Lemma ex_to_ne : ex_to <> [].
Proof. discriminate. Qed.
