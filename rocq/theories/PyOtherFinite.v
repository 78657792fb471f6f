(** The zstd wrapper ends on any data. *)

From Coq Require Import ZArith List Bool Lia ZifyBool ZifyNat ZifyN.
From Verif Require Import Prelude Lib PyApply PySpec PyAnySpec PyOther PyOtherSpec.
Import ListNotations.
Open Scope Z_scope.

Section Zstd.
Context (L : zstd_lib) (HQ : zstd_quiet L).

(** What is still delivered: everything the package writes until it raises. *)
Fixpoint zs_rest (k : nat) (st : zs_state L) (file : list Z) : list Z :=
  match k, file with
  | O, _ | _, [] => []
  | S k', _ =>
      match zs_write L st (ztake 4096 file) with
      | None => []
      | Some (o, st1) => o ++ zs_rest k' st1 (zdrop 4096 file)
      end
  end.

Definition Rzany (d : dstate (zstd_dec L)) (file out : list Z) : Prop :=
  zd_left d = zlen file /\ exists k, (length file <= k)%nat /\ out = zd_out d ++ zs_rest k (zd_state d) file.

Lemma zstd_any : contract (zstd_dec L) Rzany.
Proof using HQ.
  intros (left, o0, st) file out (A & k & Hk & ->). cbn [zd_left zd_out zd_state] in *. subst left. cbn [zstd_dec d_eof d_needs_input]. unfold zstd_needs_input.
  destruct (zstd_eof (@mkzd L (zlen file) o0 st)) eqn:He.
  - unfold zstd_eof in He. cbn [zd_left zd_out] in He. assert (E1 : file = []) by (apply zlen_0_nil; lia). assert (E2 : o0 = []) by (apply zlen_0_nil; lia). subst. destruct k; reflexivity.
  - cbn [zd_out negb]. rewrite andb_true_r. destruct (Z.eqb_spec (zlen o0) 0) as [E|E].
    + apply zlen_0_nil in E. subst o0. destruct file as [|b f1] eqn:Ef; [destruct k; reflexivity|]. destruct k as [|k]; [cbn [length] in Hk; lia|]. cbn [zs_rest app]. rewrite <- Ef in *.
      assert (Hl : (length (zdrop 4096 file) <= k)%nat) by (unfold zdrop; rewrite skipn_length; rewrite Ef in *; cbn [length] in *; lia).
      intros n Hn. unfold delivers. cbn [zstd_dec d_decompress]. unfold zstd_decompress. rewrite He. cbn [zd_state zd_out zd_left].
      destruct (zs_write L st (ztake 4096 file)) as [(o, st1)|]; [right|left; auto]. exists (ztake n o), (zdrop n o ++ zs_rest k st1 (zdrop 4096 file)). eexists. split; [reflexivity|].
      split; [split; cbn [zd_left zd_out zd_state app]; [rewrite zlen_ztake, zlen_zdrop by lia; lia|]; exists k; auto|].
      split; [rewrite app_assoc, ztake_zdrop; reflexivity|]. split; [rewrite zlen_ztake by lia; lia|discriminate].
    + intros n Hn. right. exists (ztake n o0), (zdrop n o0 ++ zs_rest k st file), (mkzd (zlen file) (zdrop n o0) st). cbn [zstd_dec d_decompress]. unfold zstd_decompress. rewrite He. cbn [zd_state zd_out zd_left].
      rewrite HQ, app_nil_r. change (zlen (@nil Z)) with 0. rewrite Z.sub_0_r. split; [reflexivity|]. split; [split; [reflexivity|]; exists k; auto|].
      split; [rewrite app_assoc, ztake_zdrop; reflexivity|]. split; [rewrite zlen_ztake by lia; lia|]. intros _. left. intros N. destruct o0; [apply E; reflexivity|]. rewrite ztake_cons in N by lia. discriminate.
Qed.

Lemma zstd_finite : forall file, finite_output (zstd_dec L) file.
Proof using HQ. intros file. eexists Rzany, _. split; [apply zstd_any|]. split; [reflexivity|]. exists (length file). split; [lia|reflexivity]. Qed.
End Zstd.
