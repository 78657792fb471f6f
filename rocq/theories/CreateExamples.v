(** Concrete cases for the theorems about patch creation and the callback API. *)

From Coq Require Import ZArith List Bool Lia ZifyBool ZifyNat ZifyN Wf_nat.
From Verif Require Import Prelude Lib Heatshrink CReader CSeq Spec PySize PyCrle Bsdiff BsdiffSpec PyCreate CallbackSpec.
Import ListNotations.
Open Scope Z_scope.

(** A heatshrink compressor that only emits literals. *)
Definition bits_byte (a b c d e f g h : bool) : Z :=
  b2z h + 2 * (b2z g + 2 * (b2z f + 2 * (b2z e + 2 * (b2z d + 2 * (b2z c + 2 * (b2z b + 2 * b2z a)))))).

Fixpoint bits_bytes (l : list bool) : list Z :=
  match l with
  | a :: b :: c :: d :: e :: f :: g :: h :: l' => bits_byte a b c d e f g h :: bits_bytes l'
  | [] => []
  | [a] => [bits_byte a false false false false false false false]
  | [a; b] => [bits_byte a b false false false false false false]
  | [a; b; c] => [bits_byte a b c false false false false false]
  | [a; b; c; d] => [bits_byte a b c d false false false false]
  | [a; b; c; d; e] => [bits_byte a b c d e false false false]
  | [a; b; c; d; e; f] => [bits_byte a b c d e f false false]
  | [a; b; c; d; e; f; g] => [bits_byte a b c d e f g false]
  end.

Definition literals (pieces : list (list Z)) : list Z := 68 :: bits_bytes (enc_tokens 8 7 (map Lit (concat pieces))).

Lemma byte_bits : forall a b c d e f g h, to_bits 8 (bits_byte a b c d e f g h) = [a; b; c; d; e; f; g; h] /\ byte_ok (bits_byte a b c d e f g h).
Proof. intros [] [] [] [] [] [] [] []; (split; [reflexivity|unfold byte_ok; vm_compute; split; [discriminate|reflexivity]]). Qed.

Lemma bits_bytes_ok : forall n l, (length l <= n)%nat -> bytes_ok (bits_bytes l) /\ exists pad, (length pad < 8)%nat /\ bytes_bits (bits_bytes l) = l ++ pad.
Proof.
  induction n; intros l Hl.
  - destruct l; [|cbn in Hl; lia]. split; [constructor|]. exists []. split; [cbn; lia|reflexivity].
  - destruct l as [|a [|b [|c [|d [|e [|f [|g [|h l]]]]]]]].
    1: split; [constructor|]; exists []; split; [cbn; lia|reflexivity].
    1-7: (split; [constructor; [apply byte_bits|constructor]|]).
    8:{ cbn [length] in Hl. destruct (IHn l ltac:(lia)) as (A & pad & B & C). cbn [bits_bytes]. split; [constructor; [apply byte_bits|exact A]|].
        exists pad. split; [exact B|]. unfold bytes_bits in *. cbn [flat_map]. rewrite C. rewrite (proj1 (byte_bits _ _ _ _ _ _ _ _)). reflexivity. }
    exists (repeat false 7). 2: exists (repeat false 6). 3: exists (repeat false 5). 4: exists (repeat false 4). 5: exists (repeat false 3). 6: exists (repeat false 2). 7: exists (repeat false 1).
    all: split; [cbn; lia|]; unfold bytes_bits; cbn [bits_bytes flat_map]; rewrite (proj1 (byte_bits _ _ _ _ _ _ _ _)); reflexivity.
Qed.

Lemma expand_literals : forall l hist, tokens_expand hist (map Lit l) = l.
Proof. induction l; intros; cbn [map tokens_expand]; [reflexivity|]. rewrite IHl. reflexivity. Qed.

Lemma literals_ok : forall pieces, bytes_ok (concat pieces) -> compressed CompHeatshrink (concat pieces) (literals pieces).
Proof.
  intros pieces Hb. unfold literals. set (ts := map Lit (concat pieces)). rewrite <- (expand_literals (concat pieces) []) at 1. fold ts.
  destruct (bits_bytes_ok (length (enc_tokens 8 7 ts)) (enc_tokens 8 7 ts) (le_n _)) as (A & pad & B & C).
  apply (compressed_heatshrink ts pad); auto. unfold ts. clear -Hb. induction Hb; cbn [map]; constructor; auto.
Qed.

Definition ex_from : list Z := [98; 97; 110; 97; 110; 97; 1; 2; 3; 4; 5; 6; 7; 8; 9].
Definition ex_to : list Z := [97; 110; 97; 1; 2; 3; 4; 5; 6; 7; 8; 9; 0; 98; 97; 110; 97; 110; 97; 1; 2; 3; 5; 5; 6; 7; 8; 9].
Definition ex_sa : list Z := [15; 6; 7; 8; 9; 10; 11; 12; 13; 14; 5; 3; 1; 0; 4; 2].

Lemma ex_array : array_ok ex_sa ex_from.
Proof. split; [reflexivity|]. repeat constructor; vm_compute; congruence. Qed.

Lemma ex_to_bytes : bytes_ok ex_to.
Proof. repeat constructor; vm_compute; congruence. Qed.

Lemma ex_body : forall chunks, create_patch ex_sa ex_from ex_to = Ret (Some chunks) -> 1 + zlen (concat chunks) < 2 ^ 28.
Proof. intros chunks E. vm_compute in E. injection E as <-. vm_compute. reflexivity. Qed.

Definition junk_ap : ap := mkap 0 SFailed true 3 1 2 3 4 5 None (mksz true 9 9 true) 4 [1; 2] (mksz true 8 8 true).

(** Two records at least, one of them with a non-zero diff byte, are produced. *)
Lemma ex_created : exists chunks, create_patch ex_sa ex_from ex_to = Ret (Some chunks) /\ (5 < length chunks)%nat.
Proof. eexists. split; [vm_compute; reflexivity|]. cbn. lia. Qed.

Lemma ex_run_crle : exists patch s w pos, create_sequential CompCrle literals ex_sa ex_from ex_to = Ret (Some patch) /\
  @apply_patch_callbacks (64 : WordBits) _ (env_with file_env Z) 100 junk_ap (patch_file patch) (zlen patch) (mkfiles ex_from 0 [], 0) = Ret (28, s, (w, pos)) /\
  f_to w = ex_to.
Proof. do 4 eexists. split; [vm_compute; reflexivity|]. split; vm_compute; reflexivity. Qed.

Lemma ex_log : exists s w, @apply_patch_callbacks (32 : WordBits) _ (env_with (mkenv unit (fun w n => (0, zrepeat 0 n, w)) (fun w _ => (0, w)) (fun w _ => (0, w))) (list Z)) 9 junk_ap
    (recorded (fun w n => (0, 2 :: 0 :: zrepeat 0 (n - 2), w))) 600 (tt, []) = Ret (0, s, (w, [512; 88])).
Proof. do 2 eexists. vm_compute. reflexivity. Qed.

Lemma ex_bad_array : array_ok [3; 0; 0; 2] [7; 7; 7].
Proof. split; [reflexivity|]. repeat constructor; vm_compute; congruence. Qed.

Lemma ex_c27 : 2 ^ 30 <= 2 ^ 31 - 1 < 2 ^ 31.
Proof. vm_compute. split; congruence. Qed.

Lemma ex_search : search (length ex_sa) ex_sa ex_from (zlen ex_from) ex_to 13 (zlen ex_to - 13) 0 (zlen ex_from) = Ret (9, 0).
Proof. vm_compute. reflexivity. Qed.

Lemma ex_feed : exists s w, @c_apply (32 : WordBits) 50 junk_ap 4 [] [[0; 0]; [9]; [7]] = Ret (- E_CORRUPT_PATCH, s, w).
Proof. do 2 eexists. vm_compute. reflexivity. Qed.
