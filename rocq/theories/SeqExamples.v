(** A concrete patch in each of the three compressions, used to show that the
    hypotheses of the theorems about the sequential applier can be met. *)

From Coq Require Import ZArith List Bool Lia.
From Verif Require Import Prelude Lib Heatshrink CReader CSeq Spec SeqSpec Refuted.
Import ListNotations.
Open Scope Z_scope.

Definition ex_from : list Z := [10; 20; 30; 40; 50].
Definition ex_recs : list prec := [mkrec [1; 0; 2] [7; 8] (-3); mkrec [5; 5] [] 0].
Definition ex_to : list Z := [11; 20; 32; 7; 8; 15; 25].

Definition ex_body : list Z := [0; 3; 1; 0; 2; 2; 7; 8; 67; 2; 5; 5; 0; 0].

Definition ex_none : list Z := [0; 7] ++ ex_body.

Definition ex_segs : list seg := [Scattered [0; 3; 1; 0; 2; 2; 7; 8; 67; 2]; Repeated 2 5; Repeated 2 0].
Definition ex_crle : list Z := [2; 7] ++ enc_segs ex_segs.

Definition ex_tokens : list token :=
  [Lit 0; Lit 3; Lit 1; Ref 3 1; Lit 2; Ref 1 1; Lit 7; Lit 8; Lit 67; Ref 4 1; Lit 5; Ref 1 1; Lit 0; Ref 1 1].

(** Bits packed into bytes, most significant first, padded with zeros. *)
Fixpoint pack_bits (n : nat) (l : list bool) : list Z :=
  match n, l with
  | S n', _ :: _ =>
      fold_left (fun v b => 2 * v + b2z b) (firstn 8 (l ++ repeat false 7)) 0 :: pack_bits n' (skipn 8 l)
  | _, _ => []
  end.
Definition ex_stream : list Z := Eval vm_compute in pack_bits 100 (enc_tokens 8 7 ex_tokens).
Definition ex_pad : list bool :=
  Eval vm_compute in skipn (length (enc_tokens 8 7 ex_tokens)) (bytes_bits ex_stream).
Definition ex_hs : list Z := [4; 7] ++ 68 :: ex_stream.

Lemma ex_last : last_nonempty ex_recs.
Proof. exists [mkrec [1; 0; 2] [7; 8] (-3)], (mkrec [5; 5] [] 0). split; reflexivity. Qed.

Ltac all_bytes := repeat constructor; cbv; intuition discriminate.

Lemma ex_none_ok : seq_patch CompNone ex_recs ex_none.
Proof. right. split; [exact ex_last|]. exists ex_body. split; [exact (compressed_none ex_body)|reflexivity]. Qed.

Lemma ex_crle_ok : seq_patch CompCrle ex_recs ex_crle.
Proof.
  right. split; [exact ex_last|]. exists (enc_segs ex_segs). split; [|reflexivity].
  change (enc_body ex_recs) with (segs_expand ex_segs). constructor.
  repeat constructor; cbv; intuition discriminate.
Qed.

Lemma ex_hs_ok : seq_patch CompHeatshrink ex_recs ex_hs.
Proof.
  right. split; [exact ex_last|]. exists (68 :: ex_stream). split; [|reflexivity].
  change (enc_body ex_recs) with (tokens_expand [] ex_tokens).
  apply (compressed_heatshrink ex_tokens ex_pad).
  - repeat constructor; cbv; intuition discriminate.
  - all_bytes.
  - cbv. lia.
  - vm_compute. reflexivity.
Qed.

Lemma ex_limits : recs_in_limits ex_recs.
Proof. split; [reflexivity|]. split; repeat constructor; cbv; intuition discriminate. Qed.

Lemma ex_meaning : apply_recs ex_from 0 ex_recs = Some ex_to.
Proof. reflexivity. Qed.

Lemma ex_none_bytes : bytes_ok ex_none.
Proof. all_bytes. Qed.
Lemma ex_crle_bytes : bytes_ok ex_crle.
Proof. all_bytes. Qed.
Lemma ex_hs_bytes : bytes_ok ex_hs.
Proof. all_bytes. Qed.

Lemma ex_chunks_bytes : Forall bytes_ok [[255; 128]; []; [3]].
Proof. repeat constructor; cbv; intuition discriminate. Qed.

(** A patch_read callback: the world is the read position, which also gives the
    byte values. *)
Definition ex_patch_read (w : Z) (n : Z) : Z * list Z * Z := (0, zrepeat (w mod 256) n, w + n).

Lemma ex_patch_read_bytes : forall w n rr buf w1, ex_patch_read w n = (rr, buf, w1) -> bytes_ok buf.
Proof.
  intros w n rr buf w1 E. unfold ex_patch_read in E. injection E as <- <- <-.
  unfold zrepeat. apply Forall_forall. intros x Hx. apply repeat_spec in Hx. subst x.
  unfold byte_ok. apply Z.mod_pos_bound. lia.
Qed.

(** Contents of an uninitialised struct. *)
Definition ex_junk : ap :=
  mkap 77 SDone true 99 12345 54321 888 (-4) 17 None (mksz true (-1) 3 true) 5 [1; 2] (mksz true 7 8 false).

(** A corrupt patch: the second process() call fails, having written 3 bytes. *)
Lemma ex_failing : exists s w s1 w1,
  @run_calls w64 files file_env 100 (ap_init ex_junk 9) (mkfiles ex_from 0 []) [CallProcess [0; 7; 0; 3; 1; 0; 2]] = Ret ([0], s, w) /\
  f_to w = [11; 20; 32] /\
  @process w64 files file_env 100 128 s w [64 + 63; 0] = Ret (- E_CORRUPT_PATCH, s1, w1).
Proof. do 4 eexists. split; [vm_compute; reflexivity|]. split; [reflexivity|]. vm_compute. reflexivity. Qed.

Lemma ex_counted : exists s w,
  @feed w64 _ (counting file_env) 100 128 (ap_init ex_junk (zlen ex_none)) (mkfiles ex_from 0 [], 0) [[0; 7; 0]; tl ex_body]
  = Ret (7, s, (w, 7)).
Proof. do 2 eexists. vm_compute. reflexivity. Qed.

(** A from file on a device that refuses to seek before the start of the file or
    past 2 GB: callbacks that honour their contract. *)
Definition ex_device : seq_env files :=
  mkenv files
    (fun w n => if (0 <=? n) && (0 <=? f_pos w) && (f_pos w + n <=? Z.min (zlen (f_from w)) INT_MAX)
                then (0, ztake n (zdrop (f_pos w) (f_from w)), mkfiles (f_from w) (f_pos w + n) (f_to w))
                else (5, [], w))
    (fun w off => if (0 <=? f_pos w + off) && (f_pos w + off <=? INT_MAX)
                  then (0, mkfiles (f_from w) (f_pos w + off) (f_to w)) else (5, w))
    (fun w data => (0, mkfiles (f_from w) (f_pos w) (f_to w ++ data))).

Lemma ex_device_honest : honest ex_device f_pos.
Proof.
  unfold honest, ex_device; cbn [from_read from_seek to_write]. split; [|split].
  - intros w n rr buf w1 E ->. destruct (_ && _) eqn:B; inversion E; subst; clear E. cbn [f_pos].
    rewrite !andb_true_iff, !Z.leb_le in B. rewrite zlen_ztake, zlen_zdrop by lia. lia.
  - intros w off rr w1 E ->. destruct (_ && _) eqn:B; inversion E; subst; clear E. cbn [f_pos].
    rewrite !andb_true_iff, !Z.leb_le in B. lia.
  - intros w data rr w1 E ->. inversion E; subst. reflexivity.
Qed.

(** A hostile patch: records that seek far beyond the from file, twice. *)
Definition ex_hostile : list Z := [0; 2; 0; 0; 0; 191; 255; 255; 127; 0; 0; 191; 255; 255; 127; 1; 9].

Lemma ex_hostile_run : exists s w,
  @run_calls w64 files ex_device 100 (ap_init ex_junk 17) (mkfiles ex_from 0 []) [CallProcess ex_hostile; CallFinalize]
  = Ret ([- E_IO_FAILED; - E_ALREADY_FAILED], s, w).
Proof. do 2 eexists. vm_compute. reflexivity. Qed.

(** A patch without negative sizes that announces 2 bytes but describes more. *)
Definition ex_greedy_body : list Z := [0; 0; 1; 65; 0; 0; 5; 66; 66; 66; 66; 66; 0].
Definition ex_greedy : list Z := [0; 2] ++ ex_greedy_body.

Lemma ex_greedy_run : exists s w,
  @run_calls w64 _ (counting ex_device) 100 (ap_init ex_junk 15) (mkfiles ex_from 0 [], 0) [CallProcess ex_greedy; CallFinalize]
  = Ret ([- E_CORRUPT_PATCH; - E_ALREADY_FAILED], s, (w, 1)).
Proof. do 2 eexists. vm_compute. reflexivity. Qed.

Lemma ex_hostile_bytes : bytes_ok ex_hostile.
Proof. repeat constructor; cbv; intuition discriminate. Qed.

(** The stream of [ex_hs] with a last back reference of three bytes, two too many. *)
Definition ex_long_tokens : list token :=
  [Lit 0; Lit 3; Lit 1; Ref 3 1; Lit 2; Ref 1 1; Lit 7; Lit 8; Lit 67; Ref 4 1; Lit 5; Ref 1 1; Lit 0].
Definition ex_long_stream : list Z := Eval vm_compute in pack_bits 100 (enc_tokens 8 7 (ex_long_tokens ++ [Ref 1 3])).
Definition ex_long_pad : list bool :=
  Eval vm_compute in skipn (length (enc_tokens 8 7 (ex_long_tokens ++ [Ref 1 3]))) (bytes_bits ex_long_stream).
Definition ex_long : list Z := [4; 7; 68] ++ ex_long_stream.

Lemma ex_long_ok :
  ex_long = header_byte TYPE_SEQUENTIAL CompHeatshrink :: enc_size (recs_size ex_recs) ++ 68 :: ex_long_stream /\
  last_nonempty ex_recs /\ Forall (token_ok 8 7) (ex_long_tokens ++ [Ref 1 3]) /\
  bytes_bits ex_long_stream = enc_tokens 8 7 (ex_long_tokens ++ [Ref 1 3]) ++ ex_long_pad /\
  tokens_expand [] (ex_long_tokens ++ [Ref 1 3]) = enc_body ex_recs ++ [0; 0] /\
  (zlen (tokens_expand [] ex_long_tokens) <? zlen (enc_body ex_recs)) = true /\ bytes_ok ex_long.
Proof.
  split; [reflexivity|]. split; [exact ex_last|]. split; [repeat constructor; cbv; intuition discriminate|].
  split; [vm_compute; reflexivity|]. split; [reflexivity|]. split; [reflexivity|all_bytes].
Qed.
