(** In-place patches for the small decoder of LzmaExamples.v. *)

From Coq Require Import ZArith List Bool Lia ZifyBool ZifyNat ZifyN.
From Verif Require Import Prelude Lib Heatshrink CReader CSeq CInPlace Spec PyCreate PyInPlace InPlaceSpec InPlaceCreate InPlaceExamples IpBoundSpec IpBoundExamples
  CodesSpec Refuted CLzma CSeqLzma LzmaSpec LzmaExamples CIpLzma IpLzmaSpec IpLzmaApply.
Import ListNotations.
Open Scope Z_scope.

(** The patch of InPlaceExamples.v with this compression. *)
Definition ip_body : list Z :=
  [0; 0; 3; 9; 8; 7; 5; 13; 0; 0; 0; 0; 0; 0; 0; 0; 0; 0; 0; 0; 0; 0; 77; 0; 0; 0; 18; 16; 0; 0; 0; 0; 0; 0; 0; 0; 0; 0;
   0; 0; 0; 0; 0; 0; 0; 80; 0; 0; 11; 163; 147; 145; 157; 183; 223; 1; 2; 3; 4; 5; 7].
Definition ip_lzma : list Z := lzma_in_place 80 16 32 (zlen ip_from) (zlen ip_to) (toy_stream ip_body).

Lemma ip_body_bytes : bytes_ok ip_body.
Proof. repeat (constructor; [unfold byte_ok; lia|]). constructor. Qed.

Lemma ip_body_stream : lzma_stream toy_lib ip_body (toy_stream ip_body).
Proof. exact (toy_stream_ok toy_lib eq_refl eq_refl ip_body ip_body_bytes). Qed.

Lemma ex_ip_lzma : exists segs,
  sizes_ok 80 16 32 (zlen ip_from) (zlen ip_to) /\ lzma_in_place_patch toy_lib 80 16 32 (zlen ip_from) (zlen ip_to) segs ip_lzma /\
  apply_segments 80 16 32 ip_from 0 segs = Some ip_to /\ segments_in_limits 16 32 0 segs /\ enc_segments segs = ip_body /\
  bytes_ok (enc_segments segs) /\ zlen ip_lzma = 130 /\ zlen (enc_segments segs) = 61.
Proof.
  destruct (create_in_place_spec CompNone (fun _ => []) sort_suffixes 80 16 None ip_from ip_to sort_suffixes_ok ex_ip_to) as (patch & shift & A & B & C & F & G).
  - lia.
  - exists 5. reflexivity.
  - exists 2. reflexivity.
  - cbn. lia.
  - vm_compute. reflexivity.
  - vm_compute. reflexivity.
  - vm_compute. congruence.
  - intros X. discriminate X.
  - intros X. discriminate X.
  - change (zlen ip_from) with 40 in *. change (zlen ip_to) with 43 in *. change (calc_shift 80 16 (minimum_of 16 None) 40) with 32 in C. subst shift.
    destruct G as (segs & (H1 & stream & H2 & H3) & H4 & H5). change (zlen ip_from) with 40 in *. change (zlen ip_to) with 43 in *.
    assert (P : patch = in_place_header CompNone 80 16 32 40 43 ++ ip_body).
    { vm_compute in A. injection A as <-. vm_compute. reflexivity. }
    rewrite P in H2. apply app_inv_head in H2. subst stream.
    destruct H3 as [[_ X]|[Hne X]]; [vm_compute in X; discriminate|]. assert (Y : enc_segments segs = ip_body) by (inversion X; reflexivity).
    exists segs. rewrite Y. split; [exact F|]. split.
    { split; [exact H1|]. exists (toy_stream ip_body). split; [reflexivity|]. right. split; [exact Hne|]. rewrite Y. exact ip_body_stream. }
    split; [exact H4|]. split; [exact H5|]. split; [reflexivity|]. split; [exact ip_body_bytes|]. split; vm_compute; reflexivity.
Qed.

Lemma ex_ip_lzma_run : exists y d, @y_apply w64 toy toy_lib dev flash_env 400 junk_ip 0 (new_device ip_mem) [ztake 9 ip_lzma; zdrop 9 ip_lzma] = Ret (zlen ip_to, y, d) /\
  holds (d_mem d) ip_to /\ In (ERead 37 13) (d_log d).
Proof. do 2 eexists. split; [vm_compute; reflexivity|]. split; [vm_compute; reflexivity|]. vm_compute. auto 20. Qed.

Lemma ex_ip_lzma_interrupted : exists d, @lzma_interrupted w64 toy toy_lib ip_lzma (new_device ip_mem) d /\ d_step d = 3 /\ znth (d_mem d) 0 = Some (Some 9).
Proof.
  eexists. split.
  - eapply (@lzma_interrupted_once_more w64 toy toy_lib ip_lzma _ (Some 4%nat) (fun _ => Some 66) false 400 junk_ip 0 [ip_lzma]).
    + apply app_nil_r.
    + vm_compute. reflexivity.
    + lia.
    + vm_compute. intuition discriminate.
    + eapply (@lzma_interrupted_once_more w64 toy toy_lib ip_lzma _ (Some 10%nat) (fun _ => None) false 400 junk_ip 5 [ip_lzma]).
      * apply app_nil_r.
      * vm_compute. reflexivity.
      * lia.
      * vm_compute. intuition discriminate.
      * apply (@lzma_interrupted_never w64).
  - vm_compute. auto.
Qed.

(** The patch that announces 8 bytes and then describes 40. *)
Definition ex_greedy_lzma : list Z :=
  lzma_in_place (n_memory ex_greedy_ann) (n_segment ex_greedy_ann) (n_shift ex_greedy_ann) (n_from ex_greedy_ann) (n_to ex_greedy_ann) (toy_stream ex_greedy_body).

Lemma ex_greedy_stream : lzma_stream toy_lib ex_greedy_body (toy_stream ex_greedy_body).
Proof. apply (toy_stream_ok toy_lib eq_refl eq_refl). exact (proj1 (proj2 ex_greedy_hyps)). Qed.

Lemma toy_starts : lz_start toy_lib <> None.
Proof. discriminate. Qed.

Lemma ex_device_mem_codes : mem_codes (fun r => r <= 0 /\ r <> -11) ex_device_env.
Proof. split; [|split]; intros; cbn; try lia. destruct (_ && _); cbn; lia. Qed.

Lemma ex_greedy_lzma_run : exists y,
  @y_apply w64 toy toy_lib _ (watching ex_device_env) 400 junk_ip 0 (tt, []) [ztake 3 ex_greedy_lzma; zdrop 3 ex_greedy_lzma]
  = Ret (- E_CORRUPT_PATCH, y,
         (tt, [EErase 15 5; ERead 5 5; EWrite 15 5; EErase 10 5; ERead 0 5; EWrite 10 5;
               EErase 0 5; ERead 10 3; EWrite 0 3; EWrite 3 2; EErase 5 3; ERead 10 2; EWrite 5 2])).
Proof. eexists. vm_compute. reflexivity. Qed.

(** A body with a byte after the last segment, handed over separately. *)
Definition ip_long_body : list Z := ip_body ++ [0].
Definition ip_long : list Z := lzma_in_place 80 16 32 (zlen ip_from) (zlen ip_to) (toy_stream ip_long_body).

Lemma ip_lzma_result_refuted : exists body stream chunks, lzma_stream toy_lib body stream /\ bytes_ok body /\
  concat chunks = lzma_in_place 80 16 32 (zlen ip_from) (zlen ip_to) stream /\
  exists s y d, @ip_apply w64 _ flash_env 400 junk_ip (zlen (plain_in_place 80 16 32 (zlen ip_from) (zlen ip_to) body)) (new_device ip_mem)
      [plain_in_place 80 16 32 (zlen ip_from) (zlen ip_to) body] = Ret (- E_CORRUPT_PATCH, s, d) /\
    @y_apply w64 toy toy_lib _ flash_env 400 junk_ip 0 (new_device ip_mem) chunks = Ret (zlen ip_to, y, d).
Proof.
  exists ip_long_body, (toy_stream ip_long_body), [ztake 129 ip_long; zdrop 129 ip_long].
  assert (B : bytes_ok ip_long_body) by (apply Forall_app; split; [exact ip_body_bytes|constructor; [unfold byte_ok; lia|constructor]]).
  split; [exact (toy_stream_ok toy_lib eq_refl eq_refl _ B)|]. split; [exact B|]. split; [vm_compute; reflexivity|]. do 3 eexists. split; vm_compute; reflexivity.
Qed.
