(** Concrete images, and what goes wrong with pointers and descriptions that
    PyFormatSpec.v excludes. *)

From Coq Require Import ZArith List Bool Lia ZifyBool ZifyNat ZifyN.
From Verif Require Import Prelude Lib Spec BsdiffSpec PyCreate PyApply PySpec PyBsdiff40 PyFormat PyFormatSpec PyFormatFields PyFormatCreate CreateExamples PyExamples.
Import ListNotations.
Open Scope Z_scope.

(** ** A matcher: the common beginning of the two lists *)

Fixpoint common (a b : list Z) : Z :=
  match a, b with
  | x :: a', y :: b' => if x =? y then 1 + common a' b' else 0
  | _, _ => 0
  end.
Definition ex_matcher : matcher := fun a b => [(0, 0, common a b)].

Lemma common_ok : forall a b, 0 <= common a b /\ common a b <= zlen a /\ common a b <= zlen b /\ ztake (common a b) a = ztake (common a b) b.
Proof.
  induction a as [|x a IH]; intros b; [cbn [common]; pose proof (zlen_nonneg b); change (zlen (@nil Z)) with 0; rewrite !ztake_0; auto with zarith|].
  destruct b as [|y b]; cbn [common]; [change (zlen (@nil Z)) with 0; pose proof (zlen_nonneg (x :: a)); rewrite !ztake_0; auto with zarith|].
  pose proof (zlen_nonneg a). pose proof (zlen_nonneg b). destruct (Z.eqb_spec x y) as [->|_]; [|rewrite !ztake_0, !zlen_cons; split; [lia|]; split; [lia|]; split; [lia|reflexivity]].
  destruct (IH b) as (A & B & C & D). rewrite !zlen_cons. split; [lia|]. split; [lia|]. split; [lia|]. rewrite !ztake_cons by lia. replace (1 + common a b - 1) with (common a b) by lia. rewrite D. reflexivity.
Qed.

Lemma ex_matcher_ok : matcher_ok ex_matcher.
Proof.
  intros a b. destruct (common_ok a b) as (A & B & C & D). split; [|reflexivity]. repeat constructor; try lia. rewrite !zdrop_0. exact D.
Qed.

Definition ex_sort (x : list Z) : list Z := map Z.of_nat (seq 0 (S (length x))).

Lemma ex_sort_ok : forall x, array_ok (ex_sort x) x.
Proof.
  intros x. unfold ex_sort, array_ok. split; [unfold zlen; rewrite map_length, seq_length; lia|]. apply Forall_forall. intros p Hp. apply in_map_iff in Hp.
  destruct Hp as (n & <- & Hn). apply in_seq in Hn. unfold zlen. lia.
Qed.

(** ** A Cortex-M4 image: nine bl, then an ldr and a b.w, then nine pointers and what
    the ldr loads *)

Definition ex_bl (n : Z) : list Z := [0; 240; n; 248].
Definition ex_word (v : Z) : list Z := pack_le 4 v.
Definition ex_image (n m : Z) : list Z :=
  flat_map ex_bl [n; n + 1; n + 2; n + 3; n + 4; n + 5; n + 6; n + 7; n + 8] ++ [1; 72; 0; 191; 64; 240; 7; 128] ++
  flat_map (fun i => ex_word (536870912 + m + 4 * i)) [0; 1; 2; 3; 4; 5; 6; 7; 8] ++ [1; 2; 3].

Definition ex_arm_from : list Z := ex_image 10 0.
Definition ex_arm_to : list Z := 0 :: 191 :: 0 :: 191 :: ex_image 7 4.
Definition ex_seg : segment := mkseg (mkrng 44 80 536870912 536870948 0 0) (mkrng 48 84 536870912 536871168 0 0).

Lemma ex_seg_ok : segment_ok ex_seg /\ pointers_fit 0 ex_seg /\ bytes_ok ex_arm_from /\ bytes_ok ex_arm_to.
Proof.
  split; [|split; [|split]].
  - unfold segment_ok, ex_seg, address. cbn [sg_from r_data_end r_offset_end r_offset_begin r_data_begin r_code_end r_code_begin].
    change (2 ^ 64) with 18446744073709551616. change (2 ^ 63) with 9223372036854775808. lia.
  - split; vm_compute; discriminate.
  - unfold ex_arm_from. assert (E : forallb (fun b => (0 <=? b) && (b <? 256)) (ex_image 10 0) = true) by (vm_compute; reflexivity).
    rewrite forallb_forall in E. apply Forall_forall. intros x Hx. specialize (E x Hx). unfold byte_ok. lia.
  - assert (E : forallb (fun b => (0 <=? b) && (b <? 256)) ex_arm_to = true) by (vm_compute; reflexivity).
    rewrite forallb_forall in E. apply Forall_forall. intros x Hx. specialize (E x Hx). unfold byte_ok. lia.
Qed.

(** Both blocks, of bl and of pointers, are in the patch. *)
Lemma ex_format_run :
  (exists from1 to1 patch diff, encode ex_matcher arm_cortex_m4 ex_arm_from ex_arm_to ex_seg = ret (from1, to1, patch) /\
     zlen patch = 42 /\ nth 38 from1 9 = 0 /\ nth 4 from1 9 = 0 /\ format_readers 0 ex_arm_from patch (zlen ex_arm_to) = ret (diff, from1) /\
     nth 5 diff 0 = 240 /\ nth 51 diff 0 = 32 /\ sum_bytes to1 diff = ex_arm_to) /\
  (forall from1 to1 patch, encode ex_matcher arm_cortex_m4 ex_arm_from ex_arm_to ex_seg = ret (from1, to1, patch) -> zlen patch < 2 ^ 62) /\
  exists patch, create_format ex_matcher ex_sort CompCrle literals 0 ex_seg ex_arm_from ex_arm_to = ret patch /\
    apply_patch ex_ext format_readers ex_hdiff 1000 false ex_arm_from patch = ret (87, ex_arm_to).
Proof.
  split; [|split].
  - eexists _, _, _, _. split; [vm_compute; reflexivity|]. split; [vm_compute; reflexivity|]. split; [vm_compute; reflexivity|]. split; [vm_compute; reflexivity|].
    split; [vm_compute; reflexivity|]. split; [vm_compute; reflexivity|]. split; vm_compute; reflexivity.
  - intros from1 to1 patch E. assert (L : (dop (a, b, p) := encode ex_matcher arm_cortex_m4 ex_arm_from ex_arm_to ex_seg in ret (zlen p)) = ret 42) by (vm_compute; reflexivity).
    rewrite E in L. cbn [pbind ret] in L. injection L as ->. reflexivity.
  - eexists. split; [vm_compute; reflexivity|vm_compute; reflexivity].
Qed.

(** ** Pointers in the upper half of the address space (C37) *)

Definition ex_pointers (base : Z) : list Z := flat_map (fun i => ex_word (base + 4 * i)) [0; 1; 2; 3; 4; 5; 6; 7; 8].
Definition ex_high_from : list Z := ex_pointers 2147483648.
Definition ex_high_to : list Z := ex_pointers 2147483652.
Definition ex_high_seg : segment := mkseg (mkrng 0 36 2147483648 2147483684 0 0) (mkrng 0 36 2147483648 2147483704 0 0).

Lemma forallb_bytes : forall l, forallb (fun b => (0 <=? b) && (b <? 256)) l = true -> bytes_ok l.
Proof. intros l E. rewrite forallb_forall in E. apply Forall_forall. intros x Hx. specialize (E x Hx). unfold byte_ok. lia. Qed.

Lemma ex_high : segment_ok ex_high_seg /\ bytes_ok ex_high_from /\ bytes_ok ex_high_to /\
  exists patch, create_format ex_matcher ex_sort CompNone literals 0 ex_high_seg ex_high_from ex_high_to = ret patch /\
    apply_patch ex_ext format_readers ex_hdiff 1000 false ex_high_from patch = raise OtherError.
Proof.
  split; [|split; [|split]].
  - unfold segment_ok, ex_high_seg, address. cbn [sg_from r_data_end r_offset_end r_offset_begin r_data_begin r_code_end r_code_begin].
    change (2 ^ 64) with 18446744073709551616. change (2 ^ 63) with 9223372036854775808. lia.
  - apply forallb_bytes. vm_compute. reflexivity.
  - apply forallb_bytes. vm_compute. reflexivity.
  - eexists. split; [vm_compute; reflexivity|vm_compute; reflexivity].
Qed.

Lemma high_pointer : forall l, bytes_ok l -> zlen l = 4 -> 2 ^ 31 <= unpack_le l -> pack_s32 (unpack_le l) = raise OtherError.
Proof. intros l H E L. unfold pack_s32. replace ((- 2 ^ 31 <=? unpack_le l) && (unpack_le l <? 2 ^ 31)) with false by lia. reflexivity. Qed.

(** ** A description whose area in the file is not as long as the data: the data
    comes out wrong without an error *)

Definition ex_call0 (n m : Z) : list Z := [5; n; m].
Definition ex_calls (m : Z) : list Z := flat_map (fun i => ex_call0 i m) [0; 1; 2; 3; 4; 5; 6; 7; 8].
Definition ex_short_from : list Z := [5; 0; 0; 0] ++ ex_calls 1.
Definition ex_short_to : list Z := [5; 0; 0; 0] ++ ex_calls 2.
Definition ex_short_seg : segment := mkseg (mkrng 0 4 8 8 0 0) (mkrng 0 4 8 8 0 0).

Lemma ex_short : pointers_fit 2 ex_short_seg /\ bytes_ok ex_short_from /\ bytes_ok ex_short_to /\
  exists patch out, create_format ex_matcher ex_sort CompNone literals 2 ex_short_seg ex_short_from ex_short_to = ret patch /\
    apply_patch ex_ext format_readers ex_hdiff 1000 false ex_short_from patch = ret (31, out) /\ out <> ex_short_to.
Proof.
  split; [split; vm_compute; discriminate|]. split; [apply forallb_bytes; vm_compute; reflexivity|]. split; [apply forallb_bytes; vm_compute; reflexivity|].
  eexists _, _. split; [vm_compute; reflexivity|]. split; [vm_compute; reflexivity|]. vm_compute. discriminate.
Qed.

(** ** AArch64 pointers that are 2^63 or more apart cannot be packed *)

Definition ex_pointers64 (base : Z) : list Z := flat_map (fun i => pack_le 8 (base + 8 * i)) [0; 1; 2; 3; 4; 5; 6; 7; 8].
Definition ex_far_from : list Z := ex_pointers64 9223372036854775872.
Definition ex_far_to : list Z := ex_pointers64 0.
Definition ex_far_seg : segment :=
  mkseg (mkrng 0 72 9223372036854775872 9223372036854775944 0 0) (mkrng 0 72 0 72 0 0).

Lemma ex_far : segment_ok ex_far_seg /\ bytes_ok ex_far_from /\ bytes_ok ex_far_to /\
  create_format ex_matcher ex_sort CompNone literals 1 ex_far_seg ex_far_from ex_far_to = raise OtherError.
Proof.
  split; [|split; [|split]].
  - unfold segment_ok, ex_far_seg, address. cbn [sg_from r_data_end r_offset_end r_offset_begin r_data_begin r_code_end r_code_begin].
    change (2 ^ 64) with 18446744073709551616. change (2 ^ 63) with 9223372036854775808. lia.
  - apply forallb_bytes. vm_compute. reflexivity.
  - apply forallb_bytes. vm_compute. reflexivity.
  - vm_compute. reflexivity.
Qed.

(** ** Instructions (C35) *)

Lemma ex_bw : (0 <= 0xf47f < 2 ^ 16 /\ 0 <= 0xaffe < 2 ^ 16 /\ Z.land 0xf47f 0xf800 = 0xf000 /\ Z.land 0xaffe 0xc000 = 0x8000) /\
  unpack_bw 0xf47f 0xaffe = -62 /\ unpack_bl 0xf7ff 0xfffe = -2 /\ unpack_add 0x91000421 = 16385 /\ unpack_adrp 0xb0000001 = 0x200001.
Proof. vm_compute. repeat split; intros; discriminate. Qed.

Lemma ex_found : exists s, disassemble arm_cortex_m4 ex_arm_from (sg_from ex_seg) = ret s /\
  kind 1 s = [(0, 10); (4, 11); (8, 12); (12, 13); (16, 14); (20, 15); (24, 16); (28, 17); (32, 18)] /\ fd_data s <> [].
Proof. eexists. split; [vm_compute; reflexivity|]. split; [vm_compute; reflexivity|discriminate]. Qed.
