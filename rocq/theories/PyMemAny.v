(** The Python in-place applier on arbitrary patches. *)

From Coq Require Import ZArith List Bool Lia ZifyBool ZifyNat ZifyN.
From Verif Require Import Prelude Lib Spec PySize PyCrle PyInPlace PyApply PySpec SizeCodec CrleProofs PyReader PyApplyProofs PyDecomp PySeq PyApplyInPlace
  PyInfo PyInfoSpec PyInfoProofs PyInfoThms PyMemProofs PyAnySpec.
Import ListNotations.
Open Scope Z_scope.

(** What is behind [hi] is the same, and nothing is cut off. *)
Definition kept (hi : Z) (m m1 : list Z) : Prop := zdrop hi m1 = zdrop hi m /\ zlen m <= zlen m1.

Lemma kept_refl : forall hi m, kept hi m m.
Proof. split; [reflexivity|lia]. Qed.

Lemma kept_trans : forall hi m1 m2 m3, kept hi m1 m2 -> kept hi m2 m3 -> kept hi m1 m3.
Proof. intros hi m1 m2 m3 [A1 A2] [B1 B2]. split; [congruence|lia]. Qed.

Lemma kept_le : forall a b m m1, 0 <= a <= b -> kept a m m1 -> kept b m m1.
Proof.
  intros a b m m1 H [A1 A2]. split; [|exact A2]. replace b with ((b - a) + a) by lia. rewrite <- !zdrop_zdrop by lia. rewrite A1. reflexivity.
Qed.

Lemma mem_write_kept : forall mem p data hi, 0 <= p -> p + zlen data <= hi -> kept hi mem (mem_write mem p data) /\ (data <> [] -> p + zlen data <= zlen (mem_write mem p data)).
Proof.
  intros mem p data hi Hp Hh. pose proof (zlen_nonneg data). pose proof (zlen_nonneg mem). unfold mem_write. destruct (Z.eqb_spec (zlen data) 0) as [E|E].
  - split; [apply kept_refl|]. apply zlen_0_nil in E. congruence.
  - assert (L : zlen (ztake p mem ++ zrepeat 0 (p - zlen mem)) = p) by (rewrite zlen_app, zlen_ztake by lia; unfold zrepeat; unfold zlen at 2; rewrite repeat_length; lia).
    assert (L2 : zlen (ztake p mem ++ zrepeat 0 (p - zlen mem) ++ data ++ zdrop (p + zlen data) mem) = p + zlen data + Z.max 0 (zlen mem - (p + zlen data))).
    { rewrite app_assoc, !zlen_app in *. rewrite zlen_zdrop by lia. lia. }
    split; [|intros _; lia]. split; [|lia]. replace (ztake p mem ++ zrepeat 0 (p - zlen mem) ++ data ++ zdrop (p + zlen data) mem)
      with ((ztake p mem ++ zrepeat 0 (p - zlen mem) ++ data) ++ zdrop (p + zlen data) mem) by (rewrite <- !app_assoc; reflexivity).
    assert (L3 : zlen (ztake p mem ++ zrepeat 0 (p - zlen mem) ++ data) = p + zlen data) by (rewrite app_assoc, zlen_app; lia).
    rewrite zdrop_app_r by lia. rewrite L3, zdrop_zdrop by lia. f_equal. lia.
Qed.

Section Any.
Context (D : decompressor) (R : dstate D -> list Z -> list Z -> Prop) (HR : contract D R).
Context (fuel : nat) (off hi : Z) (Hoff : 0 <= off).

Notation wpos s := (off + ps_dfdiff s).

Definition mem_body (body : Z -> list Z -> pstate D -> pyo (pstate D)) : Prop :=
  forall data s, data <> [] -> 0 <= ps_dfdiff s -> wpos s + zlen data <= hi ->
    (exists s1, body (zlen data) data s = ret s1 /\ ps_reader s1 = ps_reader s /\ ps_dfdiff s1 = ps_dfdiff s + zlen data /\
       kept hi (ps_out s) (ps_out s1) /\ wpos s1 <= zlen (ps_out s1)) \/
    body (zlen data) data s = raise OtherError.

Lemma diff_body : mem_body (mem_diff_chunk off).
Proof using Hoff.
  intros data s Hd Hp Hh. unfold mem_diff_chunk, seek_set. destruct (ps_from s <? 0); [right; reflexivity|]. cbn [pbind ret].
  destruct (Z.ltb_spec (off + ps_dfdiff s) 0); [lia|]. cbn [pbind ret].
  destruct (add_bytes_any data (file_read_at (ps_out s) (ps_from s) (zlen data))) as [(c & A & B & C)|A]; rewrite A; [|right; reflexivity]. cbn [pbind ret].
  left. eexists. split; [reflexivity|]. cbn [ps_reader ps_dfdiff ps_out]. split; [reflexivity|]. split; [reflexivity|].
  destruct (mem_write_kept (ps_out s) (off + ps_dfdiff s) c hi) as [K1 K2]; [lia|lia|]. split; [exact K1|].
  assert (c <> []) by (intros ->; change (zlen (@nil Z)) with 0 in B; apply Hd, zlen_0_nil; lia). specialize (K2 H0). lia.
Qed.

Lemma extra_body : mem_body (mem_extra_chunk off).
Proof using Hoff.
  intros data s Hd Hp Hh. unfold mem_extra_chunk. left. eexists. split; [reflexivity|]. cbn [ps_reader ps_dfdiff ps_out]. split; [reflexivity|]. split; [reflexivity|].
  destruct (mem_write_kept (ps_out s) (off + ps_dfdiff s) data hi) as [K1 K2]; [lia|lia|]. split; [exact K1|]. specialize (K2 Hd). lia.
Qed.

(** The result of a loop: the rest of the data, the position and the memory. *)
Definition went (s s1 : pstate D) (out1 : list Z) (n : Z) : Prop :=
  holds R fuel (ps_reader s1) out1 /\ ps_dfdiff s1 = ps_dfdiff s + Z.max n 0 /\ kept hi (ps_out s) (ps_out s1) /\ (0 < n -> wpos s1 <= zlen (ps_out s1)).

Lemma mem_chunks_any : forall body, mem_body body -> forall k left s out, holds R fuel (ps_reader s) out -> (length out < k)%nat -> 0 <= ps_dfdiff s -> wpos s + Z.max left 0 <= hi ->
  (exists s1, chunk_loop k fuel body left s = ret s1 /\ went s s1 (zdrop left out) left) \/
  exists e, chunk_loop k fuel body left s = raise e.
Proof using HR.
  intros body Hb. induction k; intros left s out H Hk Hp Hh; [lia|]. cbn [chunk_loop]. pose proof (zlen_nonneg out). destruct (Z.ltb_spec 0 left) as [L|L].
  2:{ left. exists s. unfold went. rewrite zdrop_neg by lia. split; [reflexivity|]. split; [auto|]. split; [lia|]. split; [apply kept_refl|lia]. }
  set (c := Z.min left 4096). pose proof (read_any D R HR fuel c _ _ H) as S. destruct (Z.ltb_spec (zlen out) c).
  - right. rewrite S. eexists. reflexivity.
  - destruct S as (r1 & A & B). rewrite A. cbn [pbind ret]. set (data := ztake c out) in *. assert (Lc : zlen data = c) by (unfold data; rewrite zlen_ztake by lia; lia).
    assert (Hd : data <> []) by (intros X; rewrite X in Lc; change (zlen (@nil Z)) with 0 in Lc; lia).
    destruct (Hb data (set_reader s r1) Hd) as [(s1 & E & F1 & F2 & F3 & F4)|E]; cbn [set_reader ps_dfdiff ps_out ps_reader] in *; rewrite ?Lc in *; try lia; rewrite E; cbn [pbind ret]; [|right; eexists; reflexivity].
    rewrite <- F1 in B.
    assert (Hk1 : (length (zdrop c out) < k)%nat) by (assert (1 <= c) by lia; unfold zdrop; rewrite skipn_length; unfold zlen in *; lia).
    destruct (IHk (left - c) s1 (zdrop c out) B Hk1) as [(s2 & Q & W1 & W2 & W3 & W4)|(e & Q)]; try lia; [|right; eauto].
    left. exists s2. split; [auto|]. unfold went. rewrite zdrop_zdrop in W1 by lia. replace (left - c + c) with left in W1 by lia. split; [auto|]. split; [lia|]. split; [eapply kept_trans; eauto|].
    intros _. destruct (Z_lt_dec 0 (left - c)); [apply W4; lia|]. assert (ps_dfdiff s2 = ps_dfdiff s1) by lia. destruct W3 as [_ W3]. lia.
Qed.

Lemma mem_iter_any : forall body, mem_body body -> forall to_pos to_size s out, holds R fuel (ps_reader s) out -> 0 <= ps_dfdiff s -> ps_dfdiff s = to_pos -> to_pos <= to_size -> off + to_size <= hi ->
  (exists s1 out1 n, iter_chunks fuel body to_pos to_size s = ret (to_pos + Z.max n 0, s1) /\ went s s1 out1 n /\ to_pos + n <= to_size /\ (length out1 < length out)%nat) \/
  exists e, iter_chunks fuel body to_pos to_size s = raise e.
Proof using HR.
  intros body Hb to_pos to_size s out H H1 H2 H3 H4. unfold iter_chunks. pose proof (size_any D R HR fuel _ _ H) as S. destruct (py_unpack_size out) as [(v, rest)|]; [|right; rewrite S; eexists; reflexivity].
  destruct S as (r1 & A & B & C). rewrite A. cbn [pbind ret]. destruct (Z.ltb_spec to_size (to_pos + v)); [right; eexists; reflexivity|].
  assert (Hk : (length rest < fuel)%nat) by (destruct B; lia).
  destruct (mem_chunks_any body Hb fuel v (set_reader s r1) rest B Hk) as [(s1 & Q & W)|(e & Q)]; cbn [set_reader ps_dfdiff]; try lia; rewrite Q; cbn [pbind ret]; [|right; eexists; reflexivity].
  left. exists s1, (zdrop v rest), v. split; [reflexivity|]. split; [exact W|]. split; [lia|]. unfold zdrop. rewrite skipn_length. lia.
Qed.

Lemma segment_any : forall k to_pos to_size s out, holds R fuel (ps_reader s) out -> (length out < k)%nat -> 0 <= to_pos -> ps_dfdiff s = to_pos -> to_pos <= to_size -> off + to_size <= hi ->
  (to_pos > 0 -> off + to_pos <= zlen (ps_out s)) ->
  (exists s1 out1, segment_loop k fuel off to_pos to_size s = ret s1 /\ holds R fuel (ps_reader s1) out1 /\ kept hi (ps_out s) (ps_out s1) /\ (0 < to_size -> off + to_size <= zlen (ps_out s1))) \/
  exists e, segment_loop k fuel off to_pos to_size s = raise e.
Proof using HR Hoff.
  induction k; intros to_pos to_size s out H Hk Hp Hs Hle Hh Hz; [lia|]. cbn [segment_loop]. destruct (Z.ltb_spec to_pos to_size).
  2:{ left. exists s, out. split; [reflexivity|]. split; [auto|]. split; [apply kept_refl|]. intros. replace to_size with to_pos by lia. apply Hz. lia. }
  destruct (mem_iter_any _ diff_body to_pos to_size s out H) as [(s1 & o1 & n1 & A1 & (A2 & A3 & A4 & A5) & A6 & A7)|(e & A1)]; try lia; rewrite A1; cbn [pbind ret]; [|right; eexists; reflexivity].
  unfold seek_set. destruct (Z.ltb_spec (off + (to_pos + Z.max n1 0)) 0); [lia|]. cbn [pbind ret].
  destruct (mem_iter_any _ extra_body (to_pos + Z.max n1 0) to_size s1 o1 A2) as [(s2 & o2 & n2 & B1 & (B2 & B3 & B4 & B5) & B6 & B7)|(e & B1)]; try lia; rewrite B1; cbn [pbind ret]; [|right; eexists; reflexivity].
  pose proof (size_any D R HR fuel _ _ B2) as C. destruct (py_unpack_size o2) as [(v3, o3)|]; [|right; rewrite C; eexists; reflexivity].
  destruct C as (r3 & C1 & C2 & C3). rewrite C1. cbn [pbind ret]. destruct A4 as [A4 A4']. destruct B4 as [B4 B4'].
  destruct (IHk (to_pos + Z.max n1 0 + Z.max n2 0) to_size (mkps r3 (ps_from s2 + v3) (ps_out s2) (ps_dfdiff s2)) o3) as [(s4 & o4 & I1 & I2 & I3 & I4)|(e & I1)]; cbn [ps_reader ps_dfdiff ps_out]; auto; try lia.
  - left. exists s4, o4. split; [exact I1|]. split; [exact I2|]. cbn [ps_out] in I3. split; [|exact I4]. eapply kept_trans; [|exact I3]. split; [congruence|lia].
  - right. eauto.
Qed.

Lemma apply_segment_any : forall mem r out to_size from_offset, holds R fuel r out -> 0 <= to_size -> off + to_size <= hi ->
  (exists mem1 r1 out1, apply_segment fuel mem r off to_size from_offset = ret (mem1, r1) /\ holds R fuel r1 out1 /\ kept hi mem mem1 /\ (0 < to_size -> off + to_size <= zlen mem1)) \/
  exists e, apply_segment fuel mem r off to_size from_offset = raise e.
Proof using HR Hoff.
  intros mem r out to_size from_offset H H1 H2. unfold apply_segment. pose proof (size_any D R HR fuel _ _ H) as A. destruct (py_unpack_size out) as [(v, o1)|]; [|right; rewrite A; eexists; reflexivity].
  destruct A as (r1 & A1 & A2 & A3). rewrite A1. cbn [pbind ret]. destruct (0 <? v); [right; eexists; reflexivity|].
  destruct (segment_any fuel 0 to_size (mkps r1 from_offset mem 0) o1 A2) as [(s1 & o2 & B1 & B2 & B3 & B4)|(e & B1)]; cbn [ps_dfdiff ps_out]; try lia; [destruct A2; lia| |]; rewrite B1; cbn [pbind ret]; [|right; eexists; reflexivity].
  left. exists (ps_out s1), (ps_reader s1), o2. auto.
Qed.
End Any.

Lemma segments_any : forall D R, contract D R -> forall fuel segment shift to_size, 0 < segment -> forall count i mem r out, holds R fuel r out -> 0 <= i -> 
  (Z.of_nat count + i) * segment < to_size + segment ->
  (exists mem1 r1, apply_segments_loop (D := D) count fuel i segment shift to_size mem r = ret (mem1, r1) /\ kept to_size mem mem1 /\
     ((0 < count)%nat -> to_size <= (Z.of_nat count + i) * segment -> to_size <= zlen mem1)) \/
  exists e, apply_segments_loop count fuel i segment shift to_size mem r = raise e.
Proof.
  intros D R HR fuel segment shift to_size Hs. induction count; intros i mem r out H Hi Hc; cbn [apply_segments_loop].
  - left. exists mem, r. split; [reflexivity|]. split; [apply kept_refl|lia].
  - assert (i * segment < to_size).
    { assert ((1 + i) * segment <= (Z.of_nat (S count) + i) * segment) by (apply Z.mul_le_mono_nonneg_r; lia). lia. }
    assert (0 <= i * segment) by (apply Z.mul_nonneg_nonneg; lia).
    destruct (apply_segment_any D R HR fuel (i * segment) to_size ltac:(lia) mem r out (Z.min segment (to_size - i * segment)) (Z.max (segment * (i + 1)) shift) H) as [(m1 & r1 & o1 & A1 & A2 & A3 & A4)|(e & A1)];
      try lia; rewrite A1; cbn [pbind ret]; [|right; eexists; reflexivity].
    destruct (IHcount (i + 1) m1 r1 o1 A2) as [(m2 & r2 & B1 & B2 & B3)|(e & B1)]; [lia| | |right; eauto].
    + replace (Z.of_nat count + (i + 1)) with (Z.of_nat (S count) + i) by lia. exact Hc.
    + left. exists m2, r2. split; [exact B1|]. split; [eapply kept_trans; eauto|]. intros _ Ht. destruct count.
      * destruct B2 as [_ B2]. assert (to_size <= (1 + i) * segment) by (replace (1 + i) with (Z.of_nat 1 + i) by lia; exact Ht). lia.
      * apply B3; [lia|]. replace (Z.of_nat (S count) + (i + 1)) with (Z.of_nat (S (S count)) + i) by lia. exact Ht.
Qed.

Theorem in_place_any : forall X bytesio mem patch,
  finite_compression X patch ->
  exists m, forall fuel, (m <= fuel)%nat -> exists v, apply_patch_in_place X fuel bytesio mem patch = Ret v /\
    forall n mem1, v = Val (n, mem1) -> exists z, announced_sizes patch = Some z /\ n = is_to z /\
      (n <= 0 -> mem1 = mem) /\
      (0 < n -> is_memory z <= zlen mem /\ (0 < is_segment z -> n <= zlen mem1) /\
         (0 <= is_shift z <= is_memory z -> zdrop (Z.max (is_memory z) n) mem1 = zdrop (Z.max (is_memory z) n) mem /\ zlen mem <= zlen mem1)).
Proof.
  intros X bytesio mem patch Hp. unfold apply_patch_in_place, read_header_in_place. destruct patch as [|b l]; [exists O; intros fuel _; eexists; split; [reflexivity|discriminate]|].
  destruct (unpack_header b) as (ty, nu) eqn:Eh. cbn [fst snd] in *. destruct (negb (ty =? 1)); [exists O; intros fuel _; eexists; split; [reflexivity|discriminate]|].
  unfold finite_compression in Hp. rewrite Eh in Hp. cbn [snd] in Hp. destruct (decompressor_of X nu) as [D|] eqn:Hdx; [|exists O; intros fuel _; eexists; split; [reflexivity|discriminate]].
  unfold announced_sizes, file_unpack_size. cbn [tl take_sizes].
  destruct (py_unpack_size l) as [(memory, l1)|]; [|exists O; intros fuel _; eexists; split; [reflexivity|discriminate]].
  destruct (py_unpack_size l1) as [(segment, l2)|] eqn:E1; [|exists O; intros fuel _; cbn [pbind ret]; rewrite ?E1; eexists; split; [reflexivity|discriminate]].
  destruct (py_unpack_size l2) as [(shift, l3)|] eqn:E2; [|exists O; intros fuel _; cbn [pbind ret]; rewrite ?E1; cbn [pbind ret]; rewrite ?E2; eexists; split; [reflexivity|discriminate]].
  destruct (py_unpack_size l3) as [(from_size, l4)|] eqn:E3; [|exists O; intros fuel _; cbn [pbind ret]; rewrite ?E1; cbn [pbind ret]; rewrite ?E2; cbn [pbind ret]; rewrite ?E3; eexists; split; [reflexivity|discriminate]].
  destruct (py_unpack_size l4) as [(to_size, file)|] eqn:E4; [|exists O; intros fuel _; cbn [pbind ret]; rewrite ?E1; cbn [pbind ret]; rewrite ?E2; cbn [pbind ret]; rewrite ?E3; cbn [pbind ret]; rewrite ?E4; eexists; split; [reflexivity|discriminate]].
  destruct (Hp D eq_refl file) as (R & out & D2 & D3). cbn [pbind ret]. rewrite ?E1. cbn [pbind ret]. rewrite ?E2. cbn [pbind ret]. rewrite ?E3. cbn [pbind ret]. rewrite ?E4. cbn [pbind ret].
  exists (Datatypes.S (2 * (length file + length out) + 1)). intros fuel Hf. destruct (Z.ltb_spec 0 to_size) as [L|L].
  2:{ eexists. split; [reflexivity|]. intros n mem1 E. injection E as <- <-. eexists. split; [reflexivity|]. cbn [is_to]. split; [reflexivity|]. split; [auto|lia]. }
  assert (H0 : holds R fuel (pr_open D file) out) by (split; [exact D3|cbn [pr_file pr_open]; lia]).
  unfold shift_memory. destruct (Z.ltb_spec (zlen mem) memory); [eexists; split; [reflexivity|discriminate]|].
  destruct (mem_read bytesio mem 0 from_size) as [[fd|e]| |] eqn:Em; cbn [pbind ret]; [|eexists; split; [reflexivity|discriminate]| |].
  2,3: (exfalso; unfold mem_read in Em; destruct (0 <=? from_size); [discriminate|]; destruct (bytesio || (from_size =? -1)); discriminate).
  unfold seek_set at 1. destruct (Z.ltb_spec shift 0); [eexists; split; [reflexivity|discriminate]|]. cbn [pbind ret].
  set (mem0 := mem_write mem shift (py_slice fd 0 (memory - shift))).
  assert (K0 : 0 <= shift <= memory -> kept (Z.max memory to_size) mem mem0).
  { intros Hs. apply mem_write_kept; [lia|]. unfold py_slice, py_index. cbv zeta. pose proof (zlen_nonneg fd). change (0 <? 0) with false. cbv iota. destruct (Z.ltb_spec (memory - shift) 0); [lia|]. rewrite zlen_ztake, zlen_zdrop by lia. lia. }
  unfold range_length. destruct (Z.eqb_spec segment 0); [eexists; split; [reflexivity|discriminate]|]. destruct (Z.ltb_spec segment 0).
  - cbn [pbind ret apply_segments_loop]. destruct (pr_eof (pr_open D file)); eexists; (split; [reflexivity|]); [|discriminate]. intros n1 mem1 E. injection E as <- <-.
    eexists. split; [reflexivity|]. cbn [is_to is_memory is_segment is_shift]. split; [reflexivity|]. split; [lia|]. intros _. split; [lia|]. split; [lia|exact K0].
  - cbn [pbind ret]. assert (Hdiv : 1 <= (to_size + segment - 1) / segment) by (apply Z.div_le_lower_bound; lia).
    assert (Hq := Z.div_mod (to_size + segment - 1) segment ltac:(lia)). assert (Hr := Z.mod_pos_bound (to_size + segment - 1) segment ltac:(lia)).
    set (q := (to_size + segment - 1) / segment) in *.
    destruct (segments_any D R D2 fuel segment shift to_size ltac:(lia) (Z.to_nat q) 0 mem0 _ _ H0 ltac:(lia)) as [(m1 & r1 & B1 & B2 & B3)|(e & B1)].
    + rewrite Z2Nat.id, Z.add_0_r by lia. rewrite Z.mul_comm. lia.
    + rewrite B1. cbn [pbind ret]. destruct (pr_eof r1); eexists; (split; [reflexivity|]); [|discriminate]. intros n1 mem1 E. injection E as <- <-.
      eexists. split; [reflexivity|]. cbn [is_to is_memory is_segment is_shift]. split; [reflexivity|]. split; [lia|]. intros _. split; [lia|]. split.
      * intros _. apply B3; [lia|]. rewrite Z2Nat.id, Z.add_0_r by lia. rewrite Z.mul_comm. lia.
      * intros Hs. apply (kept_trans _ mem mem0 m1); [auto|]. apply kept_le with (a := to_size); [lia|exact B2].
    + rewrite B1. eexists. split; [reflexivity|discriminate].
Qed.

Theorem in_place_small_memory : forall X fuel bytesio mem patch z, announced_sizes patch = Some z -> 0 < is_to z -> zlen mem < is_memory z ->
  apply_patch_in_place X fuel bytesio mem patch = raise DetoolsError.
Proof.
  intros X fuel bytesio mem patch z Ha Ht Hm. unfold apply_patch_in_place, read_header_in_place. destruct patch as [|b l]; [reflexivity|].
  destruct (unpack_header b) as (ty, nu). destruct (negb (ty =? 1)); [reflexivity|]. destruct (decompressor_of X nu) as [D|]; [|reflexivity].
  unfold announced_sizes in Ha. cbn [tl take_sizes] in Ha. unfold file_unpack_size.
  destruct (py_unpack_size l) as [(memory, l1)|]; [|discriminate]. cbn [pbind ret]. destruct (py_unpack_size l1) as [(segment, l2)|]; [|discriminate]. cbn [pbind ret].
  destruct (py_unpack_size l2) as [(shift, l3)|]; [|discriminate]. cbn [pbind ret]. destruct (py_unpack_size l3) as [(from_size, l4)|]; [|discriminate]. cbn [pbind ret].
  destruct (py_unpack_size l4) as [(to_size, file)|]; [|discriminate]. cbn [pbind ret]. injection Ha as <-. cbn [is_to is_memory] in *.
  destruct (Z.ltb_spec 0 to_size); [|lia]. unfold shift_memory. destruct (Z.ltb_spec (zlen mem) memory); [reflexivity|lia].
Qed.

(** A negative segment size: success is returned although nothing was written. *)
Definition unwritten_patch : list Z := [16; 10; 65; 0; 0; 5].

Lemma ex_unwritten : announced_sizes unwritten_patch = Some (mksizes 10 (-1) 0 0 5) /\
  forall X fuel bytesio mem, zlen mem = 10 -> apply_patch_in_place X fuel bytesio mem unwritten_patch = ret (5, mem).
Proof.
  split; [reflexivity|]. intros X fuel bytesio mem Hm. unfold apply_patch_in_place. cbn - [shift_memory zlen Z.ltb].
  change (0 <? 5) with true. cbv iota. unfold shift_memory. rewrite Hm. change (10 <? 10) with false. cbv iota.
  change (mem_read bytesio mem 0 0) with (ret (file_read_at mem 0 0)). cbn [pbind ret]. reflexivity.
Qed.
