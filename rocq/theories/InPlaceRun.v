(** Whole attempts of the in-place applier on the flash memory. *)

From Coq Require Import ZArith List Bool Lia ZifyBool ZifyNat ZifyN.
From Verif Require Import Prelude Lib Heatshrink CReader CSeq CInPlace Spec ReaderProofs SizeProofs SeqSim SeqRun SeqMeaning
  CreateProofs Feeder InPlaceSpec InPlaceMem InPlaceWorld InPlaceShift InPlacePatch.
Import ListNotations.
Open Scope Z_scope.

Ltac prj := cbn [i_patch_size i_state i_init i_compression i_step i_to_pos i_to_size i_from_size i_memory_size
  i_segment_size i_shift_size i_chunk_size i_seg i_reader i_rsize i_csize i_left i_size g_index g_from_offset
  g_to_offset g_to_size g_to_pos iset_st iset_reader iset_to iset_seg iset_chunk_size iset_step iset_header iset_sizes iset_chunk z_first z_cons].
Ltac prj_in H := cbn [i_patch_size i_state i_init i_compression i_step i_to_pos i_to_size i_reader iset_chunk] in H.
Ltac splits := repeat match goal with |- _ /\ _ => split end.
Ltac nz := change (negb (0 =? 0)) with false; cbv iota; cbn [obind]; change (0 <? 0) with false; cbv iota.
Ltac n1 := change (negb (1 =? 0)) with true; cbv iota; cbn [obind]; change (1 <? 0) with false; cbv iota.

Lemma comp_eq_none : forall c, c = CompNone \/ c <> CompNone.
Proof. intros []; auto; right; discriminate. Qed.

Lemma enc_segments_cons : forall recs rest, enc_segments (recs :: rest) = enc_size 0 ++ enc_recs recs ++ enc_segments rest.
Proof. intros. unfold enc_segments. cbn [flat_map]. unfold enc_body. rewrite <- !app_assoc. reflexivity. Qed.

Section Header.
Context `{WBits : WordBits}.
Hypothesis Hword : 32 <= word_bits.
Context {W : Type} (E : ip_env W).
Variables memory segment shift from_size to_size : Z.
Variable c : comp.
Variable stream : list Z.
Hypothesis Hm : 0 <= memory < 2 ^ 27.
Hypothesis Hg : 0 <= segment < 2 ^ 27.
Hypothesis Hh : 0 <= shift < 2 ^ 27.
Hypothesis Hf0 : 0 <= from_size < 2 ^ 27.
Hypothesis Ht0 : 0 <= to_size < 2 ^ 27.

Notation header := (in_place_header c memory segment shift from_size to_size).

Definition encs (l : list Z) : list Z := flat_map enc_size l.

Definition rem (st : istate) : list Z :=
  match st with
  | IFixed => []
  | IMemory => [memory; segment; shift; from_size; to_size]
  | ISegment => [segment; shift; from_size; to_size]
  | IShift => [shift; from_size; to_size]
  | IFrom => [from_size; to_size]
  | ITo => [to_size]
  end.

Definition stored (s : ip) (st : istate) : Prop :=
  match st with
  | IFixed | IMemory => True
  | ISegment => i_memory_size s = memory
  | IShift => i_memory_size s = memory /\ i_segment_size s = segment
  | IFrom => i_memory_size s = memory /\ i_segment_size s = segment /\ i_shift_size s = shift
  | ITo => i_memory_size s = memory /\ i_segment_size s = segment /\ i_shift_size s = shift /\ i_from_size s = from_size
  end.

Definition at_field (f : list Z) (left : list Z) (z : size_st) (csize : Z) (v : Z) (tl : list Z) : Prop :=
  zok z /\ bytes_ok left /\
  (exists z1, unpack_header_size (left ++ f) z = Ret (0, v, z1, encs tl ++ stream)) /\
  (c = CompNone -> z_cons z = false /\ csize = zlen (header ++ stream) - zlen f /\ exists l', left = enc_size v ++ encs tl ++ l').

Definition g_header (f : list Z) (s : ip) (k : Z) : Prop :=
  i_state s = SInit /\ i_step s = 1 /\ i_patch_size s = zlen (header ++ stream) /\ i_reader s = None /\
  match i_init s with
  | IFixed => i_left s ++ f = header ++ stream /\ bytes_ok (i_left s) /\
      (c = CompNone -> i_csize s = zlen (header ++ stream) - zlen f /\ exists l', i_left s = header ++ l') /\ k = 6
  | st => i_compression s = comp_number c /\ stored s st /\
      (exists v tl, rem st = v :: tl /\ at_field f (i_left s) (i_size s) (i_csize s) v tl) /\ k = zlen (rem st)
  end.

Lemma field_step : forall f left z csize v tl, 0 <= v < 2 ^ 27 -> at_field f left z csize v tl ->
  (exists z2, unpack_header_size left z = Ret (1, 0, z2, []) /\ at_field f [] z2 csize v tl /\ f <> []) \/
  (exists z2 l1, unpack_header_size left z = Ret (0, v, z2, l1) /\ l1 ++ f = encs tl ++ stream /\ bytes_ok l1 /\
     (c = CompNone -> csize = zlen (header ++ stream) - zlen f /\ exists l', l1 = encs tl ++ l')).
Proof.
  intros f left z csize v tl Hv (A & B & (z1 & C) & D).
  assert (N : c = CompNone -> exists z2 l1, unpack_header_size left z = Ret (0, v, z2, l1) /\ csize = zlen (header ++ stream) - zlen f /\ exists l', l1 = encs tl ++ l').
  { intros Hc. destruct (D Hc) as (D1 & D2 & l' & D3). destruct (header_enc v z (encs tl ++ l') Hv D1) as (z2 & U & _).
    rewrite D3. exists z2, (encs tl ++ l'). eauto. }
  destruct (uhs_app left z f A) as [(z2 & P1 & P2 & P3)|[(v2 & z2 & l1 & used & P1 & P2 & P3 & P4)|(z2 & l1 & P1 & P2)]].
  - left. exists z2. split; [auto|]. split.
    + split; [auto|]. split; [constructor|]. split; [exists z1; cbn [app]; rewrite <- P3; auto|].
      intros Hc. destruct (N Hc) as (z3 & l3 & X & _). congruence.
    + intros ->. rewrite P3 in C. cbn in C. discriminate.
  - right. rewrite P4 in C. inversion C; subst. exists z1, l1. split; [auto|]. split; [auto|]. split.
    + unfold bytes_ok in *. apply Forall_app in B. apply B.
    + intros Hc. destruct (N Hc) as (z3 & l3 & X & Y & l' & Z). rewrite P1 in X. inversion X; subst. eauto.
  - rewrite P2 in C. discriminate.
Qed.

Lemma next_field : forall f l1 z csize v tl, 0 <= v < 2 ^ 27 -> z_cons z = false -> bytes_ok l1 ->
  l1 ++ f = encs (v :: tl) ++ stream ->
  (c = CompNone -> csize = zlen (header ++ stream) - zlen f /\ exists l', l1 = encs (v :: tl) ++ l') ->
  at_field f l1 z csize v tl.
Proof.
  intros f l1 z csize v tl Hv Hz Hb He Hc. cbn [encs flat_map] in *. fold (encs tl) in *. rewrite <- !app_assoc in He.
  destruct (header_enc v z (encs tl ++ stream) Hv Hz) as (z2 & U & _).
  split; [intros X; congruence|]. split; [auto|]. split.
  - exists z2. rewrite He. auto.
  - intros X. destruct (Hc X) as (P & l' & Q). split; [auto|]. split; [auto|]. exists l'. rewrite Q, <- app_assoc. auto.
Qed.

Lemma once_init : forall s w, i_state s = SInit ->
  ip_process_once E s w =
  letm (res, s1, w1) := ip_process_init E s w in Ret (res, if res <? 0 then iset_st s1 SFailed else s1, w1).
Proof. intros s w H. unfold ip_process_once. rewrite H. reflexivity. Qed.

Lemma small_wrap' : forall x, 0 <= x < 2 ^ 27 -> wrap x = x.
Proof using Hword. intros. apply small_wrap; auto. lia. Qed.

Lemma header_once : forall f s w k, bytes_ok f -> g_header f s k -> (i_left s <> [] \/ f = []) -> i_init s <> ITo ->
  (exists s1 k1, ip_process_once E s w = Ret (0, s1, w) /\ g_header f s1 k1 /\ 0 <= k1 < k) \/
  (exists s1, ip_process_once E s w = Ret (1, s1, w) /\ g_header f s1 k /\ i_left s1 = [] /\ f <> []).
Proof.
  intros f s w k Hf (A1 & A2 & A3 & A4 & A5) Hl Hn. rewrite once_init by auto. unfold ip_process_init.
  destruct (i_init s) eqn:Ei; try congruence.
  - destruct A5 as (B1 & B2 & B3 & B4). left. unfold ip_init_fixed_header.
    destruct (i_left s) as [|b l] eqn:El.
    { exfalso. destruct Hl as [?|?]; [congruence|]. subst f. discriminate. }
    cbn [app in_place_header] in B1. pose proof (f_equal (hd 0) B1) as B5. pose proof (f_equal (@tl Z) B1) as B6. cbn [hd tl] in B5, B6.
    assert (X : Z.land (Z.shiftr (header_byte TYPE_IN_PLACE c) 4) 7 = 1 /\ Z.land (header_byte TYPE_IN_PLACE c) 15 = comp_number c)
      by (destruct c; split; reflexivity).
    rewrite B5. destruct X as [-> ->]. change (negb (1 =? 1)) with false. cbv iota. cbn [obind]. change (0 <? 0) with false. cbv iota.
    eexists. exists 5. split; [reflexivity|]. split; [|lia].
    unfold g_header. prj. splits; auto.
    { exact I. }
    exists memory, [segment; shift; from_size; to_size]. split; [auto|].
    apply next_field; auto.
    + inversion B2; auto.
    + cbn [encs flat_map]. rewrite app_nil_r, <- !app_assoc. rewrite B6, <- !app_assoc. reflexivity.
    + intros Hc. destruct (B3 Hc) as (C1 & l' & C2). split; [auto|]. exists l'.
      unfold in_place_header in C2. cbn [app] in C2. pose proof (f_equal (@tl Z) C2) as C4. cbn [tl] in C4. rewrite C4. cbn [encs flat_map]. rewrite app_nil_r, <- !app_assoc. reflexivity.
  - destruct A5 as (B1 & B2 & (v & tl & B3 & B4) & B5). cbn [rem] in B3. inversion B3; subst v tl.
    unfold ip_init_size. destruct (field_step _ _ _ _ _ _ Hm B4) as [(z2 & U & S & N)|(z2 & l1 & U & P1 & P2 & P3)]; rewrite U; cbn [obind].
    + n1. right. eexists. split; [reflexivity|]. split; [|split; [reflexivity|auto]].
      unfold g_header. prj. rewrite Ei. splits; auto; try exact B2; eauto.
    + nz. left. eexists. exists 4. split; [reflexivity|]. split; [|subst k; cbn; lia]. unfold g_header. prj. splits; auto.
      * cbn. apply small_wrap'. auto.
      * exists segment, [shift; from_size; to_size]. split; [auto|]. apply next_field; auto.
  - destruct A5 as (B1 & B2 & (v & tl & B3 & B4) & B5). cbn [rem] in B3. inversion B3; subst v tl.
    unfold ip_init_size. destruct (field_step _ _ _ _ _ _ Hg B4) as [(z2 & U & S & N)|(z2 & l1 & U & P1 & P2 & P3)]; rewrite U; cbn [obind].
    + n1. right. eexists. split; [reflexivity|]. split; [|split; [reflexivity|auto]].
      unfold g_header. prj. rewrite Ei. splits; auto; try exact B2; eauto.
    + nz. left. eexists. exists 3. split; [reflexivity|]. split; [|subst k; cbn; lia]. unfold g_header. prj. splits; auto.
      * cbn in B2 |- *. split; [auto|]. apply small_wrap'. auto.
      * exists shift, [from_size; to_size]. split; [auto|]. apply next_field; auto.
  - destruct A5 as (B1 & B2 & (v & tl & B3 & B4) & B5). cbn [rem] in B3. inversion B3; subst v tl.
    unfold ip_init_size. destruct (field_step _ _ _ _ _ _ Hh B4) as [(z2 & U & S & N)|(z2 & l1 & U & P1 & P2 & P3)]; rewrite U; cbn [obind].
    + n1. right. eexists. split; [reflexivity|]. split; [|split; [reflexivity|auto]].
      unfold g_header. prj. rewrite Ei. splits; auto; try exact B2; eauto.
    + nz. left. eexists. exists 2. split; [reflexivity|]. split; [|subst k; cbn; lia]. unfold g_header. prj. splits; auto.
      * cbn in B2 |- *. destruct B2. split; [auto|]. split; [auto|]. apply small_wrap'. auto.
      * exists from_size, [to_size]. split; [auto|]. apply next_field; auto.
  - destruct A5 as (B1 & B2 & (v & tl & B3 & B4) & B5). cbn [rem] in B3. inversion B3; subst v tl.
    unfold ip_init_size. destruct (field_step _ _ _ _ _ _ Hf0 B4) as [(z2 & U & S & N)|(z2 & l1 & U & P1 & P2 & P3)]; rewrite U; cbn [obind].
    + n1. right. eexists. split; [reflexivity|]. split; [|split; [reflexivity|auto]].
      unfold g_header. prj. rewrite Ei. splits; auto; try exact B2; eauto.
    + nz. left. eexists. exists 1. split; [reflexivity|]. split; [|subst k; cbn; lia]. unfold g_header. prj. splits; auto.
      * cbn in B2 |- *. destruct B2 as (C1 & C2 & C3). splits; auto. apply small_wrap'. auto.
      * exists to_size, []. split; [auto|]. apply next_field; auto.
Qed.

(** The last field: the reader is created. *)
Lemma header_last : forall f s w k r0, bytes_ok f -> g_header f s k -> i_init s = ITo ->
  reader_init (zlen stream) (comp_number c) = Some r0 -> zlen (header ++ stream) < 2 ^ word_bits ->
  (exists s1, ip_process_once E s w = Ret (1, s1, w) /\ g_header f s1 k /\ i_left s1 = [] /\ f <> []) \/
  (exists s3, i_state s3 = SInit /\ i_step s3 = 1 /\ i_memory_size s3 = memory /\ i_segment_size s3 = segment /\ i_shift_size s3 = shift /\
     i_from_size s3 = from_size /\ i_to_pos s3 = 0 /\ i_to_size s3 = to_size /\ g_index (i_seg s3) = 0 /\ i_reader s3 = Some r0 /\
     z_cons (i_rsize s3) = false /\ i_left s3 ++ f = stream /\ bytes_ok (i_left s3) /\
     ip_process_once E s w =
     letm (res, s1, w1) :=
       (if 0 <? to_size then
          letm (res1, step1, w1) := shift_memory E 1 w memory from_size segment shift in
          let s4 := iset_step s3 step1 in
          if negb (res1 =? 0) then Ret (res1, s4, w1) else Ret (0, iset_st s4 SDfpatchSize, w1)
        else Ret (0, iset_st s3 SDone, w)) in
     Ret (res, if res <? 0 then iset_st s1 SFailed else s1, w1)).
Proof.
  intros f s w k r0 Hf (A1 & A2 & A3 & A4 & A5) Hi Hr Hps. rewrite once_init by auto. unfold ip_process_init.
  rewrite Hi in A5 |- *. destruct A5 as (B1 & B2 & (v & tl & B3 & B4) & B5). cbn [rem] in B3. inversion B3; subst v tl.
  unfold ip_init_to_size. destruct (field_step _ _ _ _ _ _ Ht0 B4) as [(z2 & U & S & N)|(z2 & l1 & U & P1 & P2 & P3)]; rewrite U; cbn [obind].
  - n1. left. eexists. split; [reflexivity|]. split; [|split; [reflexivity|auto]]. unfold g_header. prj. rewrite Hi. splits; auto; try exact B2; eauto.
  - nz. right. prj. unfold ichunk_offset. prj. rewrite B1, A3. cbn [encs flat_map app] in P1.
    assert (Hx : reader_init (wrap (zlen (header ++ stream) - (i_csize s - zlen l1))) (comp_number c) = Some r0).
    { destruct (comp_eq_none c) as [Hc|Hc].
      - destruct (P3 Hc) as (Q1 & _). rewrite Q1. replace (zlen (header ++ stream) - (zlen (header ++ stream) - zlen f - zlen l1)) with (zlen stream)
          by (rewrite <- P1, zlen_app; lia).
        unfold wrap. pose proof (zlen_nonneg stream). pose proof (zlen_nonneg header). rewrite zlen_app in Hps. rewrite Z.mod_small by lia. auto.
      - rewrite <- Hr. destruct c; [congruence|reflexivity|reflexivity]. }
    rewrite Hx. destruct (Z.ltb_spec to_size 0); [lia|]. rewrite (small_wrap' to_size) by auto.
    destruct B2 as (C1 & C2 & C3 & C4).
    eexists. 
    repeat match goal with |- _ /\ _ => split; [shelve|] end.
    rewrite A2, C1, C2, C3, C4. reflexivity.
    Unshelve. all: prj; auto.
Qed.

Lemma start_spec : forall junk f p, p ++ f = header ++ stream -> bytes_ok p -> (c = CompNone -> zlen header <= zlen p) ->
  g_header f (iset_chunk (ip_init junk (zlen (header ++ stream))) p) 6.
Proof.
  intros junk f p Hp Hb Hc. unfold g_header, ip_init. prj. splits; auto. intros H. split.
  - rewrite <- Hp, zlen_app. lia.
  - specialize (Hc H). exists (zdrop (zlen header) p). pose proof (ztake_zdrop (zlen header) p) as X.
    rewrite <- X in Hp at 1. rewrite <- app_assoc in Hp. apply app_inj_len in Hp.
    + destruct Hp as [Hp _]. rewrite <- Hp at 1. auto.
    + rewrite zlen_ztake by apply zlen_nonneg. lia.
Qed.

Lemma gh_chunk : forall f p s k, bytes_ok p -> i_left s = [] -> g_header (p ++ f) s k -> g_header f (iset_chunk s p) k.
Proof.
  intros f p s k Hp Hl (A1 & A2 & A3 & A4 & A5). unfold g_header. prj. rewrite Hl in A5.
  splits; auto. destruct (i_init s).
  { destruct A5 as (B1 & B2 & B3 & B4). splits; auto. intros Hc. destruct (B3 Hc) as (_ & l' & X). discriminate. }
  all: destruct A5 as (B1 & B2 & (v & tl & B3 & B4 & B5 & B6 & B7) & B8); splits; auto;
    exists v, tl; split; [auto|]; split; [auto|]; split; [auto|]; split; [exact B6|]; intros Hc; destruct (B7 Hc) as (_ & _ & l' & X);
    pose proof (enc_size_pos v) as Y; exfalso; symmetry in X; apply app_eq_nil in X; destruct X as [X _]; rewrite X in Y; cbn in Y; lia.
Qed.

End Header.

(** The loops, for any invariant [gd] of process_once. *)
Section Loops.
Context `{WBits : WordBits}.
Context {E : ip_env dev}.
Variable total : Z.
Variable fin offp : dev -> Prop.
Variable rE : reader.
Variable gd : list Z -> ip -> dev -> Z -> Prop.
Hypothesis Htotal : 0 <= total < 2 ^ 27.
Hypothesis HrE : destroy rE = Ret 0.

Notation once := (ip_process_once E).

Definition dead_if (s : ip) (w : dev) : Prop := i_state s = SFailed /\ destroyable s /\ offp w.
Notation dead := dead_if.

Definition answer (f : list Z) (m : Z) (o : outcome (Z * ip * dev)) : Prop :=
  (exists s1 w1 m1, o = Ret (0, s1, w1) /\ gd f s1 w1 m1 /\ 0 <= m1 < m) \/
  (exists s1 w1 m1, o = Ret (1, s1, w1) /\ gd f s1 w1 m1 /\ m1 = m /\ i_left s1 = [] /\ f <> []) \/
  (exists e s1 w1, o = Ret (e, s1, w1) /\ e < 0 /\ e <> - E_ALREADY_DONE /\ dead s1 w1).

Hypothesis gd_once : forall f s w m, bytes_ok f -> gd f s w m -> i_state s <> SDone -> (i_left s <> [] \/ f = []) -> answer f m (once s w).
Hypothesis gd_nonneg : forall f s w m, gd f s w m -> 0 <= m.
Hypothesis gd_live : forall f s w m, gd f s w m -> i_state s <> SDone -> 0 < m.
Hypothesis gd_done : forall f s w m, gd f s w m -> i_state s = SDone ->
  i_to_size s = total /\ i_reader s = Some rE /\ i_left s = [] /\ f = [] /\ fin w.
Hypothesis gd_chunk : forall f p s w m, bytes_ok p -> i_left s = [] -> gd (p ++ f) s w m -> gd f (iset_chunk s p) w m.

Lemma loop_spec : forall fuel res f s w m, bytes_ok f -> gd f s w m -> (res = 0 \/ res = 1 /\ i_left s = []) ->
  (ip_process_loop E fuel res s w = OutOfFuel /\ Z.of_nat fuel < m) \/
  (exists res1 s1 w1 m1, ip_process_loop E fuel res s w = Ret (res1, s1, w1) /\ (res1 = 0 \/ res1 = 1) /\
     gd f s1 w1 m1 /\ m1 <= m /\ i_left s1 = []) \/
  (exists e s1 w1, ip_process_loop E fuel res s w = Ret (e, s1, w1) /\ e < 0 /\ e <> - E_ALREADY_DONE /\ dead s1 w1).
Proof.
  induction fuel as [|fuel IH]; intros res f s w m Hf G R; cbn [ip_process_loop]; destruct (i_left s) as [|b l] eqn:El;
    try (right; left; exists res, s, w, m; split; [auto|]; split; [destruct R as [?|[? ?]]; auto|]; split; [auto|]; split; [lia|auto]; fail).
  - destruct R as [->|[_ ?]]; [|discriminate]. change (0 <? 0) with false. cbv iota. left. split; [auto|].
    apply (gd_live f s w m G). intros X. destruct (gd_done _ _ _ _ G X) as (_ & _ & Y & _). congruence.
  - destruct R as [->|[_ ?]]; [|discriminate]. change (0 <? 0) with false. cbv iota.
    assert (Hd : i_state s <> SDone) by (intros X; destruct (gd_done _ _ _ _ G X) as (_ & _ & Y & _); congruence).
    destruct (gd_once f s w m Hf G Hd ltac:(left; congruence)) as [(s1 & w1 & m1 & A & B & C)|[(s1 & w1 & m1 & A & B & C & D & F)|(e & s1 & w1 & A & B & C & D)]];
      rewrite A; cbn [obind].
    + destruct (IH 0 f s1 w1 m1 Hf B ltac:(auto)) as [[P Q]|[(res2 & s2 & w2 & m2 & P & Q & S & T & U)|P]].
      * left. split; [auto|lia].
      * right; left. exists res2, s2, w2, m2. splits; auto. lia.
      * right; right. exact P.
    + subst m1. destruct fuel; cbn [ip_process_loop]; rewrite D; right; left; exists 1, s1, w1, m; splits; auto; lia.
    + right; right. exists e, s1, w1. split; [|auto]. destruct fuel; cbn [ip_process_loop]; destruct (i_left s1); auto; destruct (Z.ltb_spec e 0); auto; lia.
Qed.

Lemma dead_once : forall s w, dead s w -> once s w = Ret (- E_ALREADY_FAILED, s, w).
Proof. intros s w (A & _). unfold ip_process_once. rewrite A. cbn [obind]. change (- E_ALREADY_FAILED <? 0) with true. cbv iota. destruct s. cbn in A. subst. reflexivity. Qed.

Lemma dead_finalize : forall fuel s w, dead s w ->
  (ip_finalize E fuel s w = OutOfFuel /\ fuel = O) \/
  exists r s1, ip_finalize E fuel s w = Ret (r, s1, w) /\ r < 0 /\ dead s1 w.
Proof.
  intros [|fuel] s w D; [left; auto|right]. assert (D' : dead (iset_chunk s []) w) by exact D.
  unfold ip_finalize. cbn [ip_finalize_loop]. rewrite (dead_once _ _ D'). cbn [obind]. change (- E_ALREADY_FAILED =? 0) with false. cbv iota. cbn [obind].
  destruct (common_finalize (- E_ALREADY_FAILED) (i_reader (iset_chunk s [])) (i_to_size (iset_chunk s []))) as [v| |] eqn:Ec.
  - cbn [obind]. exists v, (iset_chunk s []). split; [auto|]. split; [|auto]. eapply common_finalize_neg; [| | |exact Ec]; discriminate.
  - exfalso. unfold common_finalize in Ec. cbv zeta in Ec. destruct D as (_ & Dd & _). unfold destroyable in Dd. prj_in Ec.
    destruct (i_reader s); [|discriminate]. destruct Dd as [d Hd]. rewrite Hd in Ec. discriminate.
  - exfalso. unfold common_finalize in Ec. cbv zeta in Ec. destruct D as (_ & Dd & _). unfold destroyable in Dd. prj_in Ec.
    destruct (i_reader s); [|discriminate]. destruct Dd as [d Hd]. rewrite Hd in Ec. discriminate.
Qed.

Definition final (o : outcome (Z * ip * dev)) : Prop :=
  (exists s1 w1, o = Ret (total, s1, w1) /\ fin w1) \/
  (exists r s1 w1, o = Ret (r, s1, w1) /\ r < 0 /\ offp w1).

Lemma finalize_loop_spec : forall fuel s w m, gd [] s w m ->
  (ip_finalize_loop E fuel s w = OutOfFuel /\ Z.of_nat fuel <= m) \/
  (exists s1 w1, ip_finalize_loop E fuel s w = Ret (- E_ALREADY_DONE, s1, w1) /\ i_to_size s1 = total /\ i_reader s1 = Some rE /\ fin w1) \/
  (exists e s1 w1, ip_finalize_loop E fuel s w = Ret (e, s1, w1) /\ e < 0 /\ e <> - E_ALREADY_DONE /\ dead s1 w1).
Proof.
  induction fuel as [|fuel IH]; intros s w m G; cbn [ip_finalize_loop].
  - left. split; [auto|]. apply gd_nonneg in G. lia.
  - assert (S : i_state s = SDone \/ i_state s <> SDone) by (destruct (i_state s); auto; right; discriminate).
    destruct S as [S|S].
    + destruct (gd_done _ _ _ _ G S) as (A & B & C & _ & D). unfold ip_process_once. rewrite S. cbn [obind].
      change (- E_ALREADY_DONE =? 0) with false. cbv iota. right; left. eauto 10.
    + destruct (gd_once [] s w m ltac:(constructor) G S ltac:(auto)) as [(s1 & w1 & m1 & A & B & C)|[(s1 & w1 & m1 & A & B & C & D & F)|(e & s1 & w1 & A & B & C & D)]];
      rewrite A; cbn [obind].
      * change (0 =? 0) with true. cbv iota. destruct (IH s1 w1 m1 B) as [[P Q]|[P|P]]; auto. left. split; [auto|lia].
      * congruence.
      * destruct (Z.eqb_spec e 0); [lia|]. right; right. eauto 10.
Qed.

Lemma finalize_spec : forall fuel s w m, gd [] s w m -> i_left s = [] ->
  (ip_finalize E fuel s w = OutOfFuel /\ Z.of_nat fuel <= m) \/ final (ip_finalize E fuel s w).
Proof.
  intros fuel s w m G Hl. pose proof (gd_chunk [] [] s w m ltac:(constructor) Hl G) as G'. unfold ip_finalize.
  destruct (finalize_loop_spec fuel _ w m G') as [[P Q]|[(s1 & w1 & P & A & B & C)|(e & s1 & w1 & P & A & B & C)]]; rewrite P; cbn [obind].
  - auto.
  - right. left. unfold common_finalize. cbv zeta. rewrite A, B. change (- E_ALREADY_DONE =? 1) with false. cbv iota.
    change (- E_ALREADY_DONE =? - E_ALREADY_DONE) with true. cbv iota. rewrite HrE. cbn [obind]. change (0 =? 0) with true. cbv iota. cbn [obind].
    change (0 =? 0) with true. cbv iota. rewrite to_int_small by (unfold INT_MIN, INT_MAX; lia). eauto.
  - right. right. destruct C as (C1 & C2 & C3).
    assert (X : exists v, common_finalize e (i_reader s1) (i_to_size s1) = Ret v).
    { unfold common_finalize. cbv zeta. unfold destroyable in C2. destruct (i_reader s1); [destruct C2 as [d ->]|]; cbn [obind]; eauto. }
    destruct X as [v X]. rewrite X. cbn [obind]. exists v, s1, w1. split; [auto|]. split; [|auto]. eapply common_finalize_neg; [| | |exact X]; lia || auto.
Qed.

(** A whole attempt after the first piece has been set. *)
Lemma feed_spec : forall pieces fuel s w m, gd (concat pieces) s w m -> bytes_ok (concat pieces) -> i_left s = [] ->
  (ip_feed E fuel s w pieces = OutOfFuel /\ Z.of_nat fuel <= Z.max 0 m) \/ final (ip_feed E fuel s w pieces).
Proof.
  induction pieces as [|p pieces IH]; intros fuel s w m G Hb Hl; cbn [ip_feed].
  - destruct (finalize_spec fuel s w m G Hl) as [[A B]|A]; [left; split; [auto|lia]|auto].
  - cbn [concat] in G, Hb. unfold bytes_ok in Hb. apply Forall_app in Hb. destruct Hb as [Hb1 Hb2].
    pose proof (gd_chunk _ p s w m Hb1 Hl G) as G'. unfold ip_process.
    destruct (loop_spec fuel 0 _ _ w m Hb2 G' ltac:(auto)) as [[P Q]|[(res1 & s1 & w1 & m1 & P & Q & S & T & U)|(e & s1 & w1 & P & Q & S & T)]]; rewrite P; cbn [obind].
    + left. split; [auto|lia].
    + assert (X : (if (res1 =? 1) || (res1 =? - E_ALREADY_DONE) then 0 else res1) = 0) by (destruct Q; subst; reflexivity).
      rewrite X. change (0 =? 0) with true. cbv iota. destruct (IH fuel s1 w1 m1 S Hb2 U) as [[A B]|A]; [left; split; [auto|lia]|auto].
    + assert (X : (if (e =? 1) || (e =? - E_ALREADY_DONE) then 0 else e) = e).
      { destruct (Z.eqb_spec e 1); [lia|]. destruct (Z.eqb_spec e (- E_ALREADY_DONE)); [congruence|]. reflexivity. }
      rewrite X. destruct (Z.eqb_spec e 0); [lia|]. destruct (dead_finalize fuel s1 w1 T) as [[A B]|(r & s2 & A & B & C)]; rewrite A; cbn [obind].
      * left. split; [auto|]. subst fuel. lia.
      * right. right. exists e, s2, w1. split; [auto|]. split; [auto|]. apply C.
Qed.

(** An attempt whose first piece is [p]. *)
Lemma attempt_spec : forall fuel s0 w p pieces m, bytes_ok p -> bytes_ok (concat pieces) ->
  gd (concat pieces) (iset_chunk s0 p) w m ->
  (ip_feed E fuel s0 w (p :: pieces) = OutOfFuel /\ Z.of_nat fuel <= Z.max 0 m) \/
  final (ip_feed E fuel s0 w (p :: pieces)).
Proof.
  intros fuel s0 w p pieces m Hb1 Hb2 G'. cbn [ip_feed]. unfold ip_process.
  destruct (loop_spec fuel 0 _ _ w _ Hb2 G' ltac:(auto)) as [[P Q]|[(res1 & s1 & w1 & m1 & P & Q & S & T & U)|(e & s1 & w1 & P & Q & S & T)]]; rewrite P; cbn [obind].
  + left. split; [auto|lia].
  + assert (X : (if (res1 =? 1) || (res1 =? - E_ALREADY_DONE) then 0 else res1) = 0) by (destruct Q; subst; reflexivity).
    rewrite X. change (0 =? 0) with true. cbv iota. destruct (feed_spec pieces fuel s1 w1 m1 S Hb2 U) as [[A B]|A]; [left; split; [auto|lia]|auto].
  + assert (X : (if (e =? 1) || (e =? - E_ALREADY_DONE) then 0 else e) = e).
    { destruct (Z.eqb_spec e 1); [lia|]. destruct (Z.eqb_spec e (- E_ALREADY_DONE)); [congruence|]. reflexivity. }
    rewrite X. destruct (Z.eqb_spec e 0); [lia|]. destruct (dead_finalize fuel s1 w1 T) as [[A B]|(r & s2 & A & B & C)]; rewrite A; cbn [obind].
    * left. split; [auto|]. subst fuel. lia.
    * right. right. exists e, s2, w1. split; [auto|]. split; [auto|]. apply C.
Qed.

End Loops.

Section Run.
Context `{WBits : WordBits}.
Hypothesis Hword : 32 <= word_bits.
Variables memory segment shift : Z.
Variables from to : list Z.
Variable mem0 : list (option Z).
Context {ST : strictness mem0}.
Hypothesis Hsizes : sizes_ok memory segment shift (zlen from) (zlen to).
Hypothesis Hlen : memory <= zlen mem0.
Hypothesis Hto : 0 < zlen to.
Hypothesis Hfrom : holds mem0 from.
Variable c0 : Z.
Variable unl : bool.
Variable c : comp.
Variable segs : list (list prec).
Variable stream : list Z.
Hypothesis Hmean : apply_segments memory segment shift from 0 segs = Some to.
Hypothesis Hok : segments_ok segment segs (zlen to).
Hypothesis Hlim : segments_in_limits segment shift 0 segs.
Hypothesis Hstream : compressed c (enc_segments segs) stream.
Hypothesis Hbytes : bytes_ok stream.

Notation header := (in_place_header c memory segment shift (zlen from) (zlen to)).
Hypothesis Hps : zlen (header ++ stream) + 128 < 2 ^ word_bits.

Variables r0 rE : reader.
Hypothesis Hr0 : reader_init (zlen stream) (comp_number c) = Some r0.
Hypothesis Hpulls : pulls r0 stream (enc_segments segs) rE [].
Hypothesis Hnz : nozero r0 stream.
Hypothesis HrE : destroy rE = Ret 0.

Notation world := (world memory segment shift from to mem0 c0 unl).
Notation off := (off memory segment shift from to mem0 unl).
Notation finished := (finished memory segment shift from to mem0 c0 unl).
Notation good := (good memory segment shift from to mem0 c0 unl rE).
Notation verdict := (verdict memory segment shift from to mem0 c0 unl rE).
Notation dead := (dead memory segment shift from to mem0 unl).
Notation gh := (g_header memory segment shift (zlen from) (zlen to) c stream).
Notation once := (ip_process_once (flash_env_of strict)).

Definition body_bound : Z := 2 * zlen (enc_segments segs) + 1.

Definition gd (f : list Z) (s : ip) (w : dev) (m : Z) : Prop :=
  (exists k, gh f s k /\ world w 1 None /\ m = body_bound + k) \/ good f s w m.

Notation answer := (answer off gd).

Lemma lims : 0 <= memory < 2 ^ 27 /\ 0 <= segment < 2 ^ 27 /\ 0 <= shift < 2 ^ 27 /\ 0 <= zlen from < 2 ^ 27 /\ 0 <= zlen to < 2 ^ 27.
Proof using Hsizes. clear - Hsizes. destruct Hsizes as (A & B & C & D & E1 & F & G). unfold size_limit in *. pose proof (zlen_nonneg from). lia. Qed.

Lemma segs_cons : exists recs rest, segs = recs :: rest.
Proof using Hok Hto. clear - Hok Hto. destruct segs as [|recs rest]; [cbn in Hok; lia|eauto]. Qed.

Lemma bb_pos : 1 < body_bound.
Proof using Hok Hto.
  clear - Hok Hto. destruct segs_cons as (recs & rest & Es). unfold body_bound. rewrite Es, enc_segments_cons.
  rewrite !zlen_app. pose proof (enc_size_pos 0). pose proof (zlen_nonneg (enc_recs recs)). pose proof (zlen_nonneg (enc_segments rest)). lia.
Qed.

Lemma gd_once : forall f s w m, bytes_ok f -> gd f s w m -> i_state s <> SDone -> (i_left s <> [] \/ f = []) -> answer f m (once s w).
Proof.
  intros f s w m Hf [(k & G & Hw & Em)|G] Hd Hl.
  2:{ destruct (good_once Hword memory segment shift from to mem0 Hsizes Hlen Hto Hfrom c0 unl rE HrE f s w m Hf G Hd) as [H|[H|H]].
      - left. destruct H as (s1 & w1 & m1 & A & B & C). exists s1, w1, m1. split; [auto|]. split; [right; auto|auto].
      - right; left. destruct H as (s1 & w1 & m1 & A & B & C & D & F). exists s1, w1, m1. split; [auto|]. split; [right; auto|auto].
      - right; right. exact H. }
  destruct lims as (L1 & L2 & L3 & L4 & L5). pose proof bb_pos as Hbb.
  destruct (i_init s) eqn:Ei;
    try (destruct (header_once Hword (flash_env_of strict) memory segment shift (zlen from) (zlen to) c stream L1 L2 L3 L4 L5 f s w k Hf G Hl ltac:(congruence))
      as [(s1 & k1 & A & B & C)|(s1 & A & B & C & D)];
      [left; exists s1, w, (body_bound + k1); split; [auto|]; split; [left; eauto|lia]
      |right; left; exists s1, w, m; split; [auto|]; split; [left; eauto|auto]]).
  destruct (header_last Hword (flash_env_of strict) memory segment shift (zlen from) (zlen to) c stream L5 f s w k r0 Hf G Ei Hr0 ltac:(lia))
    as [(s1 & A & B & C & D)|(s3 & B1 & B2 & B3 & B4 & B5 & B6 & B7 & B8 & B9 & B10 & B11 & B12 & B13 & A)].
  { right; left; exists s1, w, m; split; [auto|]; split; [left; eauto|auto]. }
  rewrite A. destruct (Z.ltb_spec 0 (zlen to)); [|lia].
  pose proof (rok_init _ _ _ Hr0 (zlen_nonneg stream)) as Hrok. pose proof (zlen_nonneg header). rewrite zlen_app in Hps.
  specialize (Hrok ltac:(lia)).
  destruct (shift_memory_spec Hword memory segment shift from to mem0 Hsizes Hlen Hto c0 unl w Hw) as [(w1 & P1 & P2)|(e & j & w1 & P1 & P2 & P3 & P4)];
    rewrite P1; cbn [obind].
  2:{ right; right. destruct (Z.eqb_spec e 0); [lia|]. cbn [negb]. cbv iota. cbn [obind]. destruct (Z.ltb_spec e 0); [|lia].
      do 3 eexists. split; [reflexivity|]. split; [auto|]. split; [auto|]. split; [reflexivity|]. split; [|auto].
      unfold destroyable. prj. rewrite B10. apply rok_destroy. auto. }
  nz. left. destruct segs_cons as (recs & rest & Hs).
  assert (En : enc_segments segs = enc_size 0 ++ enc_recs recs ++ enc_segments rest).
  { rewrite Hs. apply enc_segments_cons. }
  destruct (steps_bounds memory segment shift from to Hsizes Hto) as (SB1 & SB2 & _).
  do 3 eexists. split; [reflexivity|]. split.
  - right. left. exists 0, r0, recs, rest. prj. splits; auto.
    + unfold fixed. prj. splits; auto; lia.
    + rewrite Z.add_0_r. auto.
    + unfold rest_ok. rewrite <- Hs. replace (0 * segment) with 0 by lia. rewrite zdrop_0. auto.
    + apply DT_SZ; auto; [|lia]. apply EX_DT. unfold EX. splits; auto; rewrite B12; auto. rewrite <- En. auto.
  - pose proof (enc_size_pos 0) as Hz. subst m. unfold body_bound. rewrite En. rewrite (zlen_app (enc_size 0)).
    destruct G as (_ & _ & _ & _ & G). rewrite Ei in G. destruct G as (_ & _ & _ & G). subst k.
    change (zlen (rem memory segment shift (zlen from) (zlen to) ITo)) with 1.
    pose proof (zlen_nonneg (enc_recs recs ++ enc_segments rest)). lia.
Qed.

Lemma gd_nonneg : forall f s w m, gd f s w m -> 0 <= m.
Proof.
  intros f s w m [(k & G & _ & E)|G]; [|eapply good_nonneg; eauto].
  pose proof bb_pos. destruct G as (_ & _ & _ & _ & G). destruct (i_init s); destruct G as (? & ? & ? & G); subst; try (match goal with |- context [zlen ?l] => pose proof (zlen_nonneg l) end); lia.
Qed.

Lemma gd_live : forall f s w m, gd f s w m -> i_state s <> SDone -> 0 < m.
Proof.
  intros f s w m [(k & G & _ & E)|G] H.
  - pose proof bb_pos. destruct G as (_ & _ & _ & _ & G). destruct (i_init s); destruct G as (? & ? & ? & G); subst; try (match goal with |- context [zlen ?l] => pose proof (zlen_nonneg l) end); lia.
  - unfold InPlacePatch.good, g_dfpatch, g_diff_size, g_diff_data, g_extra_size, g_extra_data, g_adjustment, g_done in G.
    decompose [or and ex] G; subst; try congruence; rewrite ?zlen_app; repeat match goal with |- context [zlen (enc_size ?v)] => pose proof (enc_size_pos v); generalize dependent (zlen (enc_size v)); intros end;
    repeat match goal with |- context [zlen ?l] => pose proof (zlen_nonneg l); generalize dependent (zlen l); intros end; lia.
Qed.

Lemma gd_done : forall f s w m, gd f s w m -> i_state s = SDone ->
  i_to_size s = zlen to /\ i_reader s = Some rE /\ i_left s = [] /\ f = [] /\ finished w.
Proof.
  intros f s w m [(k & (G & _) & _)|G] H; [congruence|].
  unfold InPlacePatch.good, g_dfpatch, g_diff_size, g_diff_data, g_extra_size, g_extra_data, g_adjustment, g_done in G.
  destruct G as [G|[G|[G|[G|[G|[G|G]]]]]]; [| | | | | |tauto]; decompose [and ex] G; congruence.
Qed.

(** A new piece of the patch. *)
Lemma gd_chunk : forall f p s w m, bytes_ok p -> i_left s = [] -> gd (p ++ f) s w m -> gd f (iset_chunk s p) w m.
Proof.
  intros f p s w m Hp Hl [(k & G & Hw & E)|G].
  - left. exists k. split; [apply gh_chunk; auto|auto].
  - right. unfold InPlacePatch.good in *.
    assert (HS : forall z r v rest, SZ (p ++ f) z r (i_left s) v rest rE -> SZ f z r p v rest rE).
    { intros z r v rest (X1 & X2 & X3 & X4 & X5 & X6). rewrite Hl in *. unfold SZ. splits; auto; lia. }
    assert (HD : forall z r rest, DT (p ++ f) z r (i_left s) rest rE -> DT f z r p rest rE).
    { intros z r rest (X1 & X2 & X3 & X4 & X5). rewrite Hl in *. unfold DT. splits; auto. }
    destruct G as [G|[G|[G|[G|[G|[G|G]]]]]].
    + left. destruct G as (i & r & recs & sg & G). decompose [and] G. exists i, r, recs, sg. prj. splits; auto.
    + right; left. destruct G as (i & q & pos & r & rc & rs & out & sg & rest & G). decompose [and] G. exists i, q, pos, r, rc, rs, out, sg, rest. prj. splits; auto.
    + do 2 right; left. destruct G as (i & q & pos & r & d & fr & ex & a & rs & out & sg & rest & G). decompose [and] G. exists i, q, pos, r, d, fr, ex, a, rs, out, sg, rest. prj. splits; auto.
    + do 3 right; left. destruct G as (i & q & pos & r & ex & a & rs & out & sg & rest & G). decompose [and] G. exists i, q, pos, r, ex, a, rs, out, sg, rest. prj. splits; auto.
    + do 4 right; left. destruct G as (i & q & pos & r & ex & a & rs & out & sg & rest & G). decompose [and] G. exists i, q, pos, r, ex, a, rs, out, sg, rest. prj. splits; auto.
    + do 5 right; left. destruct G as (i & q & pos & r & a & rs & out & sg & G). decompose [and] G. exists i, q, pos, r, a, rs, out, sg. prj. splits; auto.
    + do 6 right. destruct G as (G1 & G2 & G3 & G4 & G5 & G6 & G7). apply app_eq_nil in G5. destruct G5. unfold g_done. prj. splits; auto.
Qed.

(** An attempt from the beginning. *)
Lemma apply_spec : forall fuel junk w pieces, concat pieces = header ++ stream ->
  (c = CompNone -> zlen header <= zlen (hd [] pieces)) -> bytes_ok (header ++ stream) -> world w 1 None ->
  (ip_apply (flash_env_of strict) fuel junk (zlen (header ++ stream)) w pieces = OutOfFuel /\ Z.of_nat fuel <= body_bound + 6) \/
  final (zlen to) finished off (ip_apply (flash_env_of strict) fuel junk (zlen (header ++ stream)) w pieces).
Proof.
  intros fuel junk w [|p pieces] Hp Hc Hb Hw; [discriminate|]. cbn [concat hd] in *.
  assert (Hb' : bytes_ok p /\ bytes_ok (concat pieces)) by (rewrite <- Hp in Hb; apply Forall_app in Hb; auto). destruct Hb' as [Hb1 Hb2].
  pose proof (start_spec _ _ _ _ _ _ _ junk _ p Hp Hb1 Hc) as G. pose proof bb_pos. destruct lims as (_ & _ & _ & _ & L5).
  set (s0 := ip_init junk (zlen (header ++ stream))) in *.
  assert (G' : gd (concat pieces) (iset_chunk s0 p) w (body_bound + 6)) by (left; exists 6; auto).
  unfold ip_apply. fold s0.
  destruct (attempt_spec (zlen to) finished off rE gd L5 HrE gd_once gd_nonneg gd_live gd_done gd_chunk fuel s0 w p pieces _ Hb1 Hb2 G') as [[A B]|A]; [|auto].
  left. split; [auto|lia].
Qed.

End Run.

(** No to data. *)
Section Empty.
Context `{WBits : WordBits}.
Hypothesis Hword : 32 <= word_bits.
Variables memory segment shift from_size : Z.
Hypothesis Hsizes : sizes_ok memory segment shift from_size 0.
Variable c : comp.
Variable w0 : dev.
Variable EV : ip_env dev.

Notation header := (in_place_header c memory segment shift from_size 0).
Notation gh := (g_header memory segment shift from_size 0 c []).

Definition r_empty : reader :=
  match c with CompNone => RNone 0 0 | CompCrle => RCrle CIdle | CompHeatshrink => RHs (mkhr (-1) (-1) false None) end.

Lemma r_empty_init : reader_init (zlen (@nil Z)) (comp_number c) = Some r_empty.
Proof. unfold r_empty. destruct c; reflexivity. Qed.

Lemma r_empty_destroy : destroy r_empty = Ret 0.
Proof. unfold r_empty. destruct c; reflexivity. Qed.

Definition ge (f : list Z) (s : ip) (w : dev) (m : Z) : Prop :=
  (exists k, gh f s k /\ w = w0 /\ m = k + 1) \/
  (i_state s = SDone /\ i_to_size s = 0 /\ i_reader s = Some r_empty /\ i_left s = [] /\ f = [] /\ w = w0 /\ m = 0).

Notation nowhere := (fun _ : dev => False).
Notation same := (fun w : dev => w = w0).

Lemma lims0 : 0 <= memory < 2 ^ 27 /\ 0 <= segment < 2 ^ 27 /\ 0 <= shift < 2 ^ 27 /\ 0 <= from_size < 2 ^ 27.
Proof using Hsizes. clear - Hsizes. destruct Hsizes as (A & B & C & D & E1 & F & G). unfold size_limit in *. lia. Qed.

Lemma header_short : zlen (header ++ []) < 2 ^ word_bits.
Proof.
  rewrite app_nil_r. pose proof (pow2_32_le word_bits Hword). unfold in_place_header. rewrite zlen_cons, !zlen_app.
  pose proof (enc_size_short memory). pose proof (enc_size_short segment). pose proof (enc_size_short shift). pose proof (enc_size_short from_size). pose proof (enc_size_short 0). lia.
Qed.

Lemma gh_pos : forall f s k, gh f s k -> 0 < k.
Proof. intros f s k (_ & _ & _ & _ & G). destruct (i_init s); destruct G as (? & ? & ? & G); subst; reflexivity. Qed.

Lemma ge_once : forall f s w m, bytes_ok f -> ge f s w m -> i_state s <> SDone -> (i_left s <> [] \/ f = []) -> answer nowhere ge f m (ip_process_once EV s w).
Proof.
  intros f s w m Hf [(k & G & Hw & Em)|G] Hd Hl; [|destruct G; congruence]. subst w.
  destruct lims0 as (L1 & L2 & L3 & L4). assert (L5 : 0 <= 0 < 2 ^ 27) by lia. pose proof (gh_pos _ _ _ G).
  destruct (i_init s) eqn:Ei;
    try (destruct (header_once Hword EV memory segment shift from_size 0 c [] L1 L2 L3 L4 L5 f s w0 k Hf G Hl ltac:(congruence))
      as [(s1 & k1 & A & B & C)|(s1 & A & B & C & D)];
      [left; exists s1, w0, (k1 + 1); split; [auto|]; split; [left; eauto|lia]
      |right; left; exists s1, w0, m; split; [auto|]; split; [left; eauto|auto]]).
  destruct (header_last Hword EV memory segment shift from_size 0 c [] L5 f s w0 k r_empty Hf G Ei r_empty_init header_short)
    as [(s1 & A & B & C & D)|(s3 & B1 & B2 & B3 & B4 & B5 & B6 & B7 & B8 & B9 & B10 & B11 & B12 & B13 & A)].
  { right; left; exists s1, w0, m; split; [auto|]; split; [left; eauto|auto]. }
  rewrite A. change (0 <? 0) with false. cbv iota. cbn [obind]. change (0 <? 0) with false. cbv iota. left.
  apply app_eq_nil in B12. destruct B12.
  exists (iset_st s3 SDone), w0, 0. split; [auto|]. split; [|lia]. right. prj. splits; auto.
Qed.

Lemma ge_chunk : forall f p s w m, bytes_ok p -> i_left s = [] -> ge (p ++ f) s w m -> ge f (iset_chunk s p) w m.
Proof.
  intros f p s w m Hp Hl [(k & G & Hw & E)|G].
  - left. exists k. split; [apply gh_chunk; auto|auto].
  - right. destruct G as (G1 & G2 & G3 & G4 & G5 & G6 & G7). apply app_eq_nil in G5. destruct G5. prj. splits; auto.
Qed.

Lemma empty_spec : forall fuel junk pieces, concat pieces = header ->
  (c = CompNone -> zlen header <= zlen (hd [] pieces)) -> bytes_ok header ->
  (ip_apply EV fuel junk (zlen header) w0 pieces = OutOfFuel /\ Z.of_nat fuel <= 7) \/
  final 0 same nowhere (ip_apply EV fuel junk (zlen header) w0 pieces).
Proof.
  intros fuel junk [|p pieces] Hp Hc Hb; [discriminate|]. cbn [concat hd] in *.
  assert (Hb' : bytes_ok p /\ bytes_ok (concat pieces)) by (rewrite <- Hp in Hb; apply Forall_app in Hb; auto). destruct Hb' as [Hb1 Hb2].
  assert (Hp' : p ++ concat pieces = header ++ []) by (rewrite app_nil_r; auto).
  pose proof (start_spec _ _ _ _ _ _ _ junk _ p Hp' Hb1 Hc) as G. rewrite app_nil_r in G.
  set (s0 := ip_init junk (zlen header)) in *.
  assert (G' : ge (concat pieces) (iset_chunk s0 p) w0 7) by (left; exists 6; auto).
  unfold ip_apply. fold s0.
  assert (N1 : forall f s w m, ge f s w m -> 0 <= m).
  { intros f s w m [(k & X & _ & Y)|X]; [apply gh_pos in X; lia|]. decompose [and] X. lia. }
  assert (N2 : forall f s w m, ge f s w m -> i_state s <> SDone -> 0 < m).
  { intros f s w m [(k & X & _ & Y)|X] Z; [apply gh_pos in X; lia|]. decompose [and] X. congruence. }
  assert (N3 : forall f s w m, ge f s w m -> i_state s = SDone -> i_to_size s = 0 /\ i_reader s = Some r_empty /\ i_left s = [] /\ f = [] /\ same w).
  { intros f s w m [(k & X & _ & Y)|X] Z; [destruct X; congruence|]. decompose [and] X. auto 10. }
  destruct (attempt_spec 0 same nowhere r_empty ge ltac:(lia) r_empty_destroy ge_once N1 N2 N3 ge_chunk fuel s0 w0 p pieces _ Hb1 Hb2 G') as [[A B]|A]; auto.
Qed.

End Empty.
