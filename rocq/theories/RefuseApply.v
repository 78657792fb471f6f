(** Patches that are refused because of their header: the four appliers. *)

From Coq Require Import ZArith List Bool Lia ZifyBool ZifyNat ZifyN.
From Verif Require Import Prelude Lib Heatshrink HsProofs CReader ReaderProofs SizeProofs SizeCodec CSeq CInPlace CLzma CSeqLzma CIpLzma Spec LzmaSpec SeqSim SeqRun RefuseSpec RefuseRun.
Import ListNotations.
Open Scope Z_scope.

Lemma type_land : forall b, Z.land (Z.shiftr b 4) 7 = patch_type b.
Proof. intros b. change 7 with (Z.ones 3). rewrite Z.land_ones by lia. rewrite Z.shiftr_div_pow2 by lia. reflexivity. Qed.

Lemma comp_land : forall b, Z.land b 15 = patch_comp b.
Proof. intros b. change 15 with (Z.ones 4). rewrite Z.land_ones by lia. reflexivity. Qed.

Lemma sizes_bad : forall sizes k code last z v rest, (length sizes < k)%nat -> Forall (fun n => 0 <= n < 2 ^ 27) sizes -> 2 ^ 27 <= Z.abs v ->
  code = - E_CORRUPT_PATCH_OVERFLOW -> refused_sizes k code last (z_first z) (flat_map enc_size sizes ++ enc_size v ++ rest).
Proof.
  induction sizes as [|n sizes IH]; intros k code last z v rest Hk Hs Hv Hc; (destruct k; [cbn in Hk; lia|]); cbn [refused_sizes flat_map].
  - left. cbn [app]. destruct (uhs_big v (z_first z) rest Hv eq_refl) as (z1 & i1 & A). exists z1, i1. rewrite Hc. auto.
  - right. inversion Hs; subst. rewrite <- app_assoc. destruct (uhs_enc n (z_first z) (flat_map enc_size sizes ++ enc_size v ++ rest) H1 eq_refl) as (z1 & A).
    exists n, z1, (flat_map enc_size sizes ++ enc_size v ++ rest). split; [exact A|]. apply IH; auto. cbn in Hk. lia.
Qed.

Lemma sizes_good : forall sizes code (last : Prop) z rest, Forall (fun n => 0 <= n < 2 ^ 27) sizes -> last ->
  refused_sizes (length sizes) code last (z_first z) (flat_map enc_size sizes ++ rest).
Proof.
  induction sizes as [|n sizes IH]; intros code last z rest Hs Hl; cbn [refused_sizes flat_map length]; [exact Hl|].
  right. inversion Hs; subst. rewrite <- app_assoc. destruct (uhs_enc n (z_first z) (flat_map enc_size sizes ++ rest) H1 eq_refl) as (z1 & A).
  exists n, z1, (flat_map enc_size sizes ++ rest). split; [exact A|]. apply IH; auto.
Qed.

Definition header_bad (type : Z) (k : nat) (unusable : Z -> Z -> Prop) (code b : Z) (rest : list Z) : Prop :=
  (patch_type b <> type /\ code = - E_BAD_PATCH_TYPE) \/
  (patch_type b = type /\ forall z, refused_sizes k code (unusable (patch_comp b) code) (z_first z) rest).

Lemma refused_header : forall type k unusable patch code, refused type k unusable patch code ->
  exists b rest, patch = b :: rest /\ header_bad type k unusable code b rest.
Proof.
  intros type k unusable patch code H. unfold header_bad. destruct H; do 2 eexists; (split; [reflexivity|]).
  - left. auto.
  - right. split; [auto|]. intros z. apply sizes_bad; auto.
  - right. split; [auto|]. intros z. subst k. apply sizes_good; auto.
Qed.

Lemma refused_code : forall type k (unusable : Z -> Z -> Prop) patch code,
  (forall c e, unusable c e -> e < 0 /\ e <> - E_ALREADY_DONE) -> refused type k unusable patch code -> code < 0 /\ code <> - E_ALREADY_DONE.
Proof. intros type k unusable patch code Hu H. destruct H; [split; [reflexivity|discriminate]|split; [reflexivity|discriminate]|eauto]. Qed.

Lemma zok_first_any : forall z, zok (z_first z).
Proof. intros z H. discriminate. Qed.

Section Sequential.
Context {WBits : WordBits}.
Context {D : Type} (L : lzma_lib D).
Context {W : Type} (E : seq_env W).
Variables (patch : list Z) (code b : Z) (rest : list Z).
Hypothesis Hp : patch = b :: rest.
Hypothesis Hcode : code < 0 /\ code <> - E_ALREADY_DONE.

Definition srem (unusable : Z -> Z -> Prop) (f : list Z) (s : ap) : Prop :=
  a_state s = SInit /\
  if a_to_init s then a_compression s = patch_comp b /\ zok (a_size s) /\ refused_sizes 1 code (unusable (patch_comp b) code) (a_size s) (a_left s ++ f)
  else a_left s ++ f = patch.

Definition smeas (s : ap) : nat := if a_to_init s then 0%nat else 1%nat.

Section Plain.
Hypothesis Hb : header_bad 0 1 unknown code b rest.

Lemma once_refused : forall f s w, srem unknown f s /\ a_reader s = None -> a_left s <> [] -> exists res s1, process_once E 128 s w = Ret (res, s1, w) /\
  ((res = code /\ a_state s1 = SFailed /\ a_reader s1 = None) \/ (res = 0 /\ (srem unknown f s1 /\ a_reader s1 = None) /\ (smeas s1 < smeas s)%nat) \/
   (res = 1 /\ (srem unknown f s1 /\ a_reader s1 = None) /\ a_left s1 = [])).
Proof.
  intros f s w [[Hst Hs] Hr] Hl. unfold process_once, process_init. rewrite Hst. unfold smeas. destruct Hcode as [Hc _].
  destruct (a_to_init s) eqn:Et.
  - destruct Hs as (Hcm & Hz & Hf). unfold process_init_to_size.
    destruct (refused_piece _ _ _ _ _ _ Hz Hf) as [(z1 & A & B & C)|[(z1 & l1 & A & B)|(v & z1 & l1 & A & B)]]; rewrite A; cbn [obind]; cbv zeta.
    + change (negb (1 =? 0)) with true. cbv iota. cbn [obind]. do 2 eexists. split; [reflexivity|]. right; right. unfold srem. cbn [x_ap x_reader a_state a_to_init a_compression a_size a_left a_reader set_header set_st Z.ltb Z.compare]. rewrite Et, Hst. auto 10.
    + rewrite B. do 2 eexists. split; [reflexivity|]. left. cbn. auto.
    + cbn [refused_sizes] in B. change (negb (0 =? 0)) with false. cbv iota. cbn [a_compression set_header]. rewrite Hcm. destruct B as (B0 & B2 & B4 & B).
      unfold reader_init. destruct (Z.eqb_spec (patch_comp b) 0); [contradiction|]. destruct (Z.eqb_spec (patch_comp b) 2); [contradiction|].
      destruct (Z.eqb_spec (patch_comp b) 4); [contradiction|]. cbn [obind]. rewrite B. do 2 eexists. split; [reflexivity|]. left. cbn. auto.
  - unfold process_init_fixed_header. rewrite Hp in Hs. destruct (a_left s) as [|b0 l] eqn:El; [contradiction|]. cbn [app] in Hs. injection Hs as -> Hs. rewrite type_land, comp_land. cbv zeta.
    destruct Hb as [[Ht Hc2]|[Ht Hz]].
    + destruct (Z.eqb_spec (patch_type b) 0); [contradiction|]. cbn [negb]. cbn [obind]. do 2 eexists. split; [reflexivity|]. left. rewrite Hc2. cbn. auto.
    + rewrite Ht. cbn [Z.eqb negb obind]. do 2 eexists. split; [reflexivity|]. right; left. unfold srem. cbn [x_ap x_reader a_state a_to_init a_compression a_size a_left a_reader set_header set_st Z.ltb Z.compare]. rewrite Hst.
      split; [reflexivity|]. split; [|lia]. split; [|auto]. split; [reflexivity|]. split; [reflexivity|]. split; [apply zok_first_any|]. rewrite Hs. apply Hz.
Qed.

Lemma fin_refused : forall fuel s (w : W), (a_state s = SFailed /\ a_reader s = None) -> (1 <= fuel)%nat -> exists v s1, finalize E fuel 128 s w = Ret (v, s1, w) /\ True.
Proof.
  intros fuel s w [Hs Hr] Hf. destruct fuel; [lia|]. unfold finalize. cbn [finalize_loop]. unfold process_once. cbn [a_state set_chunk]. rewrite Hs. cbn. rewrite Hr. do 2 eexists; split; [reflexivity|exact I].
Qed.

Lemma srem_piece : forall unusable c f s, srem unusable (c ++ f) s -> a_left s = [] ->
  srem unusable f (set_chunk (set_patch_offset s (wrap (a_patch_offset s + zlen c))) c).
Proof. intros unusable c f s [Hs H] Hl. unfold srem. cbn. rewrite Hl in H. cbn [app] in H. auto. Qed.

Lemma srem_end : forall unusable s, srem unusable [] s -> a_left s = [] -> False.
Proof.
  intros unusable s [Hs H] Hl. rewrite Hl in H. destruct (a_to_init s).
  - destruct H as (_ & _ & H). cbn [app] in H. apply refused_nil in H. exact H.
  - rewrite Hp in H. discriminate.
Qed.

Lemma seq_refused : forall fuel junk ps w chunks, concat chunks = patch -> (2 <= fuel)%nat ->
  exists s, feed E fuel 128 (ap_init junk ps) w chunks = Ret (code, s, w).
Proof.
  intros fuel junk ps w chunks Hc Hf.
  assert (J : feed E fuel 128 (ap_init junk ps) w chunks = feed E fuel 128 (ap_init (set_chunk junk []) ps) w chunks).
  { destruct chunks; [cbn in Hc; congruence|reflexivity]. }
  rewrite J.
  destruct (@feed_refused ap W) with (left_of := a_left) (set_piece := fun s c => set_chunk (set_patch_offset s (wrap (a_patch_offset s + zlen c))) c)
    (once := process_once E 128) (loop := fun fuel => process_loop E fuel 128) (fin := fun fuel => finalize E fuel 128) (feeding := fun fuel => feed E fuel 128)
    (code := code) (rem := fun f s => srem unknown f s /\ a_reader s = None) (meas := smeas) (failed := fun s => a_state s = SFailed /\ a_reader s = None) (over := fun _ : ap => True) (most := 2%nat)
    (cs := chunks) (fuel := fuel) (s := ap_init (set_chunk junk []) ps) (w := w) as (s1 & A & _); auto.
  - intros fu res s w'. destruct fu; reflexivity.
  - intros fu s w' c cs. cbn [feed]. unfold process. cbv zeta. destruct (process_loop E fu 128 0 _ w') as [[[? ?] ?]| |]; reflexivity.
  - apply once_refused.
  - apply fin_refused.
  - intros c f s [H H1] Hl. split; [split; [apply srem_piece; auto|exact H1]|]. unfold smeas. cbn. lia.
  - intros s [H H1]. eapply srem_end; eauto.
  - intros f s _. unfold smeas. destruct (a_to_init s); lia.
  - unfold srem. cbn. rewrite Hc. auto.
  - eauto.
Qed.

End Plain.

Section Lzma.
Hypothesis Hb : header_bad 0 1 (unknown_lzma L) code b rest.

Lemma init_unknown : forall ps c, unknown_lzma L c code -> xreader_init L ps c = (code, None).
Proof.
  intros ps c [[H1 (B0 & B2 & B4 & B)]|(H1 & H2 & B)]; unfold xreader_init.
  - destruct (Z.eqb_spec c 1); [contradiction|]. unfold reader_init. destruct (Z.eqb_spec c 0); [contradiction|]. destruct (Z.eqb_spec c 2); [contradiction|].
    destruct (Z.eqb_spec c 4); [contradiction|]. rewrite B. reflexivity.
  - rewrite H1, H2, B. reflexivity.
Qed.

Definition xfailed (x : xap D) : Prop := a_state (x_ap x) = SFailed /\ x_reader x = None.

Lemma xonce_refused : forall f x w, srem (unknown_lzma L) f (x_ap x) /\ x_reader x = None -> a_left (x_ap x) <> [] -> exists res x1, x_once L E x w = Ret (res, x1, w) /\
  ((res = code /\ xfailed x1) \/ (res = 0 /\ (srem (unknown_lzma L) f (x_ap x1) /\ x_reader x1 = None) /\ (smeas (x_ap x1) < smeas (x_ap x))%nat) \/
   (res = 1 /\ (srem (unknown_lzma L) f (x_ap x1) /\ x_reader x1 = None) /\ a_left (x_ap x1) = [])).
Proof.
  intros f [s rd] w [[Hst Hs] Hr] Hl. cbn [x_ap x_reader] in *. unfold x_once, x_init. cbn [x_ap x_reader]. rewrite Hst. unfold smeas, xfailed. destruct Hcode as [Hc _].
  destruct (a_to_init s) eqn:Et.
  - destruct Hs as (Hcm & Hz & Hf). unfold x_init_to_size. cbn [x_ap x_reader]. cbv zeta.
    destruct (refused_piece _ _ _ _ _ _ Hz Hf) as [(z1 & A & B & C)|[(z1 & l1 & A & B)|(v & z1 & l1 & A & B)]]; rewrite A; cbn [obind].
    + change (negb (1 =? 0)) with true. cbv iota. cbn [obind]. do 2 eexists. split; [reflexivity|]. right; right. unfold srem. cbn [x_ap x_reader a_state a_to_init a_compression a_size a_left a_reader set_header set_st Z.ltb Z.compare]. rewrite Et, Hst. auto 10.
    + rewrite B. do 2 eexists. split; [reflexivity|]. left. cbn. auto.
    + cbn [refused_sizes] in B. change (negb (0 =? 0)) with false. cbv iota. cbn [a_compression set_header]. rewrite Hcm. rewrite init_unknown by exact B.
      cbn [obind]. do 2 eexists. split; [reflexivity|]. left. destruct (Z.ltb_spec code 0); [|lia]. cbn. auto.
  - unfold process_init_fixed_header. rewrite Hp in Hs. destruct (a_left s) as [|b0 l] eqn:El; [contradiction|]. cbn [app] in Hs. injection Hs as -> Hs. rewrite type_land, comp_land. cbv zeta.
    destruct Hb as [[Ht Hc2]|[Ht Hz]].
    + destruct (Z.eqb_spec (patch_type b) 0); [contradiction|]. cbn [negb]. cbn [obind]. do 2 eexists. split; [reflexivity|]. left. rewrite Hc2. cbn. auto.
    + rewrite Ht. cbn [Z.eqb negb obind]. do 2 eexists. split; [reflexivity|]. right; left. unfold srem. cbn [x_ap x_reader a_state a_to_init a_compression a_size a_left a_reader set_header set_st Z.ltb Z.compare]. rewrite Hst.
      split; [reflexivity|]. split; [|lia]. split; [|auto]. split; [reflexivity|]. split; [reflexivity|]. split; [apply zok_first_any|]. rewrite Hs. apply Hz.
Qed.

Lemma xfin_refused : forall fuel x (w : W), xfailed x -> (1 <= fuel)%nat -> exists v x1, x_finalize L E fuel x w = Ret (v, x1, w) /\ x_reader x1 = None.
Proof.
  intros fuel [s rd] w [Hs Hr] Hf. destruct fuel; [lia|]. cbn [x_ap x_reader] in *. unfold x_finalize. cbn [x_finalize_loop]. unfold x_once. cbn [a_state set_chunk x_ap x_reader]. rewrite Hs. cbn. rewrite Hr. do 2 eexists; split; reflexivity.
Qed.

Lemma lzma_refused : forall fuel junk ps w chunks, concat chunks = patch -> (2 <= fuel)%nat ->
  exists x, x_feed L E fuel (xap_init junk ps) w chunks = Ret (code, x, w) /\ x_reader x = None.
Proof.
  intros fuel junk ps w chunks Hc Hf.
  assert (J : x_feed L E fuel (xap_init junk ps) w chunks = x_feed L E fuel (xap_init (set_chunk junk []) ps) w chunks).
  { destruct chunks; [cbn in Hc; congruence|reflexivity]. }
  rewrite J.
  apply (@feed_refused (xap D) W) with (left_of := fun x : xap D => a_left (x_ap x)) (set_piece := fun (x : xap D) c => mkxap (set_chunk (set_patch_offset (x_ap x) (wrap (a_patch_offset (x_ap x) + zlen c))) c) (x_reader x))
    (once := x_once L E) (loop := x_process_loop L E) (fin := x_finalize L E) (feeding := x_feed L E)
    (code := code) (rem := fun f (x : xap D) => srem (unknown_lzma L) f (x_ap x) /\ x_reader x = None) (meas := fun x : xap D => smeas (x_ap x)) (failed := xfailed) (over := fun x : xap D => x_reader x = None) (most := 2%nat); auto.
  - intros fu res s w'. destruct fu; reflexivity.
  - intros fu s w' c cs. cbn [x_feed]. unfold x_process. cbv zeta. destruct (x_process_loop L E fu 0 _ w') as [[[? ?] ?]| |]; reflexivity.
  - apply xonce_refused.
  - apply xfin_refused.
  - intros c f s [H H1] Hl. split; [split; [apply srem_piece; auto|exact H1]|]. unfold smeas. cbn. lia.
  - intros s [H H1]. eapply srem_end; eauto.
  - intros f s _. unfold smeas. destruct (a_to_init _); lia.
  - unfold srem. cbn. rewrite Hc. auto.
Qed.

End Lzma.
End Sequential.

Section InPlace.
Context {WBits : WordBits}.
Context {D : Type} (L : lzma_lib D).
Context {W : Type} (E : ip_env W).
Variables (patch : list Z) (code b : Z) (rest : list Z).
Hypothesis Hp : patch = b :: rest.
Hypothesis Hcode : code < 0 /\ code <> - E_ALREADY_DONE.

(** Sizes left to read. *)
Definition sizes_left (i : istate) : nat :=
  match i with IFixed => 6 | IMemory => 5 | ISegment => 4 | IShift => 3 | IFrom => 2 | ITo => 1 end.

Definition irem (unusable : Z -> Z -> Prop) (f : list Z) (s : ip) : Prop :=
  i_state s = SInit /\
  match i_init s with
  | IFixed => i_left s ++ f = patch
  | i => i_compression s = patch_comp b /\ zok (i_size s) /\ refused_sizes (sizes_left i) code (unusable (patch_comp b) code) (i_size s) (i_left s ++ f)
  end.

Definition imeas (s : ip) : nat := sizes_left (i_init s).

(** What one step gives. *)
Definition step_refused (unusable : Z -> Z -> Prop) (f : list Z) (s : ip) (res : Z) (s1 : ip) : Prop :=
  (res = code /\ i_reader s1 = i_reader s) \/ (res = 0 /\ irem unusable f s1 /\ i_reader s1 = i_reader s /\ (imeas s1 < imeas s)%nat) \/
  (res = 1 /\ irem unusable f s1 /\ i_reader s1 = i_reader s /\ i_left s1 = []).

Definition body_of (i : istate) (s : ip) (next : istate) (store : ip -> Z -> ip) : Prop :=
  i_init s = i /\ (forall s v, i_state (store s v) = i_state s /\ i_init (store s v) = i_init s /\ i_compression (store s v) = i_compression s /\ i_size (store s v) = i_size s /\
    i_left (store s v) = i_left s /\ i_reader (store s v) = i_reader s) /\ sizes_left i = Datatypes.S (sizes_left next) /\ next <> IFixed /\ i <> IFixed.

Lemma size_refused : forall unusable i f s next store, body_of i s next store -> irem unusable f s ->
  exists res s1, ip_init_size s next store = Ret (res, s1) /\ step_refused unusable f s res s1.
Proof.
  intros unusable i f s next store (Hi & Hstore & Hk & Hn & Hi2) [Hst Hs]. unfold ip_init_size. rewrite Hi in Hs.
  assert (Hs' : i_compression s = patch_comp b /\ zok (i_size s) /\ refused_sizes (sizes_left i) code (unusable (patch_comp b) code) (i_size s) (i_left s ++ f))
    by (destruct i; auto; contradiction).
  clear Hs. destruct Hs' as (Hcm & Hz & Hf). rewrite Hk in Hf. unfold step_refused.
  destruct (refused_piece _ _ _ _ _ _ Hz Hf) as [(z1 & A & B & C)|[(z1 & l1 & A & B)|(v & z1 & l1 & A & B)]]; rewrite A; cbn [obind]; cbv zeta.
  - change (negb (1 =? 0)) with true. cbv iota. do 2 eexists. split; [reflexivity|]. right; right. unfold irem. cbn [i_state i_init i_compression i_size i_left i_reader iset_header sizes_left]. rewrite Hi, Hst.
    split; [reflexivity|]. split; [|auto]. split; [reflexivity|]. rewrite <- Hk in C. destruct i; auto. contradiction.
  - rewrite B. do 2 eexists. split; [reflexivity|]. left. cbn. auto.
  - change (negb (0 =? 0)) with false. cbv iota. do 2 eexists. split; [reflexivity|]. right; left. destruct (Hstore (iset_header s next (i_compression s) (z_first z1) l1) (wrap v)) as (S1 & S2 & S3 & S4 & S5 & S6).
    unfold irem, imeas. rewrite S1, S2, S3, S4, S5, S6, Hi. cbn [i_state i_init i_compression i_size i_left i_reader iset_header sizes_left]. rewrite Hst, Hcm. split; [reflexivity|]. split; [|split; [auto|lia]]. split; [reflexivity|].
    pose proof (zok_first_any z1). destruct next; auto. contradiction.
Qed.

Lemma fixed_refused : forall unusable f s, header_bad 1 5 unusable code b rest -> irem unusable f s -> i_init s = IFixed -> i_left s <> [] ->
  exists res s1, ip_init_fixed_header s = Ret (res, s1) /\ step_refused unusable f s res s1.
Proof.
  intros unusable f s Hb [Hst Hs] Hi Hl. rewrite Hi in Hs. unfold ip_init_fixed_header. rewrite Hp in Hs.
  destruct (i_left s) as [|b0 l] eqn:El; [contradiction|]. cbn [app] in Hs. injection Hs as -> Hs. rewrite type_land, comp_land. cbv zeta. unfold step_refused.
  destruct Hb as [[Ht Hc2]|[Ht Hz]].
  - destruct (Z.eqb_spec (patch_type b) 1); [contradiction|]. cbn [negb]. do 2 eexists. split; [reflexivity|]. left. auto.
  - rewrite Ht. cbn [Z.eqb negb]. change (negb (1 =? 1)) with false. cbv iota. do 2 eexists. split; [reflexivity|]. right; left. unfold irem, imeas. rewrite Hi. cbn [i_state i_init i_compression i_size i_left i_reader iset_header sizes_left]. rewrite Hst.
    split; [reflexivity|]. split; [|split; [auto|lia]]. split; [reflexivity|]. split; [reflexivity|]. split; [apply zok_first_any|]. rewrite Hs. apply Hz.
Qed.

Lemma init_refused : forall unusable f s w, header_bad 1 5 unusable code b rest -> irem unusable f s -> i_init s <> ITo -> i_left s <> [] ->
  exists res s1, ip_process_init E s w = Ret (res, s1, w) /\ step_refused unusable f s res s1.
Proof.
  intros unusable f s w Hb Hs Ht Hl. unfold ip_process_init. destruct (i_init s) eqn:Hi; try contradiction.
  { destruct (fixed_refused _ _ _ Hb Hs Hi Hl) as (res & s1 & A & B). rewrite A. cbn [obind]. eauto. }
  all: match goal with Hi : i_init ?s = _, Hs : irem ?unusable ?f ?s |- context [ip_init_size ?s ?next ?store] =>
    assert (K : body_of (i_init s) s next store) by (rewrite Hi; split; [exact Hi|]; split; [intros; cbn; auto 10|]; split; [reflexivity|]; split; discriminate);
    destruct (size_refused unusable _ f s next store K Hs) as (res & s1 & A & B) end; rewrite A; cbn [obind]; eauto.
Qed.

Lemma irem_piece : forall unusable c f s, irem unusable (c ++ f) s -> i_left s = [] -> irem unusable f (iset_chunk s c).
Proof. intros unusable c f s [Hs H] Hl. unfold irem. cbn. rewrite Hl in H. cbn [app] in H. auto. Qed.

Lemma irem_end : forall unusable s, irem unusable [] s -> i_left s = [] -> False.
Proof.
  intros unusable s [Hs H] Hl. rewrite Hl in H. cbn [app] in H. destruct (i_init s); cbn [sizes_left] in H; [rewrite Hp in H; discriminate|..];
    destruct H as (_ & _ & H); apply refused_nil in H; exact H.
Qed.

Lemma imeas_most : forall s, (imeas s < 7)%nat.
Proof. intros s. unfold imeas. destruct (i_init s); cbn; lia. Qed.

Section Plain.
Hypothesis Hb : header_bad 1 5 unknown code b rest.

Lemma ionce_refused : forall f s w, irem unknown f s /\ i_reader s = None -> i_left s <> [] -> exists res s1, ip_process_once E s w = Ret (res, s1, w) /\
  ((res = code /\ i_state s1 = SFailed /\ i_reader s1 = None) \/ (res = 0 /\ (irem unknown f s1 /\ i_reader s1 = None) /\ (imeas s1 < imeas s)%nat) \/
   (res = 1 /\ (irem unknown f s1 /\ i_reader s1 = None) /\ i_left s1 = [])).
Proof.
  intros f s w [Hs Hr] Hl. assert (Hst : i_state s = SInit) by (destruct Hs; auto). unfold ip_process_once. rewrite Hst. destruct Hcode as [Hc _].
  assert (K : exists res s1, ip_process_init E s w = Ret (res, s1, w) /\ step_refused unknown f s res s1).
  { destruct (i_init s) eqn:Hi; try (apply init_refused; auto; congruence). unfold ip_process_init. rewrite Hi. destruct Hs as [_ Hs]. rewrite Hi in Hs.
    destruct Hs as (Hcm & Hz & Hf). unfold ip_init_to_size, step_refused. cbn [sizes_left] in Hf.
    destruct (refused_piece _ _ _ _ _ _ Hz Hf) as [(z1 & A & B & C)|[(z1 & l1 & A & B)|(v & z1 & l1 & A & B)]]; rewrite A; cbn [obind]; cbv zeta.
    + change (negb (1 =? 0)) with true. cbv iota. do 2 eexists. split; [reflexivity|]. right; right. unfold irem. cbn [i_state i_init i_compression i_size i_left i_reader iset_header sizes_left]. rewrite Hi, Hst. auto 10.
    + rewrite B. do 2 eexists. split; [reflexivity|]. left. cbn. auto.
    + cbn [refused_sizes] in B. change (negb (0 =? 0)) with false. cbv iota. cbn [i_compression iset_header]. rewrite Hcm. destruct B as (B0 & B2 & B4 & B).
      unfold reader_init. destruct (Z.eqb_spec (patch_comp b) 0); [contradiction|]. destruct (Z.eqb_spec (patch_comp b) 2); [contradiction|].
      destruct (Z.eqb_spec (patch_comp b) 4); [contradiction|]. rewrite B. do 2 eexists. split; [reflexivity|]. left. cbn. auto. }
  destruct K as (res & s1 & A & B). rewrite A. cbn [obind]. do 2 eexists. split; [reflexivity|]. unfold step_refused in B. rewrite Hr in B.
  destruct B as [(-> & B)|[(-> & B1 & B2 & B3)|(-> & B1 & B2 & B3)]].
  - left. destruct (Z.ltb_spec code 0); [|lia]. cbn. auto.
  - right; left. auto.
  - right; right. auto.
Qed.

Lemma ifin_refused : forall fuel s (w : W), (i_state s = SFailed /\ i_reader s = None) -> (1 <= fuel)%nat -> exists v s1, ip_finalize E fuel s w = Ret (v, s1, w) /\ True.
Proof.
  intros fuel s w [Hs Hr] Hf. destruct fuel; [lia|]. unfold ip_finalize. cbn [ip_finalize_loop]. unfold ip_process_once. cbn [i_state iset_chunk]. rewrite Hs. cbn. rewrite Hr. do 2 eexists; split; [reflexivity|exact I].
Qed.

Lemma ip_refused : forall fuel junk ps w chunks, concat chunks = patch -> (7 <= fuel)%nat ->
  exists s, ip_apply E fuel junk ps w chunks = Ret (code, s, w).
Proof.
  intros fuel junk ps w chunks Hc Hf. unfold ip_apply.
  assert (J : ip_feed E fuel (ip_init junk ps) w chunks = ip_feed E fuel (ip_init (iset_chunk junk []) ps) w chunks).
  { destruct chunks; [cbn in Hc; congruence|reflexivity]. }
  rewrite J.
  destruct (@feed_refused ip W) with (left_of := i_left) (set_piece := iset_chunk)
    (once := ip_process_once E) (loop := ip_process_loop E) (fin := ip_finalize E) (feeding := ip_feed E)
    (code := code) (rem := fun f s => irem unknown f s /\ i_reader s = None) (meas := imeas) (failed := fun s => i_state s = SFailed /\ i_reader s = None) (over := fun _ : ip => True) (most := 7%nat)
    (cs := chunks) (fuel := fuel) (s := ip_init (iset_chunk junk []) ps) (w := w) as (s1 & A & _); auto.
  - intros fu res s w'. destruct fu; reflexivity.
  - intros fu s w' c cs. cbn [ip_feed]. unfold ip_process. cbv zeta. destruct (ip_process_loop E fu 0 _ w') as [[[? ?] ?]| |]; reflexivity.
  - apply ionce_refused.
  - apply ifin_refused.
  - intros c f s [H H1] Hl. split; [split; [apply irem_piece; auto|exact H1]|]. unfold imeas. cbn. lia.
  - intros s [H H1]. eapply irem_end; eauto.
  - intros f s _. apply imeas_most.
  - unfold irem. cbn. rewrite Hc. auto.
  - eauto.
Qed.

End Plain.

Section Lzma.
Hypothesis Hb : header_bad 1 5 (unknown_lzma L) code b rest.

Definition yfailed (y : xip D) : Prop := i_state (y_ip y) = SFailed /\ y_reader y = None.

Lemma yonce_refused : forall f y w, irem (unknown_lzma L) f (y_ip y) /\ y_reader y = None -> i_left (y_ip y) <> [] -> exists res y1, y_once L E y w = Ret (res, y1, w) /\
  ((res = code /\ yfailed y1) \/ (res = 0 /\ (irem (unknown_lzma L) f (y_ip y1) /\ y_reader y1 = None) /\ (imeas (y_ip y1) < imeas (y_ip y))%nat) \/
   (res = 1 /\ (irem (unknown_lzma L) f (y_ip y1) /\ y_reader y1 = None) /\ i_left (y_ip y1) = [])).
Proof.
  intros f [s rd] w [Hs Hr] Hl. cbn [y_ip y_reader] in *. assert (Hst : i_state s = SInit) by (destruct Hs; auto). unfold y_once. cbn [y_ip y_reader]. rewrite Hst. destruct Hcode as [Hc _].
  assert (K : exists res s1, y_init L E (mkxip s rd) w = Ret (res, mkxip s1 rd, w) /\ step_refused (unknown_lzma L) f s res s1).
  { unfold y_init. cbn [y_ip y_reader]. destruct (i_init s) eqn:Hi;
      try (destruct (init_refused (unknown_lzma L) f s w Hb Hs) as (res & s1 & A & B); [congruence|auto|]; rewrite A; cbn [obind]; eauto). destruct Hs as [_ Hs]. rewrite Hi in Hs.
    destruct Hs as (Hcm & Hz & Hf). unfold y_init_to_size, step_refused. cbn [y_ip y_reader]. cbv zeta. cbn [sizes_left] in Hf.
    destruct (refused_piece _ _ _ _ _ _ Hz Hf) as [(z1 & A & B & C)|[(z1 & l1 & A & B)|(v & z1 & l1 & A & B)]]; rewrite A; cbn [obind].
    + change (negb (1 =? 0)) with true. cbv iota. do 2 eexists. split; [reflexivity|]. right; right. unfold irem. cbn [i_state i_init i_compression i_size i_left i_reader iset_header sizes_left]. rewrite Hi, Hst. auto 10.
    + rewrite B. do 2 eexists. split; [reflexivity|]. left. cbn. auto.
    + cbn [refused_sizes] in B. change (negb (0 =? 0)) with false. cbv iota. cbn [i_compression iset_header]. rewrite Hcm. rewrite (init_unknown L code) by exact B.
      do 2 eexists. split; [reflexivity|]. left. cbn. auto. }
  destruct K as (res & s1 & A & B). rewrite A. cbn [obind]. do 2 eexists. split; [reflexivity|]. unfold step_refused in B. unfold yfailed.
  destruct B as [(-> & B)|[(-> & B1 & B2 & B3)|(-> & B1 & B2 & B3)]].
  - left. destruct (Z.ltb_spec code 0); [|lia]. cbn. auto.
  - right; left. auto.
  - right; right. auto.
Qed.

Lemma yfin_refused : forall fuel y (w : W), yfailed y -> (1 <= fuel)%nat -> exists v y1, y_finalize L E fuel y w = Ret (v, y1, w) /\ y_reader y1 = None.
Proof.
  intros fuel [s rd] w [Hs Hr] Hf. destruct fuel; [lia|]. cbn [y_ip y_reader] in *. unfold y_finalize. cbn [y_finalize_loop]. unfold y_once. cbn [i_state iset_chunk y_ip y_reader]. rewrite Hs. cbn. rewrite Hr. do 2 eexists; split; reflexivity.
Qed.

Lemma ip_lzma_refused : forall fuel junk ps w chunks, concat chunks = patch -> (7 <= fuel)%nat ->
  exists y, y_apply L E fuel junk ps w chunks = Ret (code, y, w) /\ y_reader y = None.
Proof.
  intros fuel junk ps w chunks Hc Hf. unfold y_apply.
  assert (J : y_feed L E fuel (xip_init junk ps) w chunks = y_feed L E fuel (xip_init (iset_chunk junk []) ps) w chunks).
  { destruct chunks; [cbn in Hc; congruence|reflexivity]. }
  rewrite J.
  apply (@feed_refused (xip D) W) with (left_of := fun y : xip D => i_left (y_ip y)) (set_piece := fun (y : xip D) c => mkxip (iset_chunk (y_ip y) c) (y_reader y))
    (once := y_once L E) (loop := y_process_loop L E) (fin := y_finalize L E) (feeding := y_feed L E)
    (code := code) (rem := fun f (y : xip D) => irem (unknown_lzma L) f (y_ip y) /\ y_reader y = None) (meas := fun y : xip D => imeas (y_ip y)) (failed := yfailed) (over := fun y : xip D => y_reader y = None) (most := 7%nat); auto.
  - intros fu res s w'. destruct fu; reflexivity.
  - intros fu s w' c cs. cbn [y_feed]. unfold y_process. cbv zeta. destruct (y_process_loop L E fu 0 _ w') as [[[? ?] ?]| |]; reflexivity.
  - apply yonce_refused.
  - apply yfin_refused.
  - intros c f s [H H1] Hl. split; [split; [apply irem_piece; auto|exact H1]|]. unfold imeas. cbn. lia.
  - intros s [H H1]. eapply irem_end; eauto.
  - intros f s _. apply imeas_most.
  - unfold irem. cbn. rewrite Hc. auto.
Qed.

End Lzma.
End InPlace.
