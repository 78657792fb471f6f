(** Concrete in-place updates. *)

From Coq Require Import ZArith List Bool Lia ZifyBool ZifyNat ZifyN.
From Verif Require Import Prelude Lib Heatshrink CReader CSeq CInPlace Spec Bsdiff BsdiffSpec PyCreate CreateExamples
  CallbackSpec IpCallbackSpec InPlaceSpec PyInPlace InPlaceCreate InPlaceThms.
Import ListNotations.
Open Scope Z_scope.

(** A suffix array by insertion sort. *)
Fixpoint insert_suffix (l : list Z) (p : Z) (ps : list Z) : list Z :=
  match ps with
  | [] => [p]
  | q :: rest => if lex_le (zdrop p l) (zdrop q l) then p :: ps else q :: insert_suffix l p rest
  end.

Definition sort_suffixes (l : list Z) : list Z := fold_right (insert_suffix l) [] (addresses 0 (zlen l + 1)).

Lemma insert_zlen : forall l p ps, zlen (insert_suffix l p ps) = 1 + zlen ps.
Proof. induction ps as [|q ps IH]; cbn [insert_suffix]; [reflexivity|]. destruct (lex_le _ _); rewrite !zlen_cons in *; lia. Qed.

Lemma insert_all : forall (P : Z -> Prop) l p ps, P p -> Forall P ps -> Forall P (insert_suffix l p ps).
Proof. intros P l p ps Hp. induction 1 as [|q ps Hq Hps IH]; cbn [insert_suffix]; [auto|]. destruct (lex_le _ _); auto. Qed.

Lemma sort_suffixes_ok : forall l, array_ok (sort_suffixes l) l.
Proof.
  intros l. pose proof (zlen_nonneg l). unfold sort_suffixes. split.
  - assert (G : forall ps, zlen (fold_right (insert_suffix l) [] ps) = zlen ps).
    { induction ps as [|p ps IH]; cbn [fold_right]; [reflexivity|]. rewrite insert_zlen, zlen_cons. lia. }
    rewrite G. unfold addresses, zlen. rewrite map_length, seq_length. unfold zlen. lia.
  - assert (G : forall ps, Forall (fun p => 0 <= p <= zlen l) ps -> Forall (fun p => 0 <= p <= zlen l) (fold_right (insert_suffix l) [] ps)).
    { induction 1; cbn [fold_right]; [constructor|]. apply insert_all; auto. }
    apply G. unfold addresses. apply Forall_forall. intros p Hp. apply in_map_iff in Hp. destruct Hp as (i & <- & Hi). apply in_seq in Hi. lia.
Qed.

Definition junk_ip : ip :=
  mkip 7 SDone IShift 9 8 7 6 5 4 3 2 1 (mksegst 9 9 9 9 9) None (mksz true 9 9 true) 4 [1; 2] (mksz true 8 8 true).

(** 40 bytes, and the same with a new beginning and end; 80 bytes of memory in
    segments of 16 bytes, the rest of the memory holding something, and more
    memory after it. *)
Definition ip_from : list Z := map (fun x => (x * x * 7 + x * 3 + 1) mod 251) (addresses 0 40).
Definition ip_to : list Z := [9; 8; 7] ++ zdrop 5 ip_from ++ [1; 2; 3; 4; 5].
Definition ip_mem : list (option Z) := map Some ip_from ++ zrepeat (Some 77) 13 ++ zrepeat None 14 ++ zrepeat (Some 1) 20.
Definition ip_patch : list Z :=
  [18; 144; 1; 16; 32; 40; 43; 0; 8; 0; 0; 3; 9; 8; 7; 5; 13; 1; 14; 0;
   0; 6; 77; 0; 0; 0; 18; 16; 1; 17; 0; 0; 16; 80; 0; 0; 11; 163; 147;
   145; 157; 183; 223; 1; 2; 3; 4; 5; 7].

Lemma ex_ip_to : bytes_ok ip_to.
Proof. repeat constructor; vm_compute; congruence. Qed.

Lemma ex_ip_shift : calc_shift 80 16 (minimum_of 16 None) (zlen ip_from) = 32.
Proof. reflexivity. Qed.

Lemma ex_ip_body : forall body, create_in_place_segments sort_suffixes 16 32 (kept 80 32 ip_from) ip_to (Z.to_nat (py_div_ceil (zlen ip_to) 16)) 0 = Ret (Some body) ->
  zlen body < 2 ^ 28.
Proof. intros body E. vm_compute in E. injection E as <-. vm_compute. reflexivity. Qed.

Lemma ex_ip_created : create_in_place CompCrle literals sort_suffixes 80 16 None ip_from ip_to = Ret (Some ip_patch).
Proof. vm_compute. reflexivity. Qed.

Lemma ex_ip_update : sizes_ok 80 16 32 (zlen ip_from) (zlen ip_to) /\ in_place_update CompCrle 80 16 32 ip_from ip_to ip_patch /\ bytes_ok ip_patch.
Proof.
  destruct (create_in_place_spec CompCrle literals sort_suffixes 80 16 None ip_from ip_to sort_suffixes_ok ex_ip_to) as (patch & shift & A & B & C & D & E).
  - lia.
  - exists 5. reflexivity.
  - exists 2. reflexivity.
  - cbn. lia.
  - vm_compute. reflexivity.
  - vm_compute. reflexivity.
  - vm_compute. congruence.
  - intros _. exact ex_ip_body.
  - discriminate.
  - rewrite ex_ip_created in A. injection A as <-. change (zlen ip_from) with 40 in *. rewrite C in *. auto.
Qed.

Lemma ex_ip_holds : holds ip_mem ip_from /\ 80 <= zlen ip_mem.
Proof. split; [vm_compute; reflexivity|vm_compute; congruence]. Qed.

Definition ip_division := division CompCrle 80 16 32 (zlen ip_from) (zlen ip_to) ip_patch.

(** Byte by byte. *)
Lemma ex_ip_pieces : ip_division (map (fun b => [b]) ip_patch).
Proof. split; [vm_compute; reflexivity|]. discriminate. Qed.

Lemma ex_ip_run : exists s d, @ip_apply (32 : WordBits) _ flash_env 200 junk_ip (zlen ip_patch) (new_device ip_mem) (map (fun b => [b]) ip_patch) = Ret (zlen ip_to, s, d) /\
  holds (d_mem d) ip_to /\ In (ERead 37 13) (d_log d).
Proof. do 2 eexists. split; [vm_compute; reflexivity|]. split; [vm_compute; reflexivity|]. vm_compute. auto 20. Qed.

(** Interrupted while erasing segment 1, and again while reading the from data of
    to segment 0. *)
Lemma ex_ip_interrupted : exists d, @interrupted (32 : WordBits) (zlen ip_patch) ip_division (new_device ip_mem) d /\ d_step d = 3 /\ znth (d_mem d) 0 = Some (Some 9).
Proof.
  eexists. split.
  - eapply (@interrupted_once_more (32 : WordBits) _ _ _ (Some 4%nat) (fun _ => Some 66) false 200 junk_ip _ _ _ _ _ ex_ip_pieces).
    + vm_compute. reflexivity.
    + lia.
    + vm_compute. intuition discriminate.
    + eapply (@interrupted_once_more (32 : WordBits) _ _ _ (Some 10%nat) (fun _ => None) false 200 junk_ip _ _ _ _ _ ex_ip_pieces).
      * vm_compute. reflexivity.
      * lia.
      * vm_compute. intuition discriminate.
      * apply (@interrupted_never (32 : WordBits)).
  - vm_compute. auto.
Qed.

(** Power lost while the completion of the update is recorded: the update is
    applied a second time. *)
Lemma ip_restart_refuted : exists (wb : WordBits) memory segment shift c from to patch mem power torn fuel junk s d1 s2 d2,
  sizes_ok memory segment shift (zlen from) (zlen to) /\ in_place_update c memory segment shift from to patch /\
  memory <= zlen mem /\ holds mem from /\
  ip_apply flash_env fuel junk (zlen patch) (power_up (new_device mem) power torn true) [patch] = Ret (- E_STEP_SET_FAILED, s, d1) /\
  holds (d_mem d1) to /\
  ip_apply flash_env fuel junk (zlen patch) (power_up d1 None torn true) [patch] = Ret (zlen to, s2, d2) /\
  ~ holds (d_mem d2) to.
Proof.
  exists (32 : WordBits), 80, 16, 32, CompCrle, ip_from, ip_to, ip_patch, ip_mem, (Some 23%nat), (fun _ => None), 200%nat, junk_ip.
  do 4 eexists. destruct ex_ip_update as (A & B & _). destruct ex_ip_holds as (C & D).
  split; [exact A|]. split; [exact B|]. split; [exact D|]. split; [exact C|]. split; [vm_compute; reflexivity|]. split; [vm_compute; reflexivity|].
  split; [vm_compute; reflexivity|]. vm_compute. discriminate.
Qed.

(** A minimum shift size of zero, the from data filling the memory. *)
Definition zs_from : list Z := map (fun x => (x * x * 7 + x * 3 + 1) mod 251) (addresses 0 32).
Definition zs_to : list Z := zdrop 16 zs_from.

Lemma ip_zero_shift_refuted : exists (wb : WordBits) sa memory segment from to patch mem fuel junk s d,
  (forall l, array_ok (sa l) l) /\ bytes_ok to /\ (segment | memory) /\ zlen from = memory /\
  create_in_place CompNone (fun _ => []) sa memory segment (Some 0) from to = Ret (Some patch) /\
  zlen mem = memory /\ holds mem from /\
  ip_apply flash_env fuel junk (zlen patch) (new_device mem) [patch] = Ret (zlen to, s, d) /\
  ~ holds (d_mem d) to.
Proof.
  exists (32 : WordBits), sort_suffixes, 32, 16, zs_from, zs_to. eexists. exists (map Some zs_from), 200%nat, junk_ip. do 2 eexists.
  split; [exact sort_suffixes_ok|]. split; [repeat constructor; vm_compute; congruence|]. split; [exists 2; reflexivity|]. split; [reflexivity|].
  split; [vm_compute; reflexivity|]. split; [reflexivity|]. split; [vm_compute; reflexivity|]. split; [vm_compute; reflexivity|]. vm_compute. discriminate.
Qed.

Lemma flash_codes : codes_ok flash_env.
Proof.
  split; [|split]; cbn [flash_env mem_read mem_write mem_erase]; intros.
  - unfold flash_read. destruct (d_off w); [cbn; lia|]. destruct (negb _); [cbn; lia|]. destruct (power_lost_now w); cbn; lia.
  - unfold flash_write. destruct (d_off w); [cbn; lia|]. destruct (negb _); [cbn; lia|]. destruct (power_lost_now w); cbn; lia.
  - unfold flash_erase. destruct (d_off w); [cbn; lia|]. destruct (negb _); [cbn; lia|]. destruct (power_lost_now w); cbn; lia.
Qed.

Lemma ex_ip_log : exists s d, @apply_patch_in_place_callbacks (32 : WordBits) _ (ip_env_with flash_env (list Z)) 200 junk_ip
    (recorded (fun d n => (0, ztake n ip_patch, d))) (zlen ip_patch) (new_device ip_mem, []) = Ret (zlen ip_to, s, (d, [zlen ip_patch])).
Proof. do 2 eexists. vm_compute. reflexivity. Qed.

Lemma ex_ip_steps : total_steps 80 16 32 (zlen ip_from) (zlen ip_to) = 6 /\ step_area 80 16 32 (zlen ip_from) (zlen ip_to) 2 = (48, 16) /\
  step_area 80 16 32 (zlen ip_from) (zlen ip_to) 6 = (32, 11).
Proof. vm_compute. auto. Qed.

Lemma ex_ip_whole : exists s d, @ip_apply (32 : WordBits) _ flash_env 200 junk_ip (zlen ip_patch) (new_device ip_mem) [ip_patch] = Ret (43, s, d).
Proof. do 2 eexists. vm_compute. reflexivity. Qed.
