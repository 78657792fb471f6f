(** Theorems about in-place patches.  Every proof is an application of a lemma of the
    other files.  The memory is flash: erased cells only can be written, and power can
    be lost at any operation (InPlaceSpec.v). *)

From Coq Require Import ZArith List Bool.
From Verif Require Import Prelude Heatshrink CReader CSeq CInPlace Spec Bsdiff BsdiffSpec PyCreate CallbackSpec IpCallbackSpec
  InPlaceSpec PyInPlace.
From Verif Require Import CreateExamples InPlaceFinal InPlaceThms InPlaceExamples.
Import ListNotations.
Open Scope Z_scope.

(** C19: for sizes accepted by the creator, a shift of at least one segment and a to
    file that fits in the memory, an in-place patch is created, and applying it to a
    memory that starts with the from data returns the size of the to data and leaves
    the to data at the start of the memory: fed in any pieces, and with the callback
    API.  [sa] is the suffix array algorithm, [hs] the external heatshrink
    compressor; for crle the body must be shorter than 2^28 bytes. *)
Theorem C19_round_trip : forall (wb : WordBits), 32 <= word_bits ->
  forall c hs sa memory segment minimum_shift from to,
  (forall l, array_ok (sa l) l) -> bytes_ok to ->
  0 < segment -> (segment | memory) -> (segment | minimum_of segment minimum_shift) ->
  segment <= minimum_of segment minimum_shift <= memory ->
  memory < 2 ^ 27 -> zlen from < 2 ^ 27 -> zlen to <= memory ->
  let shift := calc_shift memory segment (minimum_of segment minimum_shift) (zlen from) in
  (c = CompCrle -> forall body,
     create_in_place_segments sa segment shift (kept memory shift from) to (Z.to_nat (py_div_ceil (zlen to) segment)) 0 = Ret (Some body) ->
     zlen body < 2 ^ 28) ->
  (c = CompHeatshrink -> forall pieces, bytes_ok (concat pieces) -> compressed CompHeatshrink (concat pieces) (hs pieces)) ->
  exists patch, create_in_place c hs sa memory segment minimum_shift from to = Ret (Some patch) /\
    (zlen patch + 128 < 2 ^ word_bits ->
     forall mem junk, memory <= zlen mem -> holds mem from ->
     (forall pieces, division c memory segment shift (zlen from) (zlen to) patch pieces ->
      exists n, forall fuel, (n <= fuel)%nat ->
      exists s d, ip_apply flash_env fuel junk (zlen patch) (new_device mem) pieces = Ret (zlen to, s, d) /\ holds (d_mem d) to) /\
     (exists n, forall fuel, (n <= fuel)%nat ->
      exists s d pos, apply_patch_in_place_callbacks (ip_env_with flash_env Z) fuel junk (patch_file patch) (zlen patch) (new_device mem, 0)
        = Ret (zlen to, s, (d, pos)) /\ holds (d_mem d) to)).
Proof. exact in_place_round_trip. Qed.
Print Assumptions C19_round_trip.

Example C19_example :
  (forall l, array_ok (sort_suffixes l) l) /\ bytes_ok ip_to /\
  calc_shift 80 16 (minimum_of 16 None) (zlen ip_from) = 32 /\
  (forall body, create_in_place_segments sort_suffixes 16 32 (kept 80 32 ip_from) ip_to (Z.to_nat (py_div_ceil (zlen ip_to) 16)) 0 = Ret (Some body) ->
   zlen body < 2 ^ 28) /\
  create_in_place CompCrle literals sort_suffixes 80 16 None ip_from ip_to = Ret (Some ip_patch) /\
  holds ip_mem ip_from /\ 80 <= zlen ip_mem /\
  division CompCrle 80 16 32 (zlen ip_from) (zlen ip_to) ip_patch (map (fun b => [b]) ip_patch).
Proof. exact (conj sort_suffixes_ok (conj ex_ip_to (conj ex_ip_shift (conj ex_ip_body (conj ex_ip_created (conj (proj1 ex_ip_holds) (conj (proj2 ex_ip_holds) ex_ip_pieces))))))). Qed.

Example C19_run : exists s d, @ip_apply (32 : WordBits) _ flash_env 200 junk_ip (zlen ip_patch) (new_device ip_mem) (map (fun b => [b]) ip_patch) = Ret (zlen ip_to, s, d) /\
  holds (d_mem d) ip_to /\ In (ERead 37 13) (d_log d).
Proof. exact ex_ip_run. Qed.

(** C19, not only for created patches: every well-formed in-place patch is applied
    with its meaning. *)
Theorem C19_meaning : forall (wb : WordBits), 32 <= word_bits ->
  forall memory segment shift from to mem c patch,
  sizes_ok memory segment shift (zlen from) (zlen to) -> in_place_update c memory segment shift from to patch ->
  bytes_ok patch -> zlen patch + 128 < 2 ^ word_bits -> memory <= zlen mem -> holds mem from ->
  forall pieces junk, division c memory segment shift (zlen from) (zlen to) patch pieces ->
  exists n, forall fuel, (n <= fuel)%nat ->
  exists s d, ip_apply flash_env fuel junk (zlen patch) (new_device mem) pieces = Ret (zlen to, s, d) /\
    holds (d_mem d) to /\ d_step d = 0.
Proof. exact @in_place_applied. Qed.
Print Assumptions C19_meaning.

Example C19_meaning_example :
  sizes_ok 80 16 32 (zlen ip_from) (zlen ip_to) /\ in_place_update CompCrle 80 16 32 ip_from ip_to ip_patch /\ bytes_ok ip_patch.
Proof. exact ex_ip_update. Qed.

(** C20: after any number of interrupted attempts, each restarted from the beginning
    of the patch, an attempt that is not interrupted succeeds, and the memory is that
    of any uninterrupted run. *)
Theorem C20_resume : forall (wb : WordBits), 32 <= word_bits ->
  forall memory segment shift from to mem c patch,
  sizes_ok memory segment shift (zlen from) (zlen to) -> in_place_update c memory segment shift from to patch ->
  bytes_ok patch -> zlen patch + 128 < 2 ^ word_bits -> memory <= zlen mem -> holds mem from ->
  let ok := division c memory segment shift (zlen from) (zlen to) patch in
  forall d pieces junk torn torn_step,
  interrupted (zlen patch) ok (new_device mem) d -> ok pieces ->
  exists n, forall fuel, (n <= fuel)%nat ->
  exists s d1, ip_apply flash_env fuel junk (zlen patch) (power_up d None torn torn_step) pieces = Ret (zlen to, s, d1) /\
    holds (d_mem d1) to /\ d_step d1 = 0 /\
    forall fuel2 junk2 pieces2 r2 s2 d2, ok pieces2 ->
      ip_apply flash_env fuel2 junk2 (zlen patch) (new_device mem) pieces2 = Ret (r2, s2, d2) ->
      d_mem d1 = d_mem d2.
Proof. exact @in_place_resumed. Qed.
Print Assumptions C20_resume.

Example C20_example : exists d,
  @interrupted (32 : WordBits) (zlen ip_patch) (division CompCrle 80 16 32 (zlen ip_from) (zlen ip_to) ip_patch) (new_device ip_mem) d /\
  d_step d = 3 /\ znth (d_mem d) 0 = Some (Some 9).
Proof. exact ex_ip_interrupted. Qed.

(** C21 is false: power is lost while the completion of the update is recorded, the
    restarted attempt reports success and the memory does not hold the to data. *)
Theorem C21_refuted : exists (wb : WordBits) memory segment shift c from to patch mem power torn fuel junk s d1 s2 d2,
  sizes_ok memory segment shift (zlen from) (zlen to) /\ in_place_update c memory segment shift from to patch /\
  memory <= zlen mem /\ holds mem from /\
  ip_apply flash_env fuel junk (zlen patch) (power_up (new_device mem) power torn true) [patch] = Ret (- E_STEP_SET_FAILED, s, d1) /\
  holds (d_mem d1) to /\
  ip_apply flash_env fuel junk (zlen patch) (power_up d1 None torn true) [patch] = Ret (zlen to, s2, d2) /\
  ~ holds (d_mem d2) to.
Proof. exact ip_restart_refuted. Qed.
Print Assumptions C21_refuted.

(** C22: in every attempt, interrupted or not, after any interruptions, no operation
    is outside the memory of the patch, no cell is written that is not erased
    ([d_bad] is set by either), and the memory behind it is not touched. *)
Theorem C22_bounds : forall (wb : WordBits), 32 <= word_bits ->
  forall memory segment shift from to mem c patch,
  sizes_ok memory segment shift (zlen from) (zlen to) -> in_place_update c memory segment shift from to patch ->
  bytes_ok patch -> zlen patch + 128 < 2 ^ word_bits -> memory <= zlen mem -> holds mem from ->
  let ok := division c memory segment shift (zlen from) (zlen to) patch in
  forall d pieces junk power torn torn_step,
  interrupted (zlen patch) ok (new_device mem) d -> ok pieces ->
  exists n, forall fuel, (n <= fuel)%nat ->
  exists r s d1, ip_apply flash_env fuel junk (zlen patch) (power_up d power torn torn_step) pieces = Ret (r, s, d1) /\
    d_bad d1 = false /\ Forall (event_in_memory memory) (d_log d1) /\
    (forall k, memory <= k -> znth (d_mem d1) k = znth mem k).
Proof. exact @in_place_safe. Qed.
Print Assumptions C22_bounds.

Example C22_example :
  sizes_ok 80 16 32 (zlen ip_from) (zlen ip_to) /\ in_place_update CompCrle 80 16 32 ip_from ip_to ip_patch /\ bytes_ok ip_patch.
Proof. exact ex_ip_update. Qed.

(** C23 is false: a patch created with a minimum shift size of zero is applied with
    success, and the memory does not hold the to data. *)
Theorem C23_refuted : exists (wb : WordBits) sa memory segment from to patch mem fuel junk s d,
  (forall l, array_ok (sa l) l) /\ bytes_ok to /\ (segment | memory) /\ zlen from = memory /\
  create_in_place CompNone (fun _ => []) sa memory segment (Some 0) from to = Ret (Some patch) /\
  zlen mem = memory /\ holds mem from /\
  ip_apply flash_env fuel junk (zlen patch) (new_device mem) [patch] = Ret (zlen to, s, d) /\
  ~ holds (d_mem d) to.
Proof. exact ip_zero_shift_refuted. Qed.
Print Assumptions C23_refuted.

(** C24: in a run that is not interrupted, started on a new device or after
    interruptions, the operations are those of the steps that were not recorded yet,
    in order, each step followed by the recording of its number, except that after
    the last step 0 is recorded, and nothing comes after that. *)
Theorem C24_steps : forall (wb : WordBits), 32 <= word_bits ->
  forall memory segment shift from to mem c patch,
  sizes_ok memory segment shift (zlen from) (zlen to) -> in_place_update c memory segment shift from to patch ->
  bytes_ok patch -> zlen patch + 128 < 2 ^ word_bits -> memory <= zlen mem -> holds mem from ->
  let ok := division c memory segment shift (zlen from) (zlen to) patch in
  forall d pieces junk torn torn_step, to <> [] ->
  interrupted (zlen patch) ok (new_device mem) d -> ok pieces ->
  exists n, forall fuel, (n <= fuel)%nat ->
  exists s d1, ip_apply flash_env fuel junk (zlen patch) (power_up d None torn torn_step) pieces = Ret (zlen to, s, d1) /\
    let last := total_steps memory segment shift (zlen from) (zlen to) in
    exists before ops, d_log d1 = before ++ ops ++ [EStep 0] /\
      steps_log memory segment shift (zlen from) (zlen to) (d_step d) (last - 1) before /\
      Forall (event_of_step memory segment shift (zlen from) (zlen to) last) ops.
Proof. exact @in_place_steps. Qed.
Print Assumptions C24_steps.

Example C24_example : total_steps 80 16 32 (zlen ip_from) (zlen ip_to) = 6 /\ step_area 80 16 32 (zlen ip_from) (zlen ip_to) 2 = (48, 16) /\
  step_area 80 16 32 (zlen ip_from) (zlen ip_to) 6 = (32, 11).
Proof. exact ex_ip_steps. Qed.

(** C40 for the in-place callback API: the patch is requested in pieces of 1 to 512
    bytes that add up to at most patch_size, and to exactly patch_size unless the
    call fails, and the final state is that of a call of finalize(). *)
Theorem C40_in_place_requests : forall (wb : WordBits) W (E : ip_env W) patch_read fuel junk ps w v s1 w1 log, codes_ok E -> 0 <= ps ->
  apply_patch_in_place_callbacks (ip_env_with E (list Z)) fuel junk (recorded patch_read) ps (w, []) = Ret (v, s1, (w1, log)) ->
  Forall (fun n => 1 <= n <= 512) log /\ sum log <= ps /\ (0 <= v -> sum log = ps) /\
  exists f r s0 w0, ip_finalize E f s0 w0 = Ret (r, s1, w1).
Proof. exact @ip_callbacks_requests. Qed.
Print Assumptions C40_in_place_requests.

Example C40_in_place_example : codes_ok flash_env /\
  exists s d, @apply_patch_in_place_callbacks (32 : WordBits) _ (ip_env_with flash_env (list Z)) 200 junk_ip
    (recorded (fun d n => (0, ztake n ip_patch, d))) (zlen ip_patch) (new_device ip_mem, []) = Ret (zlen ip_to, s, (d, [zlen ip_patch])).
Proof. exact (conj flash_codes ex_ip_log). Qed.

(** C40: with a patch file, the result is that of feeding the pieces of the patch one
    after the other. *)
Theorem C40_in_place_in_order : forall (wb : WordBits) W (E : ip_env W) junk patch w,
  exists pieces, concat pieces = patch /\ Forall (fun p => zlen p <= 512) pieces /\
  forall n v s1 w1, ip_apply E n junk (zlen patch) w pieces = Ret (v, s1, w1) ->
  exists m pos, forall fuel, (m <= fuel)%nat ->
    apply_patch_in_place_callbacks (ip_env_with E Z) fuel junk (patch_file patch) (zlen patch) (w, 0) = Ret (v, s1, (w1, pos)).
Proof. exact @ip_callbacks_in_order. Qed.
Print Assumptions C40_in_place_in_order.

Example C40_in_place_in_order_example : exists s d, @ip_apply (32 : WordBits) _ flash_env 200 junk_ip (zlen ip_patch) (new_device ip_mem) [ip_patch] = Ret (43, s, d).
Proof. exact ex_ip_whole. Qed.
