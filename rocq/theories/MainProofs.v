(** Proofs about the command line program of the C library. *)

From Coq Require Import String.
From Coq Require Import ZArith List Bool Lia ZifyBool ZifyNat ZifyN.
From Verif Require Import Prelude Lib Heatshrink CReader CSeq CInPlace CFile CFileSpec Spec SeqSpec CodesSpec CodesSeq CodesIp CodesThms Bsdiff BsdiffSpec PyCreate PyInPlace InPlaceSpec
  FileThms CallbackSpec CreateExamples InPlaceExamples FileExamples CMain MainSpec.
Import ListNotations.
Open Scope Z_scope.

Section Results.
Context {WBits : WordBits}.
Hypothesis Hword : 32 <= word_bits.
Context {W : Type} (F : stdio W).

Lemma file_size_documented : forall w f r n w1, file_size F w f = (r, n, w1) -> documented r.
Proof.
  intros w f r n w1 H. unfold file_size in H. unfold documented. destruct (fseek F w f 0 SeekEnd) as [r1 w2]. destruct (negb _); [injection H as <- _ _; cbn; lia|].
  destruct (ftell F w2 f) as [size w3]. destruct (_ <=? _); [injection H as <- _ _; cbn; lia|]. destruct (fseek F w3 f 0 SeekSet) as [r3 w4]. destruct (negb _); injection H as <- _ _; cbn; lia.
Qed.

Lemma filenames_documented : forall fuel junk w from patch to r w1, apply_patch_filenames F fuel junk w from patch to = Ret (r, w1) -> documented r.
Proof.
  intros fuel junk w from patch to r w1 H. unfold apply_patch_filenames in H. destruct (file_io_init F w from patch to) as [[res|[io size]] w2] eqn:E.
  - injection H as <- _. unfold file_io_init in E.
    destruct (fopen F w from ReadBinary) as [[ff|] u1]; [|injection E as <- _; right; cbn; lia].
    destruct (fopen F u1 to WriteBinary) as [[ft|] u2]; [|destruct (fclose F u2 ff); injection E as <- _; right; cbn; lia].
    destruct (fopen F u2 patch ReadBinary) as [[fp|] u3]; [|destruct (fclose F u3 ft) as [? u4]; destruct (fclose F u4 ff); injection E as <- _; right; cbn; lia].
    destruct (file_size F u3 fp) as [[r1 size] u4] eqn:S. apply file_size_documented in S.
    destruct (negb _); [|discriminate]. destruct (fclose F u4 fp) as [? u5]. destruct (fclose F u5 ft) as [? u6]. destruct (fclose F u6 ff). injection E as <- _. exact S.
  - apply obind_ret in H. destruct H as ([[v s] w3] & A & H). apply seq_callbacks_results in A; [|exact Hword].
    destruct (file_io_cleanup F w3 io) as [closed w4] eqn:C. destruct (negb _); injection H as <- _; [exact A|].
    unfold file_io_cleanup in C. destruct (fclose F w3 _) as [r1 u1]. destruct (fclose F u1 _) as [r2 u2]. destruct (fclose F u2 _) as [r3 u3]. injection C as <- _.
    destruct (Z.eqb_spec r1 0); cbn [negb orb]; [|right; cbn; lia]. destruct (_ || _); [right; cbn; lia|left; lia].
Qed.

Lemma in_place_file_codes : forall io sset sget, mem_codes (fun r => -27 <= r <= 0 /\ r <> -11) (in_place_file_io_env F io sset sget).
Proof.
  intros io sset sget. split; [|split]; intros; cbn.
  - unfold in_place_file_io_mem_read. destruct (_ <? _); [|cbn; lia]. destruct (fseek F w _ _ _) as [r w1]. destruct (negb _); [cbn; lia|]. destruct (fread F w1 _ _) as [[k data] w2]. destruct (_ =? _); cbn; lia.
  - unfold in_place_file_io_mem_write. destruct (_ <? _); [|cbn; lia]. destruct (fseek F w _ _ _) as [r w1]. destruct (negb _); [cbn; lia|]. destruct (fwrite F w1 _ _) as [k w2]. destruct (_ =? _); cbn; lia.
  - lia.
Qed.

Lemma in_place_filenames_documented : forall fuel junk w memory patch sset sget r w1, apply_patch_in_place_filenames F fuel junk w memory patch sset sget = Ret (r, w1) -> documented r.
Proof.
  intros fuel junk w memory patch sset sget r w1 H. unfold apply_patch_in_place_filenames in H. destruct (in_place_file_io_init F w memory patch) as [[res|[io size]] w2] eqn:E.
  - injection H as <- _. unfold in_place_file_io_init in E.
    destruct (fopen F w memory UpdateBinary) as [[fm|] u1]; [|injection E as <- _; right; cbn; lia].
    destruct (fopen F u1 patch ReadBinary) as [[fp|] u2]; [|destruct (fclose F u2 fm); injection E as <- _; right; cbn; lia].
    destruct (file_size F u2 fp) as [[r1 size] u3] eqn:S. apply file_size_documented in S.
    destruct (negb _); [|discriminate]. destruct (fclose F u3 fp) as [? u4]. destruct (fclose F u4 fm). injection E as <- _. exact S.
  - apply obind_ret in H. destruct H as ([[v s] w3] & A & H). apply ip_callbacks_results in A; [|exact Hword|apply in_place_file_codes].
    destruct (in_place_file_io_cleanup F w3 io) as [closed w4] eqn:C. destruct (negb _); injection H as <- _; [exact A|].
    unfold in_place_file_io_cleanup in C. destruct (fclose F w3 _) as [r1 u1]. destruct (fclose F u1 _) as [r2 u2]. injection C as <- _.
    destruct (Z.eqb_spec r1 0); cbn [negb orb]; [|right; cbn; lia]. destruct (negb _); [right; cbn; lia|left; lia].
Qed.

Lemma end_documented : forall r, documented r ->
  (0 <= r /\ main_end r = Ret (0, [])) \/
  (r < 0 /\ 1 <= - r <= 27 /\ exists text, main_end r = Ret (- r, [ErrorText text (- r)]) /\ error_as_string r = Ret text /\ text <> "Unknown error."%string).
Proof.
  intros r H. unfold main_end. destruct (Z.ltb_spec 0 r); [left; split; [lia|reflexivity]|]. destruct (Z.ltb_spec r 0).
  - right. destruct H as [H|H]; [lia|]. split; [lia|]. split; [lia|].
    assert (in_int (- r) = true) as -> by (unfold in_int, INT_MIN, INT_MAX; lia).
    assert (K : exists text, error_as_string (- r) = Ret text /\ error_as_string r = Ret text /\ text <> "Unknown error."%string).
    { assert (A : (Z.to_nat (- r) <= 27)%nat) by lia. assert (B : r = - Z.of_nat (Z.to_nat (- r))) by lia. assert (C : (1 <= Z.to_nat (- r))%nat) by lia. revert B. generalize (Z.to_nat (- r)) A C. clear.
      intros n A C ->. do 28 (destruct n as [|n]; [first [exfalso; lia | eexists; split; [reflexivity|]; split; [reflexivity|discriminate]]|]). lia. }
    destruct K as (text & K1 & K2 & K3). rewrite K1. cbn [obind]. rewrite Z.mod_small by lia. eauto.
  - left. split; [lia|]. destruct H as [H|H]; [|lia]. reflexivity.
Qed.

End Results.

(** A command: the exit status is zero if the library function succeeded, and otherwise
    the error code, whose description is printed. *)
Theorem main_command : forall (wb : WordBits), 32 <= word_bits ->
  forall (W : Type) (F : stdio W) fuel jap jip file argv w c r w1, command_of argv c ->
  library_call F fuel jap jip file w c = Ret (r, w1) ->
  (0 <= r /\ cmain F fuel jap jip file argv w = Ret (0, [], w1)) \/
  (r < 0 /\ 1 <= - r <= 27 /\ exists text, cmain F fuel jap jip file argv w = Ret (- r, [ErrorText text (- r)], w1) /\
     error_as_string r = Ret text /\ text <> "Unknown error."%string).
Proof.
  intros wb Hw W F fuel jap jip file argv w c r w1 Hc H. destruct c as [from patch to|memory patch]; cbn [command_of library_call] in *; subst argv; cbn [cmain].
  - assert (D := filenames_documented Hw F _ _ _ _ _ _ _ _ H). cbn [String.eqb]. change (String.eqb "apply_patch" "apply_patch") with true. cbv iota. rewrite H. cbn [obind].
    destruct (end_documented _ D) as [[A B]|(A & B & text & C & E & G)]; [left|right].
    + rewrite B. split; [lia|reflexivity].
    + rewrite C. cbn [obind]. split; [lia|]. split; [lia|]. exists text. auto.
  - assert (D := in_place_filenames_documented Hw F _ _ _ _ _ _ _ _ _ H). change (String.eqb "apply_patch" "apply_patch_in_place") with false. change (String.eqb "apply_patch_in_place" "apply_patch_in_place") with true. cbv iota. rewrite H. cbn [obind].
    destruct (end_documented _ D) as [[A B]|(A & B & text & C & E & G)]; [left|right].
    + rewrite B. split; [lia|reflexivity].
    + rewrite C. cbn [obind]. split; [lia|]. split; [lia|]. exists text. auto.
Qed.

(** The program hangs or is undefined only if the library function is. *)
Theorem main_otherwise : forall (wb : WordBits) (W : Type) (F : stdio W) fuel jap jip file argv w,
  (forall c, ~ command_of argv c) ->
  exists usage, is_usage usage /\ cmain F fuel jap jip file argv w = Ret (1, [usage], w).
Proof.
  intros wb W F fuel jap jip file argv w H. unfold cmain. destruct argv as [|cmd args]; [exists UsageCommands; split; [exact I|reflexivity]|].
  destruct (String.eqb_spec "apply_patch" cmd) as [<-|].
  - destruct args as [|a [|b [|c [|d args]]]]; try (exists UsageApplyPatch; split; [exact I|reflexivity]). exfalso. apply (H (ApplyPatch a b c)). reflexivity.
  - destruct (String.eqb_spec "apply_patch_in_place" cmd) as [<-|].
    + destruct args as [|a [|b [|c args]]]; try (exists UsageApplyPatchInPlace; split; [exact I|reflexivity]). exfalso. apply (H (ApplyPatchInPlace a b)). reflexivity.
    + exists UsageCommands. split; [exact I|reflexivity].
Qed.

(** The commands on a disk, for patches that were created for the files. *)
Theorem main_updates : forall (wb : WordBits), 32 <= word_bits ->
  forall jap jip c hs sa from to, array_ok sa from -> bytes_ok to -> zlen from < 2 ^ 27 -> zlen to < 2 ^ 27 ->
  (c = CompCrle -> forall chunks, create_patch sa from to = Ret (Some chunks) -> 1 + zlen (concat chunks) < 2 ^ 28) ->
  (c = CompHeatshrink -> forall pieces, bytes_ok (concat pieces) -> compressed CompHeatshrink (concat pieces) (hs pieces)) ->
  exists patch, create_sequential c hs sa from to = Ret (Some patch) /\
    (zlen patch + 128 < 2 ^ word_bits ->
     forall file number fromfile patchfile tofile, file (number fromfile) = Some from -> file (number patchfile) = Some patch ->
     number tofile <> number fromfile -> number tofile <> number patchfile ->
     exists n, forall fuel, (n <= fuel)%nat ->
       exists d, cmain fs_stdio fuel jap jip number ["apply_patch"; fromfile; patchfile; tofile]%string (disk file) = Ret (0, [], d) /\
         fs_file d (number tofile) = Some to /\ (forall name, name <> number tofile -> fs_file d name = file name)).
Proof.
  intros wb Hw jap jip c hs sa from to H1 H2 H3 H4 H5 H6. destruct (files_round_trip wb Hw jap c hs sa from to H1 H2 H3 H4 H5 H6) as (patch & A & B). exists patch. split; [exact A|].
  intros Hp file number ff pf tf F1 F2 N1 N2. destruct (B Hp file _ _ _ F1 F2 N1 N2) as (n & Hn). exists n. intros fuel Hf. destruct (Hn fuel Hf) as (d & C1 & C2 & C3 & C4).
  exists d. split; [|auto]. destruct (main_command wb Hw _ fs_stdio fuel jap jip number ["apply_patch"; ff; pf; tf]%string (disk file) (ApplyPatch ff pf tf) (zlen to) d eq_refl C1) as [[_ K]|(K & _)]; [exact K|].
  pose proof (zlen_nonneg to). lia.
Qed.

Theorem main_updates_in_place : forall (wb : WordBits), 32 <= word_bits ->
  forall c hs sa memory segment minimum_shift from to,
  (forall l, array_ok (sa l) l) -> bytes_ok to ->
  0 < segment -> (segment | memory) -> (segment | minimum_of segment minimum_shift) ->
  segment <= minimum_of segment minimum_shift <= memory ->
  memory < 2 ^ 27 -> zlen from < 2 ^ 27 -> zlen to <= memory ->
  let shift := calc_shift memory segment (minimum_of segment minimum_shift) (zlen from) in
  (c = CompCrle -> forall body,
     create_in_place_segments sa segment shift (kept memory shift from) to (Z.to_nat (py_div_ceil (zlen to) segment)) 0 = Ret (Some body) ->
     zlen body < 2 ^ 28) ->
  (c = CompHeatshrink -> forall pieces, bytes_ok (concat pieces) -> compressed CompHeatshrink (concat pieces) (hs pieces)) ->
  exists patch, create_in_place c hs sa memory segment minimum_shift from to = Ret (Some patch) /\
    (zlen patch + 128 < 2 ^ word_bits ->
     forall jap jip file number memfile patchfile bytes, file (number memfile) = Some bytes -> file (number patchfile) = Some patch -> number memfile <> number patchfile ->
     memory <= zlen bytes <= INT_MAX -> ztake (zlen from) bytes = from ->
     exists n, forall fuel, (n <= fuel)%nat ->
       exists d out, cmain fs_stdio fuel jap jip number ["apply_patch_in_place"; memfile; patchfile]%string (disk file) = Ret (0, [], d) /\
         fs_file d (number memfile) = Some out /\ zlen out = zlen bytes /\ ztake (zlen to) out = to /\ zdrop memory out = zdrop memory bytes /\
         (forall name, name <> number memfile -> fs_file d name = file name)).
Proof.
  intros wb Hw c hs sa memory segment ms from to H1 H2 H3 H4 H5 H6 H7 H8 H9 shift H10 H11.
  destruct (in_place_files wb Hw c hs sa memory segment ms from to H1 H2 H3 H4 H5 H6 H7 H8 H9 H10 H11) as (patch & A & B). exists patch. split; [exact A|].
  intros Hp jap jip file number mf pf bytes F1 F2 N1 N2 N3. destruct (B Hp jip file _ _ bytes F1 F2 N1 N2 N3) as (n & Hn). exists n. intros fuel Hf.
  destruct (Hn fuel Hf) as (d & out & C1 & C2 & C3 & C4 & C5 & C6 & C7). exists d, out. split; [|auto 10].
  destruct (main_command wb Hw _ fs_stdio fuel jap jip number ["apply_patch_in_place"; mf; pf]%string (disk file) (ApplyPatchInPlace mf pf) (zlen to) d eq_refl C1) as [[_ K]|(K & _)]; [exact K|].
  pose proof (zlen_nonneg to). lia.
Qed.

(** Example: "old", "patch", "new" and "other" are the files of FileExamples.v. *)
Definition ex_number (name : string) : Z :=
  if String.eqb name "old" then 1 else if String.eqb name "patch" then 2 else if String.eqb name "new" then 3 else if String.eqb name "other" then 4 else 9.

Lemma ex_main_run :
  (exists d, @cmain (32 : WordBits) _ fs_stdio 100 junk_ap junk_ip ex_number ["apply_patch"; "old"; "patch"; "new"]%string (disk ex_files) = Ret (0, [], d) /\ fs_file d 3 = Some ex_to) /\
  (exists d, @cmain (32 : WordBits) _ fs_stdio 100 junk_ap junk_ip ex_number ["apply_patch"; "old"; "other"; "new"]%string (disk ex_files) = Ret (19, [ErrorText "Not enough patch data." 19], d)).
Proof. split; eexists; [split|]; vm_compute; reflexivity. Qed.

Lemma ex_main_in_place : exists d out,
  @cmain (32 : WordBits) _ fs_stdio 200 junk_ap junk_ip ex_number ["apply_patch_in_place"; "old"; "patch"]%string (disk ip_files) = Ret (0, [], d) /\
  fs_file d 1 = Some out /\ ztake 43 out = ip_to.
Proof. do 2 eexists. split; [vm_compute; reflexivity|]. split; [vm_compute; reflexivity|]. vm_compute. reflexivity. Qed.

Lemma ex_main_usage : forall c, ~ command_of ["apply_patch"; "old"; "patch"]%string c.
Proof. intros [f p t|m p]; cbn; discriminate. Qed.

(** All closes fail, and the program ends with success. *)
Lemma main_close_masked :
  (forall w f, fst (fclose fs_full w f) <> 0) /\
  exists d, @cmain (32 : WordBits) _ fs_full 100 junk_ap junk_ip ex_number ["apply_patch"; "old"; "patch"; "new"]%string (disk ex_files) = Ret (0, [], d).
Proof. split; [exact full_fails|]. eexists. vm_compute. reflexivity. Qed.
