(** The ranges and offsets found in ELF files. *)

From Coq Require Import ZArith List Bool Lia ZifyBool ZifyNat ZifyN Sorting.Sorted.
From Verif Require Import Prelude Lib PyApply PyElf ElfSpec ElfProofs.
Import ListNotations.
Open Scope Z_scope.

Lemma from_file_inv : forall elf code data, from_file elf = ret (code, data) ->
  exists d, dict_ok d /\ (forall i y, In y (get d i) <-> symbol_of elf i y) /\
    code = create_code_range (ranges_per_section true d) /\ data = create_data_range (ranges_per_section false d) code.
Proof.
  intros elf code data H. unfold from_file in H. destruct (collect_total elf (all_symbols elf) []) as [(d & C & _)|(C & _)]; rewrite C in H; cbn [pbind obind ret raise] in H; [|discriminate].
  injection H as <- <-. destruct (collect_get _ _ _ _ C) as (A & B); [split; constructor|]. exists d. split; [exact A|]. split; [|auto]. intros i y. rewrite B. cbn [get app]. apply goes_iff.
Qed.

Lemma from_file_total : forall elf,
  (exists code data, from_file elf = ret (code, data) /\ forall y, listed elf y -> exists i, home elf i (sy_value y)) \/
  (from_file elf = raise DetoolsError /\ exists y, listed elf y /\ forall s, In s elf -> ~ has_address s (sy_value y)).
Proof.
  intros elf. unfold from_file. destruct (collect_total elf (all_symbols elf) []) as [(d & C & G)|(C & y & B1 & B2 & B3)]; rewrite C; cbn [pbind obind ret raise].
  - left. do 2 eexists. split; [reflexivity|]. intros y L. apply listed_in in L. destruct L as (A & B). specialize (G y A B). destruct (find_section 0 elf (sy_value y)) as [i|] eqn:E; [|congruence]. exists i. apply home_find. exact E.
  - right. split; [reflexivity|]. exists y. split; [apply listed_in; auto|]. eapply find_section_none. exact B3.
Qed.

Lemma typed : forall elf i y func, elf_ok elf -> symbol_of elf i y -> of_type func y = true -> 0 < sy_size y /\ sy_type y = if func then Func else Object.
Proof.
  intros elf i y func Hok (L & _) T. pose proof (Hok y L) as P. destruct L as (s & l & _ & _ & _ & _ & A & B). split; [lia|]. unfold of_type in T. destruct (sy_type y), func; try discriminate; congruence.
Qed.

Lemma typed_back : forall y (func : bool), sy_type y = (if func then Func else Object) -> of_type func y = true.
Proof. intros y func E. unfold of_type. rewrite E. destruct func; reflexivity. Qed.

Lemma per_section_in : forall func d rs, In rs (ranges_per_section func d) <-> rs <> [] /\ exists i l, In (i, l) d /\ rs = ranges_of func (i, l).
Proof.
  intros func d rs. unfold ranges_per_section. rewrite filter_In, in_map_iff. split.
  - intros (([i l] & <- & A) & B). split; [intros E; rewrite E in B; discriminate|]. exists i, l. auto.
  - intros (N & i & l & A & ->). split; [exists (i, l); auto|]. destruct (ranges_of func (i, l)); [congruence|reflexivity].
Qed.

(** What is known of the ranges of a section. *)
Lemma section_code : forall elf d, elf_ok elf -> dict_ok d -> (forall i y, In y (get d i) <-> symbol_of elf i y) ->
  forall i l, In (i, l) d -> ranges_of true (i, l) <> [] ->
  let r := whole (ranges_of true (i, l)) in
  ar_section r = Some i /\ 0 < ar_size r /\
  exists first final, function_of elf i first /\ function_of elf i final /\ ar_begin r = sy_value first /\ ar_end r = symbol_end final /\
    forall y, function_of elf i y -> ar_begin r <= sy_value y < ar_end r.
Proof.
  intros elf d Hok Hd Hg i l Hi N r. destruct (get_in d i l Hd Hi) as (G & NE). destruct (ranges_runs true i l NE) as (runs & A & B & C).
  subst r. rewrite C in *. set (fr := filter _ runs) in *. assert (FN : fr <> []) by (intros E; rewrite E in N; apply N; reflexivity).
  assert (FB : Forall same_type fr) by (apply Forall_forall; intros x Hx; apply filter_In in Hx; rewrite Forall_forall in B; apply B; tauto).
  destruct (whole_runs i fr FN FB) as (W & WN). rewrite W. cbn [ar_section ar_begin ar_end].
  assert (E : concat fr = filter (of_type true) (by_value l)) by (unfold fr; rewrite filter_runs by exact B; rewrite A; reflexivity).
  assert (Hs : StronglySorted below (concat fr)) by (rewrite E; apply filter_sorted; apply by_value_sorted).
  assert (Hf : forall y, In y (concat fr) <-> function_of elf i y).
  { intros y. rewrite E, filter_In. unfold by_value. rewrite sort_in, <- G, Hg. unfold function_of. split; intros (P & Q); (split; [exact P|]).
    - destruct (typed elf i y true Hok P Q) as (_ & T). exact T.
    - apply (typed_back y true). exact Q. }
  set (first := hd dsym (concat fr)) in *. set (final := last (concat fr) dsym) in *.
  assert (F1 : function_of elf i first) by (apply Hf; apply hd_in; exact WN). assert (F2 : function_of elf i final) by (apply Hf; apply last_in; exact WN).
  assert (P2 : 0 < sy_size final) by (destruct F2 as (Q1 & Q2); destruct (typed elf i final true Hok Q1 (typed_back final true Q2)); auto).
  assert (LE : forall y, function_of elf i y -> sy_value first <= sy_value y < symbol_end final).
  { intros y Hy. apply Hf in Hy. pose proof (hd_least _ y Hs Hy). pose proof (last_greatest _ y Hs Hy). fold first in H. fold final in H0. unfold symbol_end. lia. }
  split; [reflexivity|]. split; [unfold ar_size; cbn [ar_begin ar_end]; specialize (LE first F1); lia|]. exists first, final. auto 10.
Qed.

Lemma section_data : forall elf d, elf_ok elf -> dict_ok d -> (forall i y, In y (get d i) <-> symbol_of elf i y) ->
  forall i l r, In (i, l) d -> In r (ranges_of false (i, l)) ->
  ar_section r = Some i /\ 0 < ar_size r /\
  exists first final, object_of elf i first /\ object_of elf i final /\ ar_begin r = sy_value first /\ ar_end r = symbol_end final /\
    forall y, symbol_of elf i y -> sy_value first < sy_value y < sy_value final -> sy_type y = Object.
Proof.
  intros elf d Hok Hd Hg i l r Hi Hr. destruct (get_in d i l Hd Hi) as (G & NE). destruct (ranges_runs false i l NE) as (runs & A & B & C).
  rewrite C in Hr. apply in_map_iff in Hr. destruct Hr as (run & <- & Hr). apply filter_In in Hr. destruct Hr as (Hr & Ht). pose proof B as B0. rewrite Forall_forall in B. destruct (B run Hr) as (N & F).
  apply in_split in Hr. destruct Hr as (r1 & r2 & ->). rewrite concat_app in A. cbn [concat] in A. set (pre := concat r1) in *. set (post := concat r2) in *.
  assert (Hin : forall y, In y (pre ++ run ++ post) <-> symbol_of elf i y) by (intros y; rewrite A; unfold by_value; rewrite sort_in, <- G; apply Hg).
  assert (Hs : StronglySorted below (pre ++ run ++ post)) by (rewrite A; apply by_value_sorted).
  assert (Hs2 : StronglySorted below run).
  { clear - Hs. induction pre as [|x pre IH]; cbn [app] in Hs; [|inversion Hs; auto]. induction run as [|y run IHr]; [constructor|]. cbn [app] in Hs. inversion Hs as [|? ? S1 S2]; subst. constructor; [auto|]. apply Forall_app in S2. tauto. }
  assert (Ho : forall y, In y run -> object_of elf i y /\ 0 < sy_size y).
  { intros y Hy. rewrite Forall_forall in F. assert (S : symbol_of elf i y) by (apply Hin; rewrite !in_app_iff; auto). assert (T : of_type false y = true) by (unfold of_type in *; rewrite (F y Hy); exact Ht).
    destruct (typed elf i y false Hok S T). split; [split|]; auto. }
  set (first := hd dsym run) in *. set (final := last run dsym) in *. assert (I1 : In first run) by (apply hd_in; exact N). assert (I2 : In final run) by (apply last_in; exact N).
  unfold run_range. fold first. fold final. unfold ar_size. cbn [ar_section ar_begin ar_end]. split; [reflexivity|]. split.
  - pose proof (hd_least run final Hs2 I2) as Q. fold first in Q. destruct (Ho final I2) as (_ & P). unfold symbol_end. lia.
  - exists first, final. split; [apply Ho; exact I1|]. split; [apply Ho; exact I2|]. split; [reflexivity|]. split; [reflexivity|]. intros y Hy Hb. apply Hin in Hy. rewrite !in_app_iff in Hy. destruct Hy as [Hy|[Hy|Hy]].
    + assert (sy_value y <= sy_value first) by (eapply sorted_app; [exact Hs|exact Hy|apply in_or_app; auto]). lia.
    + destruct (Ho y Hy) as ((_ & T) & _). exact T.
    + assert (sy_value final <= sy_value y) by (rewrite app_assoc in Hs; eapply sorted_app; [exact Hs|apply in_or_app; auto|exact Hy]). lia.
Qed.

(** A symbol of a type gives the section ranges of that type. *)
Lemma has_ranges : forall elf d (func : bool), dict_ok d -> (forall i y, In y (get d i) <-> symbol_of elf i y) ->
  forall i y, symbol_of elf i y -> sy_type y = (if func then Func else Object) -> In (i, get d i) d /\ ranges_of func (i, get d i) <> [].
Proof.
  intros elf d func Hd Hg i y S T. apply Hg in S. pose proof (get_ne d i y S) as I. split; [exact I|]. destruct (get_in d i _ Hd I) as (_ & NE).
  destruct (ranges_runs func i (get d i) NE) as (runs & A & B & C). rewrite C. intros E. apply map_eq_nil in E. pose proof (filter_runs func runs B) as Q. rewrite E, A in Q. cbn [concat] in Q.
  assert (In y []) as []. rewrite Q. apply filter_In. split; [apply sort_in; exact S|apply typed_back; exact T].
Qed.

Lemma code_range : forall elf code data, elf_ok elf -> from_file elf = ret (code, data) ->
  (code = no_range /\ forall y, listed elf y -> sy_type y <> Func) \/
  exists i first final, ar_section code = Some i /\ function_of elf i first /\ function_of elf i final /\
    ar_begin code = sy_value first /\ ar_end code = symbol_end final /\
    (forall y, function_of elf i y -> ar_begin code <= sy_value y < ar_end code) /\
    forall j y z, function_of elf j y -> function_of elf j z -> sy_value z - sy_value y < ar_end code - ar_begin code.
Proof.
  intros elf code data Hok H. destruct (from_file_total elf) as [(c1 & d1 & _ & Hh)|(E & _)]; [|rewrite E in H; discriminate].
  destruct (from_file_inv elf code data H) as (d & Hd & Hg & E & _).
  unfold create_code_range in E. rewrite (fold_map _ _ whole larger) in E. destruct (fold_larger (map whole (ranges_per_section true d)) no_range) as (A & B & C). cbv zeta in A, B, C. rewrite <- E in A, B, C.
  assert (Big : forall j y z, function_of elf j y -> function_of elf j z -> sy_value z - sy_value y < ar_size code).
  { intros j y z Hy Hz. destruct (has_ranges elf d true Hd Hg j y (proj1 Hy) (proj2 Hy)) as (I & N).
    destruct (section_code elf d Hok Hd Hg j _ I N) as (_ & _ & f & g & _ & _ & _ & _ & R). cbv zeta in R. pose proof (R y Hy). pose proof (R z Hz).
    assert (Q : ar_size (whole (ranges_of true (j, get d j))) <= ar_size code) by (apply C; apply in_map; apply per_section_in; eauto). unfold ar_size in *. lia. }
  destruct A as [A|A].
  - left. split; [exact A|]. intros y L T. destruct (Hh y L) as (i & Hi). assert (Fy : function_of elf i y) by (split; [split|]; auto). specialize (Big i y y Fy Fy). rewrite A in Big. unfold ar_size, no_range in Big. cbn in Big. lia.
  - right. apply in_map_iff in A. destruct A as (rs & A1 & A2). apply per_section_in in A2. destruct A2 as (N & i & l & I & ->).
    destruct (section_code elf d Hok Hd Hg i l I N) as (R1 & R2 & f & g & R3 & R4 & R5 & R6 & R7). cbv zeta in *. rewrite A1 in *. exists i, f, g. auto 10.
Qed.

Lemma cut_cases : forall code r, ar_begin code <= ar_end code -> 0 < ar_size r ->
  let c := cut code r in
  ar_section c = ar_section r /\ 0 < ar_size c /\ ar_begin r <= ar_begin c /\ ar_end c <= ar_end r /\
  (ar_begin c = ar_begin r \/ ar_begin c = ar_end code) /\ (ar_end c = ar_end r \/ ar_end c = ar_begin code) /\
  ~ straddles c (ar_begin code) /\ ~ straddles c (ar_end code).
Proof.
  intros code r Hc Hr c. subst c. unfold cut, inside, straddles, ar_size in *. cbn [ar_begin ar_end].
  destruct ((ar_begin r <? ar_begin code) && (ar_begin code <? ar_end r)) eqn:E1; destruct ((ar_begin r <? ar_end code) && (ar_end code <? ar_end r)) eqn:E2;
    [destruct (ar_end r - ar_end code <? ar_begin code - ar_begin r) eqn:E3| | |]; cbn [ar_begin ar_end ar_section]; repeat split; lia.
Qed.

Lemma data_range : forall elf code data, elf_ok elf -> from_file elf = ret (code, data) ->
  ((data = no_range /\ forall y, listed elf y -> sy_type y <> Object) \/
   exists i first final, ar_section data = Some i /\ object_of elf i first /\ object_of elf i final /\
     sy_value first <= ar_begin data < ar_end data /\ ar_end data <= symbol_end final /\
     (ar_begin data = sy_value first \/ ar_begin data = ar_end code) /\ (ar_end data = symbol_end final \/ ar_end data = ar_begin code) /\
     forall y, symbol_of elf i y -> sy_value first < sy_value y < sy_value final -> sy_type y = Object) /\
  ~ straddles data (ar_begin code) /\ ~ straddles data (ar_end code).
Proof.
  intros elf code data Hok H. destruct (from_file_total elf) as [(c1 & d1 & _ & Hh)|(E & _)]; [|rewrite E in H; discriminate].
  assert (Hc : ar_begin code <= ar_end code).
  { destruct (code_range elf code data Hok H) as [(-> & _)|(i & f & g & _ & Hf & _ & _ & _ & R & _)]; [cbn; lia|]. specialize (R f Hf). lia. }
  destruct (from_file_inv elf code data H) as (d & Hd & Hg & _ & E).
  unfold create_data_range in E. rewrite (fold_map _ _ (cut code) larger) in E. set (all := concat (ranges_per_section false d)) in *.
  destruct (fold_larger (map (cut code) all) no_range) as (A & B & C). cbv zeta in A, B, C. rewrite <- E in A, B, C.
  assert (Hall : forall r, In r all -> exists i l, In (i, l) d /\ In r (ranges_of false (i, l))).
  { intros r Hr. apply in_concat in Hr. destruct Hr as (rs & I1 & I2). apply per_section_in in I1. destruct I1 as (_ & i & l & I & ->). eauto. }
  destruct A as [A|A].
  - split; [|subst data; unfold straddles; rewrite A; cbn; lia]. left. split; [exact A|]. intros y L T. destruct (Hh y L) as (i & Hi). destruct (has_ranges elf d false Hd Hg i y (conj L Hi) T) as (I & N).
    destruct (ranges_of false (i, get d i)) as [|r rs] eqn:Q; [congruence|]. assert (Ir : In r (ranges_of false (i, get d i))) by (rewrite Q; left; reflexivity).
    destruct (section_data elf d Hok Hd Hg i _ r I Ir) as (_ & P & _). destruct (cut_cases code r Hc P) as (_ & P2 & _). cbv zeta in P2.
    assert (S : ar_size (cut code r) <= ar_size data). { apply C. apply in_map. apply in_concat. exists (r :: rs). split; [|left; reflexivity]. apply per_section_in. split; [discriminate|]. exists i, (get d i). auto. }
    rewrite A in S. unfold no_range in S. unfold ar_size at 2 in S. cbn [ar_begin ar_end] in S. lia.
  - apply in_map_iff in A. destruct A as (r & A1 & A2). destruct (Hall r A2) as (i & l & I & Ir). destruct (section_data elf d Hok Hd Hg i l r I Ir) as (R1 & R2 & f & g & R3 & R4 & R5 & R6 & R7).
    destruct (cut_cases code r Hc R2) as (K1 & K2 & K3 & K4 & K5 & K6 & K7 & K8). cbv zeta in *. rewrite A1 in *. split; [|auto]. right. exists i, f, g. unfold ar_size in K2. rewrite R5, R6, R1 in *.
    split; [exact K1|]. split; [exact R3|]. split; [exact R4|]. split; [lia|]. split; [lia|]. split; [exact K5|]. split; [exact K6|exact R7].
Qed.

(** No data outside of the code range is larger. *)
Lemma cut_size : forall code r a b, ar_begin code <= ar_end code -> ar_begin r <= a <= b -> b < ar_end r -> b < ar_begin code \/ ar_end code <= a -> b - a < ar_size (cut code r).
Proof.
  intros code r a b Hc Ha Hb Ho. unfold cut, inside, ar_size.
  destruct ((ar_begin r <? ar_begin code) && (ar_begin code <? ar_end r)) eqn:E1; destruct ((ar_begin r <? ar_end code) && (ar_end code <? ar_end r)) eqn:E2; cbn [ar_begin ar_end];
    [destruct (ar_end r - ar_end code <? ar_begin code - ar_begin r) eqn:E3| | |]; cbn [ar_begin ar_end]; lia.
Qed.

Lemma alternate_next : forall r1 a b r2, alternate (r1 ++ a :: b :: r2) -> is_func (sy_type (hd dsym b)) <> is_func (sy_type (hd dsym a)).
Proof. induction r1 as [|x r1 IH]; intros a b r2 H; [cbn in H; tauto|]. cbn [app] in H. apply (IH a b r2). destruct (r1 ++ a :: b :: r2) eqn:E; [destruct r1; discriminate|]. cbn in H. cbn. tauto. Qed.

Lemma data_largest : forall elf code data, elf_ok elf -> from_file elf = ret (code, data) ->
  forall j y z, object_of elf j y -> object_of elf j z -> sy_value y <= sy_value z ->
  (forall x, symbol_of elf j x -> sy_value y <= sy_value x <= sy_value z -> sy_type x = Object) ->
  sy_value z < ar_begin code \/ ar_end code <= sy_value y ->
  sy_value z - sy_value y < ar_end data - ar_begin data.
Proof.
  intros elf code data Hok H j y z Hy Hz Hyz Hb Ho.
  assert (Hc : ar_begin code <= ar_end code).
  { destruct (code_range elf code data Hok H) as [(-> & _)|(i & f & g & _ & Hf & _ & _ & _ & R & _)]; [cbn; lia|]. specialize (R f Hf). lia. }
  destruct (from_file_inv elf code data H) as (d & Hd & Hg & _ & E).
  unfold create_data_range in E. rewrite (fold_map _ _ (cut code) larger) in E. set (all := concat (ranges_per_section false d)) in *.
  destruct (fold_larger (map (cut code) all) no_range) as (_ & _ & C). cbv zeta in C. rewrite <- E in C. clear E.
  assert (Iy : In y (get d j)) by (apply Hg; apply Hy). assert (Iz : In z (get d j)) by (apply Hg; apply Hz). pose proof (get_ne d j y Iy) as I. destruct (get_in d j _ Hd I) as (_ & NE).
  destruct (ranges_runs2 false j (get d j) NE) as (runs & A & B & B2 & D).
  assert (Jy : In y (concat runs)) by (rewrite A; apply sort_in; exact Iy). assert (Jz : In z (concat runs)) by (rewrite A; apply sort_in; exact Iz).
  assert (Hs : StronglySorted below (concat runs)) by (rewrite A; apply by_value_sorted).
  assert (Hin : forall x, In x (concat runs) -> symbol_of elf j x) by (intros x Hx; rewrite A in Hx; apply sort_in in Hx; apply Hg; exact Hx).
  apply in_concat in Jy. destruct Jy as (run & Ir & Jy). pose proof (proj1 (Forall_forall _ _) B run Ir) as (N & F). rewrite Forall_forall in F.
  assert (Ty : of_type false (hd dsym run) = true) by (unfold of_type; rewrite <- (F y Jy); destruct Hy as (_ & ->); reflexivity).
  assert (Ia : In (run_range j run) all).
  { apply in_concat. exists (ranges_of false (j, get d j)). assert (Q : In (run_range j run) (ranges_of false (j, get d j))) by (rewrite D; apply in_map; apply filter_In; auto). split; [|exact Q].
    apply per_section_in. split; [destruct (ranges_of false (j, get d j)); [destruct Q|discriminate]|eauto]. }
  destruct (section_data elf d Hok Hd Hg j _ (run_range j run) I) as (_ & P & _). { apply in_concat in Ia. rewrite D. apply in_map. apply filter_In. auto. }
  assert (G : sy_value z < ar_end (run_range j run) /\ ar_begin (run_range j run) <= sy_value y).
  { cbn [run_range ar_begin ar_end]. apply in_split in Ir. destruct Ir as (r1 & r2 & ->). rewrite concat_app in *. cbn [concat] in *.
    assert (Hs2 : StronglySorted below run).
    { clear - Hs. induction (concat r1) as [|x pre IH]; cbn [app] in Hs; [|inversion Hs; auto]. induction run as [|u run IHr]; [constructor|]. cbn [app] in Hs. inversion Hs as [|? ? S1 S2]; subst. constructor; [auto|]. apply Forall_app in S2. tauto. }
    split; [|apply hd_least; auto].
    assert (Il : In (last run dsym) run) by (apply last_in; exact N).
    assert (Pl : 0 < sy_size (last run dsym)).
    { destruct (typed elf j (last run dsym) false Hok); auto; [apply Hin; rewrite !in_app_iff; auto|]. unfold of_type in *. rewrite (F _ Il). exact Ty. }
    pose proof (last_greatest run y Hs2 Jy) as Ly. unfold symbol_end.
    rewrite !in_app_iff in Jz. destruct Jz as [Jz|[Jz|Jz]].
    - assert (sy_value z <= sy_value y) by (eapply sorted_app; [exact Hs|exact Jz|apply in_or_app; auto]). lia.
    - pose proof (last_greatest run z Hs2 Jz). lia.
    - exfalso. destruct r2 as [|b r2]; [destruct Jz|]. apply alternate_next in B2. apply Forall_app in B. destruct B as (_ & B). inversion B as [|? ? _ B']; subst. inversion B' as [|? ? (Nb & _) _]; subst.
      set (x := hd dsym b) in *. assert (Ib : In x b) by (apply hd_in; exact Nb). cbn [concat] in *.
      assert (Sx : symbol_of elf j x) by (apply Hin; rewrite !in_app_iff; auto).
      assert (V1 : sy_value y <= sy_value x) by (rewrite app_assoc in Hs; eapply sorted_app; [exact Hs|apply in_or_app; right; exact Jy|apply in_or_app; auto]).
      assert (V2 : sy_value x <= sy_value z).
      { assert (Hsb : StronglySorted below (b ++ concat r2)).
        { rewrite app_assoc in Hs. clear - Hs. induction (concat r1 ++ run) as [|u l IH]; cbn [app] in Hs; [exact Hs|]. inversion Hs; auto. }
        pose proof (hd_least _ z Hsb Jz) as Q. replace (hd dsym (b ++ concat r2)) with x in Q by (unfold x; destruct b; [congruence|reflexivity]). exact Q. }
      specialize (Hb x Sx (conj V1 V2)). unfold of_type in Ty. rewrite Hb in B2. cbn [is_func] in B2. destruct (is_func (sy_type (hd dsym run))); [discriminate Ty|congruence]. }
  assert (S1 : ar_size (cut code (run_range j run)) <= ar_size data) by (apply C; apply in_map; exact Ia).
  pose proof (cut_size code (run_range j run) (sy_value y) (sy_value z) Hc ltac:(lia) ltac:(lia) Ho). unfold ar_size in *. lia.
Qed.

(** ** Offsets *)

Lemma starts_iff : forall data l, starts_with data l = true <-> ztake (zlen data) l = data.
Proof.
  induction data as [|a data IH]; intros l; [rewrite ztake_neg by (cbn; lia); cbn; tauto|]. pose proof (zlen_nonneg data) as P. rewrite zlen_cons. destruct l as [|b l]; cbn [starts_with].
  - rewrite ztake_all by (change (zlen (@nil Z)) with 0; lia). split; discriminate.
  - rewrite ztake_cons by lia. replace (1 + zlen data - 1) with (zlen data) by lia. rewrite andb_true_iff, IH. split; [intros (E & ->); f_equal; lia|]. intros E. injection E as -> E. rewrite E. split; [lia|reflexivity].
Qed.

Lemma index_some : forall data l n, bytes_index data l = Some n ->
  0 <= n /\ ztake (zlen data) (zdrop n l) = data /\ forall m, 0 <= m < n -> ztake (zlen data) (zdrop m l) <> data.
Proof.
  intros data. induction l as [|x l IH]; intros n H; cbn [bytes_index] in H.
  - destruct (starts_with data []) eqn:E; [|discriminate]. injection H as <-. split; [lia|]. rewrite zdrop_0. split; [apply starts_iff; exact E|]. intros; lia.
  - destruct (starts_with data (x :: l)) eqn:E.
    + injection H as <-. split; [lia|]. rewrite zdrop_0. split; [apply starts_iff; exact E|]. intros; lia.
    + destruct (bytes_index data l) as [k|]; [|discriminate]. cbn [option_map] in H. injection H as <-. destruct (IH k eq_refl) as (A & B & C). split; [lia|].
      split; [rewrite zdrop_cons by lia; replace (Z.succ k - 1) with k by lia; exact B|]. intros m Hm Q. destruct (Z.eq_dec m 0) as [->|N].
      * rewrite zdrop_0 in Q. apply starts_iff in Q. congruence.
      * rewrite zdrop_cons in Q by lia. apply (C (m - 1)); [lia|exact Q].
Qed.

Lemma index_none : forall data l, bytes_index data l = None -> forall m, 0 <= m <= zlen l -> ztake (zlen data) (zdrop m l) <> data.
Proof.
  intros data. induction l as [|x l IH]; intros H m Hm Q; cbn [bytes_index] in H.
  - destruct (starts_with data []) eqn:E; [discriminate|]. replace m with 0 in Q by (cbn in Hm; lia). rewrite zdrop_0 in Q. apply starts_iff in Q. congruence.
  - destruct (starts_with data (x :: l)) eqn:E; [discriminate|]. destruct (bytes_index data l) as [k|]; [discriminate|]. rewrite zlen_cons in Hm. destruct (Z.eq_dec m 0) as [->|N].
    + rewrite zdrop_0 in Q. apply starts_iff in Q. congruence.
    + rewrite zdrop_cons in Q by lia. apply (IH eq_refl (m - 1)); [lia|exact Q].
Qed.

Lemma slice_plain : forall a b l, 0 <= a -> 0 <= b -> py_slice a b l = zdrop a (ztake b l).
Proof.
  intros a b l Ha Hb. unfold py_slice, slice_index. pose proof (zlen_nonneg l) as P. destruct (a <? 0) eqn:E1; [lia|]. destruct (b <? 0) eqn:E2; [lia|].
  assert (T : ztake (Z.min b (zlen l)) l = ztake b l) by (destruct (Z.min_spec b (zlen l)) as [(_ & ->)|(Q & ->)]; [reflexivity|]; rewrite !ztake_all by lia; reflexivity). rewrite T.
  destruct (Z.min_spec a (zlen l)) as [(_ & ->)|(Q & ->)]; [reflexivity|]. rewrite !zdrop_all; [reflexivity| |]; rewrite zlen_ztake by lia; lia.
Qed.

Lemma home_section : forall elf i a, home elf i a -> exists s, nth_error elf i = Some s /\ has_address s a.
Proof. intros elf i a (b & s & c & -> & <- & A & _). exists s. split; [|exact A]. rewrite nth_error_app2 by lia. rewrite Nat.sub_diag. reflexivity. Qed.

Lemma offset_searched : forall elf bin b e cb ce db de, elf_ok elf -> data_format_from_files elf bin None = ret ((b, e), (cb, ce), (db, de)) ->
  exists code data i s, from_file elf = ret (code, data) /\ cb = ar_begin code /\ ce = ar_end code /\ db = ar_begin data /\ de = ar_end data /\
  ar_section data = Some i /\ nth_error elf i = Some s /\ sec_addr s <= db < de /\
  let part := zdrop (db - sec_addr s) (ztake (de - sec_addr s) (sec_data s)) in
  0 <= b /\ e = b + (de - db) /\ ztake (zlen part) (zdrop b bin) = part /\ (forall m, 0 <= m < b -> ztake (zlen part) (zdrop m bin) <> part) /\
  (de - sec_addr s <= zlen (sec_data s) -> zlen part = de - db).
Proof.
  intros elf bin b e cb ce db de Hok H. unfold data_format_from_files in H. destruct (from_file_total elf) as [(code & data & E & _)|(E & _)]; rewrite E in H; cbn [pbind obind ret raise] in H; [|discriminate].
  destruct (data_range elf code data Hok E) as ([(N & _)|(i & f & g & D1 & D2 & _ & D3 & _)] & _).
  { rewrite N in H. cbn in H. discriminate. }
  destruct (home_section elf i _ (proj2 (proj1 D2))) as (s & S1 & S2). unfold find_data_offset in H. rewrite D1, S1 in H. cbv zeta in H. unfold has_address in S2.
  rewrite slice_plain in H by (unfold ar_size; lia). replace (ar_begin data - sec_addr s + ar_size data) with (ar_end data - sec_addr s) in H by (unfold ar_size; lia).
  set (part := zdrop (ar_begin data - sec_addr s) (ztake (ar_end data - sec_addr s) (sec_data s))) in *. destruct (bytes_index part bin) as [n|] eqn:I; cbn [pbind obind ret raise] in H; [|discriminate].
  assert (Q : (n, n + ar_size data, (ar_begin code, ar_end code), (ar_begin data, ar_end data)) = ((b, e), (cb, ce), (db, de))) by (unfold ret in H; congruence).
  injection Q as <- <- <- <- <- <-. destruct (index_some _ _ _ I) as (I1 & I2 & I3).
  exists code, data, i, s. split; [exact E|]. do 4 (split; [reflexivity|]). split; [exact D1|]. split; [exact S1|]. split; [lia|]. cbv zeta. fold part. split; [exact I1|]. split; [reflexivity|]. split; [exact I2|]. split; [exact I3|].
  intros L. unfold part. rewrite zlen_zdrop, zlen_ztake by lia. lia.
Qed.

Lemma offset_given : forall elf bin o b e cb ce db de, data_format_from_files elf bin (Some o) = ret ((b, e), (cb, ce), (db, de)) ->
  exists code data s, from_file elf = ret (code, data) /\ cb = ar_begin code /\ ce = ar_end code /\ db = ar_begin data /\ de = ar_end data /\
  In s elf /\ has_address s db /\ b = sec_offset s + (db - sec_addr s) - o /\ e = b + (de - db) /\
  forall t, In t elf -> has_address t db -> sec_addr s <= sec_addr t.
Proof.
  intros elf bin o b e cb ce db de H. unfold data_format_from_files in H. destruct (from_file_total elf) as [(code & data & E & _)|(E & _)]; rewrite E in H; cbn [pbind obind ret raise] in H; [|discriminate].
  unfold find_offset_for_address in H. destruct (find _ _) as [s|] eqn:Fd; cbn [pbind obind ret raise] in H; [|discriminate].
  assert (Q : (ar_begin data - sec_addr s + sec_offset s - o, ar_begin data - sec_addr s + sec_offset s - o + ar_size data, (ar_begin code, ar_end code), (ar_begin data, ar_end data)) = ((b, e), (cb, ce), (db, de))) by (unfold ret in H; congruence).
  injection Q as <- <- <- <- <- <-. pose proof (find_some _ _ Fd) as (F1 & F2). apply sort_in in F1. apply sec_has_iff in F2.
  exists code, data, s. split; [exact E|]. do 4 (split; [reflexivity|]). split; [exact F1|]. split; [exact F2|]. split; [lia|]. split; [unfold ar_size; lia|].
  intros t Ht Ha. apply (sort_in _ tuple_le) in Ht. apply sec_has_iff in Ha.
  assert (Ls : StronglySorted (fun a b => sec_addr a <= sec_addr b) (sort_by tuple_le elf)).
  { clear. induction elf as [|x elf IH]; [constructor|]. cbn [sort_by]. induction IH as [|y l H1 IH H2]; cbn [insert_by]; [repeat constructor|]. destruct (tuple_le x y) eqn:T.
    - assert (sec_addr x <= sec_addr y) by (unfold tuple_le in T; destruct (sec_addr x =? sec_addr y) eqn:Q; lia). constructor; [constructor; auto|]. constructor; [lia|]. rewrite Forall_forall in *. intros z Hz. specialize (H2 z Hz). lia.
    - assert (sec_addr y <= sec_addr x) by (unfold tuple_le in T; destruct (sec_addr x =? sec_addr y) eqn:Q; lia). constructor; [exact IH|]. rewrite Forall_forall in *. intros z Hz. apply insert_in in Hz. destruct Hz as [->|Hz]; [lia|auto]. }
  revert Fd Ht Ls. generalize (sort_by tuple_le elf). intros l. induction l as [|x l IH]; intros Fd Ht Ls; [destruct Ht|]. cbn [find] in Fd. inversion Ls as [|? ? L1 L2]; subst. rewrite Forall_forall in L2. destruct (sec_has x (ar_begin data)) eqn:X.
  - injection Fd as ->. destruct Ht as [->|Ht]; [lia|auto].
  - destruct Ht as [->|Ht]; [congruence|auto].
Qed.
