(** Proofs about ELF files. *)

From Coq Require Import ZArith List Bool Lia ZifyBool ZifyNat ZifyN Sorting.Sorted.
From Verif Require Import Prelude Lib PyApply PyElf ElfSpec.
Import ListNotations.
Open Scope Z_scope.

(** ** Sections and symbols *)

Lemma sec_has_iff : forall s a, sec_has s a = true <-> has_address s a.
Proof. intros. unfold sec_has, has_address. lia. Qed.

Lemma find_section_some : forall elf k a i, find_section k elf a = Some i -> exists n, i = (k + n)%nat /\ home elf n a.
Proof.
  induction elf as [|s elf IH]; intros k a i H; cbn [find_section] in H; [discriminate|]. destruct (sec_has s a) eqn:E.
  - injection H as <-. exists O. split; [lia|]. exists [], s, elf. rewrite <- sec_has_iff. split; [reflexivity|]. split; [reflexivity|]. split; [exact E|]. intros t [].
  - apply IH in H. destruct H as (n & -> & b & t & c & -> & L & A & B). exists (S n). split; [lia|]. exists (s :: b), t, c. split; [reflexivity|]. split; [cbn [length]; lia|].
    split; [exact A|]. intros u [<-|U]; [|auto]. rewrite <- sec_has_iff, E. discriminate.
Qed.

Lemma find_section_none : forall elf k a, find_section k elf a = None -> forall s, In s elf -> ~ has_address s a.
Proof.
  induction elf as [|s elf IH]; intros k a H t [].
  - subst t. cbn [find_section] in H. rewrite <- sec_has_iff. destruct (sec_has s a); [discriminate H|discriminate].
  - cbn [find_section] in H. destruct (sec_has s a); [discriminate H|]. eapply IH; eauto.
Qed.

Lemma home_unique : forall elf i a, home elf i a -> find_section 0 elf a = Some i.
Proof.
  intros elf i a (b & s & c & -> & <- & A & B). change (length b) with (0 + length b)%nat. generalize O. induction b as [|t b IH]; intros k; cbn [app find_section length].
  - apply sec_has_iff in A. rewrite A. f_equal. lia.
  - destruct (sec_has t a) eqn:E; [apply sec_has_iff in E; exfalso; apply (B t); cbn; auto|]. rewrite IH by (intros; apply B; cbn; auto). f_equal. lia.
Qed.

Lemma home_find : forall elf i a, home elf i a <-> find_section 0 elf a = Some i.
Proof. intros. split; [apply home_unique|]. intros H. apply find_section_some in H. destruct H as (n & -> & H). exact H. Qed.

Lemma listed_in : forall elf y, listed elf y <-> In y (all_symbols elf) /\ wanted y = true.
Proof.
  intros elf y. unfold listed, all_symbols, wanted. rewrite in_flat_map. split.
  - intros (s & l & A & B & C & D & E & G). split.
    + exists s. split; [exact A|]. unfold symbols_of. rewrite B. destruct (sec_entsize s =? 0) eqn:Q; [lia|exact D].
    + destruct (sy_type y); [| |congruence]; lia.
  - intros ((s & A & B) & W). unfold symbols_of in B. destruct (sec_symbols s) as [l|] eqn:E; [|destruct B]. destruct (sec_entsize s =? 0) eqn:Q; [destruct B|].
    exists s, l. repeat (split; [auto; lia|]). destruct (sy_type y); try discriminate; split; try discriminate; lia.
Qed.

(** ** The dict *)

Fixpoint get (d : list (nat * list symbol)) (i : nat) : list symbol :=
  match d with
  | [] => []
  | (k, l) :: rest => if Nat.eqb k i then l else get rest i
  end.

Lemma get_append : forall key x d i, get (dict_append key x d) i = if Nat.eqb key i then get d i ++ [x] else get d i.
Proof.
  intros key x d i. induction d as [|[k l] d IH]; cbn [dict_append get]; [destruct (Nat.eqb key i); reflexivity|].
  destruct (Nat.eqb k key) eqn:E; cbn [get].
  - apply Nat.eqb_eq in E. subst k. destruct (Nat.eqb key i); reflexivity.
  - rewrite IH. destruct (Nat.eqb k i) eqn:G; [|reflexivity]. apply Nat.eqb_eq in G. subst k. rewrite Nat.eqb_sym, E. reflexivity.
Qed.

Lemma append_keys : forall key x d k, In k (map fst (dict_append key x d)) <-> k = key \/ In k (map fst d).
Proof.
  intros key x d k. induction d as [|[k0 l] d IH]; cbn [dict_append map fst In]; [split; intros [A|A]; auto|].
  destruct (Nat.eqb k0 key) eqn:E; cbn [map fst In]; [apply Nat.eqb_eq in E; subst k0; split; intros [A|A]; auto; destruct A; auto|]. rewrite IH. tauto.
Qed.

Definition dict_ok (d : list (nat * list symbol)) : Prop := NoDup (map fst d) /\ Forall (fun e => snd e <> []) d.

Lemma append_ok : forall key x d, dict_ok d -> dict_ok (dict_append key x d).
Proof.
  intros key x d (A & B). split.
  - clear B. induction d as [|[k l] d IH]; cbn [dict_append map fst]; [repeat constructor; auto|]. cbn [map fst] in A. inversion A as [|? ? A1 A2]; subst.
    destruct (Nat.eqb k key) eqn:E; cbn [map fst]; [constructor; auto|]. constructor; [|auto]. rewrite append_keys. intros [C|C]; [|auto]. subst k. rewrite Nat.eqb_refl in E. discriminate.
  - clear A. induction B as [|[k l] d B1 B2 IH]; cbn [dict_append]; [repeat constructor; discriminate|]. destruct (Nat.eqb k key); constructor; auto. cbn [snd]. destruct l; discriminate.
Qed.

Lemma get_in : forall d i l, dict_ok d -> In (i, l) d -> get d i = l /\ l <> [].
Proof.
  intros d i l (A & B) H. split; [|rewrite Forall_forall in B; exact (B (i, l) H)]. clear B. induction d as [|[k l0] d IH]; [destruct H|]. cbn [map fst] in A. inversion A as [|? ? A1 A2]; subst. cbn [get].
  destruct H as [H|H]; [injection H as -> ->; rewrite Nat.eqb_refl; reflexivity|]. destruct (Nat.eqb k i) eqn:E; [|auto]. apply Nat.eqb_eq in E. subst k. exfalso. apply A1. apply (in_map fst) in H. exact H.
Qed.

Lemma get_ne : forall d i y, In y (get d i) -> In (i, get d i) d.
Proof.
  intros d i y. induction d as [|[k l] d IH]; cbn [get]; [intros []|]. destruct (Nat.eqb k i) eqn:E; intros H; [apply Nat.eqb_eq in E; subst k; left; reflexivity|right; auto].
Qed.

Definition goes (elf : list section) (i : nat) (y : symbol) : bool :=
  wanted y && match find_section 0 elf (sy_value y) with Some k => Nat.eqb k i | None => false end.

Lemma collect_get : forall elf l d d1, collect elf l d = ret d1 -> dict_ok d -> dict_ok d1 /\ forall i, get d1 i = get d i ++ filter (goes elf i) l.
Proof.
  intros elf. induction l as [|y l IH]; intros d d1 H Hd; cbn [collect] in H.
  - injection H as <-. split; [exact Hd|]. intros i. cbn [filter]. rewrite app_nil_r. reflexivity.
  - destruct (wanted y) eqn:W.
    + destruct (find_section 0 elf (sy_value y)) as [k|] eqn:E; [|discriminate H]. destruct (IH _ _ H (append_ok _ _ _ Hd)) as (A & B). split; [exact A|]. intros i. rewrite B, get_append.
      cbn [filter]. unfold goes at 2. rewrite W, E. cbn [andb]. destruct (Nat.eqb k i); [rewrite <- app_assoc|]; reflexivity.
    + destruct (IH _ _ H Hd) as (A & B). split; [exact A|]. intros i. rewrite B. cbn [filter]. unfold goes at 2. rewrite W. reflexivity.
Qed.

Lemma collect_total : forall elf l d, (exists d1, collect elf l d = ret d1 /\ forall y, In y l -> wanted y = true -> find_section 0 elf (sy_value y) <> None) \/
  (collect elf l d = raise DetoolsError /\ exists y, In y l /\ wanted y = true /\ find_section 0 elf (sy_value y) = None).
Proof.
  intros elf. induction l as [|y l IH]; intros d; cbn [collect].
  - left. exists d. split; [reflexivity|]. intros y [].
  - destruct (wanted y) eqn:W.
    + destruct (find_section 0 elf (sy_value y)) as [k|] eqn:E.
      * destruct (IH (dict_append k y d)) as [(d1 & A & B)|(A & z & B & C & D)].
        -- left. exists d1. split; [exact A|]. intros z [<-|Z] Wz; [rewrite E; discriminate|auto].
        -- right. split; [exact A|]. exists z. cbn. auto.
      * right. split; [reflexivity|]. exists y. cbn. auto.
    + destruct (IH d) as [(d1 & A & B)|(A & z & B & C & D)].
      * left. exists d1. split; [exact A|]. intros z [<-|Z] Wz; [congruence|auto].
      * right. split; [exact A|]. exists z. cbn. auto.
Qed.

Lemma goes_iff : forall elf i y, In y (filter (goes elf i) (all_symbols elf)) <-> symbol_of elf i y.
Proof.
  intros elf i y. rewrite filter_In. unfold symbol_of, goes. rewrite listed_in, home_find. destruct (wanted y); cbn [andb]; [|split; intros (A & B); [discriminate|destruct A; discriminate]].
  destruct (find_section 0 elf (sy_value y)) as [k|]; [rewrite Nat.eqb_eq|]; split; intros (A & B); try discriminate; split; try tauto; congruence.
Qed.

(** ** Sorting *)

Definition below (a b : symbol) : Prop := sy_value a <= sy_value b.
Definition by_value := sort_by (fun a b => sy_value a <=? sy_value b).

Lemma insert_in : forall A (le : A -> A -> bool) x l y, In y (insert_by le x l) <-> y = x \/ In y l.
Proof.
  intros A le x l y. induction l as [|z l IH]; cbn [insert_by In]; [split; intros [H|H]; auto|]. destruct (le x z); cbn [In]; [|rewrite IH]; split; intuition congruence.
Qed.

Lemma sort_in : forall A (le : A -> A -> bool) l y, In y (sort_by le l) <-> In y l.
Proof. intros A le l y. induction l as [|x l IH]; cbn [sort_by In]; [tauto|]. rewrite insert_in, IH. split; intros [H|H]; auto. Qed.

Lemma insert_sorted : forall x l, StronglySorted below l -> StronglySorted below (insert_by (fun a b => sy_value a <=? sy_value b) x l).
Proof.
  intros x l H. induction H as [|y l H1 IH H2]; cbn [insert_by]; [repeat constructor|]. destruct (sy_value x <=? sy_value y) eqn:E.
  - constructor; [constructor; auto|]. constructor; [unfold below; lia|]. rewrite Forall_forall in *. intros z Hz. specialize (H2 z Hz). unfold below in *. lia.
  - constructor; [exact IH|]. rewrite Forall_forall in *. intros z Hz. apply insert_in in Hz. destruct Hz as [->|Hz]; [unfold below; lia|auto].
Qed.

Lemma by_value_sorted : forall l, StronglySorted below (by_value l).
Proof. induction l as [|x l IH]; [constructor|]. apply insert_sorted. exact IH. Qed.

Lemma filter_sorted : forall f l, StronglySorted below l -> StronglySorted below (filter f l).
Proof.
  intros f l H. induction H as [|y l H1 IH H2]; cbn [filter]; [constructor|]. destruct (f y); [|exact IH]. constructor; [exact IH|]. rewrite Forall_forall in *. intros z Hz. apply filter_In in Hz. apply H2. tauto.
Qed.

Lemma sorted_app : forall a b x y, StronglySorted below (a ++ b) -> In x a -> In y b -> sy_value x <= sy_value y.
Proof.
  induction a as [|z a IH]; intros b x y H Hx Hy; [destruct Hx|]. cbn [app] in H. inversion H as [|? ? H1 H2]; subst. destruct Hx as [->|Hx]; [|eauto].
  rewrite Forall_forall in H2. apply H2. apply in_or_app. auto.
Qed.

Definition dsym : symbol := mksym OtherType 0 0.

Lemma hd_in : forall (l : list symbol), l <> [] -> In (hd dsym l) l.
Proof. intros [|x l] H; [congruence|left; reflexivity]. Qed.

Lemma last_in : forall (l : list symbol), l <> [] -> In (last l dsym) l.
Proof. intros l H. rewrite (app_removelast_last dsym H) at 2. apply in_or_app. right. left. reflexivity. Qed.

Lemma hd_least : forall l y, StronglySorted below l -> In y l -> sy_value (hd dsym l) <= sy_value y.
Proof. intros [|x l] y H Hy; [destruct Hy|]. destruct Hy as [->|Hy]; cbn [hd]; [lia|]. inversion H as [|? ? H1 H2]; subst. rewrite Forall_forall in H2. apply H2. exact Hy. Qed.

Lemma last_greatest : forall l y, StronglySorted below l -> In y l -> sy_value y <= sy_value (last l dsym).
Proof.
  intros l y H Hy. assert (N : l <> []) by (destruct l; [destruct Hy|discriminate]). pose proof (app_removelast_last dsym N) as E. rewrite E in Hy. apply in_app_or in Hy.
  destruct Hy as [Hy|[->|[]]]; [|lia]. rewrite E in H. eapply sorted_app in H; [exact H|exact Hy|left; reflexivity].
Qed.

(** ** Runs of symbols of a type *)

Definition same_type (r : list symbol) : Prop := r <> [] /\ Forall (fun y => is_func (sy_type y) = is_func (sy_type (hd dsym r))) r.
Definition run_range (i : nat) (r : list symbol) : arange := mkrange (sy_value (hd dsym r)) (symbol_end (last r dsym)) (Some i).
Definition run_block (i : nat) (r : list symbol) : sym_type * arange := (sy_type (hd dsym r), run_range i r).

(** Neighbours have different types. *)
Fixpoint alternate (runs : list (list symbol)) : Prop :=
  match runs with
  | r :: ((q :: _) as rest) => is_func (sy_type (hd dsym q)) <> is_func (sy_type (hd dsym r)) /\ alternate rest
  | _ => True
  end.

Lemma blocks_runs : forall i l done, same_type done ->
  exists run runs, concat (run :: runs) = done ++ l /\ Forall same_type (run :: runs) /\ hd dsym run = hd dsym done /\ alternate (run :: runs) /\
    blocks i (sy_type (hd dsym done)) (sy_value (hd dsym done)) (symbol_end (last done dsym)) l = map (run_block i) (run :: runs).
Proof.
  intros i. induction l as [|y l IH]; intros done Hd; cbn [blocks].
  - exists done, []. cbn [concat map]. rewrite !app_nil_r. split; [reflexivity|]. split; [constructor; auto|]. split; [reflexivity|]. split; [exact I|reflexivity].
  - destruct (Bool.eqb (is_func (sy_type y)) (is_func (sy_type (hd dsym done)))) eqn:E.
    + apply eqb_prop in E. assert (Hh : hd dsym (done ++ [y]) = hd dsym done) by (destruct Hd as (N & _); destruct done; [congruence|reflexivity]).
      destruct (IH (done ++ [y])) as (run & runs & A & B & B2 & B3 & C).
      { destruct Hd as (N & F). split; [destruct done; discriminate|]. rewrite Hh. apply Forall_app. split; [exact F|]. constructor; auto. }
      exists run, runs. rewrite Hh, last_last in C. rewrite A, <- app_assoc. split; [reflexivity|]. split; [exact B|]. split; [congruence|]. split; [exact B3|exact C].
    + destruct (IH [y]) as (run & runs & A & B & B2 & B3 & C); [split; [discriminate|]; constructor; auto|]. exists done, (run :: runs). change (concat (done :: run :: runs)) with (done ++ concat (run :: runs)). rewrite A. split; [reflexivity|]. split; [constructor; auto|].
      split; [reflexivity|]. split; [split; [rewrite B2; intros Q; cbn [hd] in Q; rewrite Q, eqb_reflx in E; discriminate|exact B3]|].
      change (map (run_block i) (done :: run :: runs)) with (run_block i done :: map (run_block i) (run :: runs)). rewrite <- C. reflexivity.
Qed.

Lemma section_runs2 : forall i l, l <> [] -> exists runs, concat runs = by_value l /\ Forall same_type runs /\ alternate runs /\ section_blocks (i, l) = map (run_block i) runs.
Proof.
  intros i l N. unfold section_blocks. cbn [fst snd]. fold by_value. destruct (by_value l) as [|y rest] eqn:E.
  - exfalso. destruct l as [|x l]; [congruence|]. assert (In x []) as []. rewrite <- E. apply sort_in. left. reflexivity.
  - cbn [blocks]. rewrite eqb_reflx. destruct (blocks_runs i rest [y]) as (run & runs & A & B & _ & C & D); [split; [discriminate|]; constructor; auto|]. exists (run :: runs). split; [exact A|]. split; [exact B|]. split; [exact C|]. exact D.
Qed.

Definition of_type (func : bool) (y : symbol) : bool := Bool.eqb (is_func (sy_type y)) func.

Lemma filter_runs : forall func runs, Forall same_type runs ->
  concat (filter (fun r => of_type func (hd dsym r)) runs) = filter (of_type func) (concat runs).
Proof.
  intros func runs H. induction H as [|r runs (N & F) H IH]; [reflexivity|]. cbn [concat filter]. rewrite filter_app, <- IH.
  assert (G : filter (of_type func) r = if of_type func (hd dsym r) then r else []).
  { unfold of_type. clear - F. generalize dependent (is_func (sy_type (hd dsym r))). intros b F. induction F as [|y r E F IHr]; cbn [filter]; [destruct (Bool.eqb b func); reflexivity|]. rewrite E, IHr. destruct (Bool.eqb b func); reflexivity. }
  rewrite G. destruct (of_type func (hd dsym r)); reflexivity.
Qed.

Lemma ranges_runs2 : forall func i l, l <> [] -> exists runs, concat runs = by_value l /\ Forall same_type runs /\ alternate runs /\
  ranges_of func (i, l) = map (run_range i) (filter (fun r => of_type func (hd dsym r)) runs).
Proof.
  intros func i l N. destruct (section_runs2 i l N) as (runs & A & B & B2 & C). exists runs. split; [exact A|]. split; [exact B|]. split; [exact B2|]. unfold ranges_of. rewrite C. clear.
  induction runs as [|r runs IH]; [reflexivity|]. cbn [map filter]. unfold run_block at 1. cbn [fst]. unfold of_type at 1. destruct (Bool.eqb _ _); cbn [map snd]; rewrite IH; reflexivity.
Qed.

Lemma ranges_runs : forall func i l, l <> [] -> exists runs, concat runs = by_value l /\ Forall same_type runs /\
  ranges_of func (i, l) = map (run_range i) (filter (fun r => of_type func (hd dsym r)) runs).
Proof. intros func i l N. destruct (ranges_runs2 func i l N) as (runs & A & B & _ & C). eauto. Qed.

Lemma whole_runs : forall i runs, runs <> [] -> Forall same_type runs ->
  whole (map (run_range i) runs) = mkrange (sy_value (hd dsym (concat runs))) (symbol_end (last (concat runs) dsym)) (Some i) /\ concat runs <> [].
Proof.
  intros i runs N H. assert (NE : concat runs <> []) by (destruct H as [|r runs (A & _) H]; [congruence|]; destruct r; [congruence|discriminate]). split; [|exact NE].
  unfold whole. f_equal.
  - destruct H as [|r runs (A & _) H]; [congruence|]. destruct r; [congruence|reflexivity].
  - rewrite (app_removelast_last [] N) in *. apply Forall_app in H. destruct H as (_ & H). inversion H as [|? ? (A & _) _]; subst. set (r := last runs []) in *.
    rewrite map_app. cbn [map]. rewrite last_last. cbn [run_range ar_end]. rewrite concat_app. cbn [concat]. rewrite app_nil_r, (app_removelast_last dsym A), app_assoc, !last_last. reflexivity.
  - destruct H as [|r runs _ H]; [congruence|]. reflexivity.
Qed.

(** ** The largest range *)

Lemma fold_larger : forall l best, let r := fold_left larger l best in
  (r = best \/ In r l) /\ ar_size best <= ar_size r /\ forall x, In x l -> ar_size x <= ar_size r.
Proof.
  induction l as [|x l IH]; intros best; cbn [fold_left]; cbv zeta; [split; [auto|]; split; [lia|]; intros x []|].
  destruct (IH (larger best x)) as (A & B & C). cbv zeta in A, B, C. set (r := fold_left larger l (larger best x)) in *. unfold larger in A, B. destruct (ar_size best <? ar_size x) eqn:E.
  - split; [destruct A as [A|A]; [right; left; auto|right; right; auto]|]. split; [lia|]. intros z [<-|Z]; [lia|auto].
  - split; [destruct A as [A|A]; [auto|right; right; auto]|]. split; [lia|]. intros z [<-|Z]; [lia|auto].
Qed.

Lemma fold_map : forall A B (f : A -> B) (g : B -> B -> B) l x, fold_left (fun b a => g b (f a)) l x = fold_left g (map f l) x.
Proof. intros A B f g l. induction l as [|a l IH]; intros x; cbn; auto. Qed.
