(** * Proofs about sets *)
From stdpp Require Import base list gmap.
From Verif Require Import GoBase SetModel SetSpec.

Section proofs.
Context {K : Type} `{Countable K}.
Notation vars := (list (option (gset K))).
Notation heap := (gmap loc (gmap K K)).
Notation sstate := (heap * list setvar)%type.

(** [m] represents the set [X]. *)
Definition repm (X : gset K) (m : gmap K K) : Prop := ∀ k v, m !! k = Some v ↔ v = k ∧ k ∈ X.

Lemma repm_empty : repm ∅ ∅.
Proof. intros k v. rewrite lookup_empty, elem_of_empty. split; [done|by intros [_ []]]. Qed.
Lemma repm_add X m v : repm X m → repm ({[v]} ∪ X) (<[v := v]> m).
Proof. intros Hm k x. rewrite lookup_insert_Some, (Hm k x), elem_of_union, elem_of_singleton. destruct (decide (v = k)); naive_solver. Qed.
Lemma repm_delete X m v : repm X m → repm (X ∖ {[v]}) (delete v m).
Proof. intros Hm k x. rewrite lookup_delete_Some, (Hm k x), elem_of_difference, elem_of_singleton. naive_solver. Qed.
Lemma repm_lookup X m k : repm X m → is_Some (m !! k) ↔ k ∈ X.
Proof.
  intros Hm. split.
  - intros [v Hv]. by apply Hm in Hv as [_ ?].
  - intros Hk. exists k. by apply Hm.
Qed.
Lemma repm_size X m : repm X m → size m = size X.
Proof.
  intros Hm. assert (dom m = X) as <-; [|by rewrite size_dom].
  apply set_eq. intros k. rewrite elem_of_dom. by apply repm_lookup.
Qed.
Lemma repm_range σ n X m : legal σ → repm X m → range_keys σ n m ≡ₚ elements X.
Proof.
  intros Hσ Hm. unfold range_keys. rewrite (Hσ n). apply NoDup_Permutation.
  - apply NoDup_fst_map_to_list.
  - apply NoDup_elements.
  - intros k. rewrite elem_of_elements, <-(repm_lookup X m k Hm), elem_of_list_fmap. split.
    + intros ([a b]&->&Hin). apply elem_of_map_to_list in Hin. eauto.
    + intros [v Hv]. exists (k, v). by rewrite elem_of_map_to_list.
Qed.
Lemma repm_vals σ n X m : legal σ → repm X m → range_vals σ n m ≡ₚ elements X.
Proof.
  intros Hσ Hm. unfold range_vals. rewrite <-(repm_range σ n X m Hσ Hm).
  assert (∀ l : list K, (∀ k, k ∈ l → k ∈ X) → omap (λ k, m !! k) l = l) as Hl.
  { induction l as [|k l IH]; intros Hin; [done|]. simpl.
    assert (m !! k = Some k) as ->. { apply Hm. split; [done|]. apply Hin. left. }
    f_equal. apply IH. intros. apply Hin. by right. }
  rewrite Hl; [done|]. intros k. rewrite (repm_range σ n X m Hσ Hm). by rewrite elem_of_elements.
Qed.

(** A loop over [X] that adds the elements satisfying [f] to the map at [r]. *)
Lemma hloop_filter (h0 : heap) (r : loc) (body : K → heap → res heap) (f : K → Prop)
    `{∀ k, Decision (f k)} (ks : list K) Y m' :
  (∀ k m', k ∈ ks → body k (<[r := m']> h0)
     = Ok (if decide (f k) then <[r := <[k := k]> m']> h0 else <[r := m']> h0)) →
  repm Y m' →
  ∃ m'', hloop body ks (<[r := m']> h0) = Ok (<[r := m'']> h0) ∧
    repm (Y ∪ filter f (list_to_set ks)) m''.
Proof.
  revert Y m'. induction ks as [|k ks IH]; intros Y m' Hb Hm.
  { exists m'. split; [done|]. simpl. by assert (Y ∪ filter f ∅ = Y) as -> by set_solver. }
  simpl. rewrite Hb by left. destruct (decide (f k)) as [Hf|Hf].
  - destruct (IH ({[k]} ∪ Y) (<[k := k]> m')) as (m''&Hl&Hm'').
    { intros. apply Hb. by right. }
    { by apply repm_add. }
    exists m''. split; [done|].
    replace (Y ∪ filter f ({[k]} ∪ list_to_set ks)) with ({[k]} ∪ Y ∪ filter f (list_to_set ks)); [done|].
    apply set_eq. intros x. rewrite !elem_of_union, !elem_of_filter, elem_of_union, !elem_of_singleton. naive_solver.
  - destruct (IH Y m') as (m''&Hl&Hm'').
    { intros. apply Hb. by right. }
    { done. }
    exists m''. split; [done|].
    replace (Y ∪ filter f ({[k]} ∪ list_to_set ks)) with (Y ∪ filter f (list_to_set ks)); [done|].
    apply set_eq. intros x. rewrite !elem_of_union, !elem_of_filter, elem_of_union, !elem_of_singleton. naive_solver.
Qed.

(** [s] is a variable with the elements [X] in the heap [h]. *)
Definition reps (h : heap) (s : setvar) (X : gset K) : Prop :=
  match s with
  | None => X = ∅
  | Some l => ∃ m, h !! l = Some m ∧ repm X m
  end.
Lemma reps_read h s X : reps h s X → repm X (hread h s).
Proof. destruct s as [l|]; simpl; [by intros (m&->&?)|intros ->; apply repm_empty]. Qed.
Lemma reps_other h s X r m : reps h s X → h !! r = None → reps (<[r := m]> h) s X.
Proof.
  destruct s as [l|]; simpl; [|done]. intros (m'&Hl&Hm) Hr. exists m'. split; [|done].
  rewrite lookup_insert_ne; [done|]. congruence.
Qed.

Lemma hrange_filter σ (h0 : heap) s X (r : loc) (body : K → K → heap → res heap) (f : K → Prop)
    `{∀ k, Decision (f k)} :
  legal σ → h0 !! r = None → reps h0 s X →
  (∀ k m', k ∈ X → body k k (<[r := m']> h0)
     = Ok (if decide (f k) then <[r := <[k := k]> m']> h0 else <[r := m']> h0)) →
  ∃ m, hrange σ s body (<[r := ∅]> h0) = Ok (<[r := m]> h0) ∧ repm (filter f X) m.
Proof.
  intros Hσ Hr Hs Hb. unfold hrange.
  pose proof (reps_read _ _ _ (reps_other h0 s X r ∅ Hs Hr)) as Hm.
  pose proof (repm_range σ 0 X _ Hσ Hm) as Hks.
  destruct (hloop_filter h0 r
    (λ k h, match hread h s !! k with Some v => body k v h | None => Ok h end) f
    (range_keys σ 0 (hread (<[r:=∅]> h0) s)) ∅ ∅) as (m&Hl&Hm').
  { intros k m' Hk. rewrite Hks, elem_of_elements in Hk.
    pose proof (reps_read _ _ _ (reps_other h0 s X r m' Hs Hr)) as Hm''.
    rewrite (proj2 (Hm'' k k)) by done. by apply Hb. }
  { apply repm_empty. }
  exists m. split; [done|].
  replace (filter f X) with (∅ ∪ filter f (list_to_set (range_keys σ 0 (hread (<[r:=∅]> h0) s)) : gset K)); [done|].
  apply set_eq. intros x. rewrite elem_of_union, !elem_of_filter, elem_of_list_to_set, Hks, elem_of_elements.
  set_solver.
Qed.

Lemma hmake_eq (h : heap) : ∃ r, h !! r = None ∧ hmake h = (<[r := ∅]> h, Some r).
Proof.
  exists (fresh (dom h)). split; [|done]. apply not_elem_of_dom. apply is_fresh.
Qed.

(** The result of an operation that builds the set [X]: a new location. *)
Definition builds (h : heap) (X : gset K) (x : res (heap * setvar)) : Prop :=
  ∃ r m, h !! r = None ∧ x = Ok (<[r := m]> h, Some r) ∧ repm X m.

Lemma Add_fresh (h : heap) (r : loc) m v :
  Set_Add (Some r) v (<[r := m]> h) = Ok (<[r := <[v := v]> m]> h).
Proof. simpl. rewrite lookup_insert, insert_insert. done. Qed.

Lemma Includes_spec (h : heap) s X v : reps h s X → Set_Includes s v h = bool_decide (v ∈ X).
Proof.
  intros Hs%reps_read. apply bool_decide_ext. by apply repm_lookup.
Qed.

Lemma Copy_builds σ (h : heap) s X : legal σ → reps h s X → builds h X (Set_Copy σ s h).
Proof.
  intros Hσ Hs. unfold Set_Copy. destruct (hmake_eq h) as (r&Hr&->).
  destruct (hrange_filter σ h s X r (λ k v h, Ok (<[r := <[k := v]> (hread h (Some r))]> h)) (λ _, True))
    as (m&Hl&Hm); [done..| |].
  { intros k m' Hk. simpl. by rewrite lookup_insert, insert_insert. }
  exists r, m. split_and!; [done| |].
  - by rewrite Hl.
  - by replace X with (filter (λ _, True) X) by set_solver.
Qed.
Lemma Intersection_builds σ (h : heap) s1 s2 X1 X2 :
  legal σ → reps h s1 X1 → reps h s2 X2 →
  builds h (X1 ∩ X2) (Set_Intersection σ s1 s2 h).
Proof.
  intros Hσ Hs1 Hs2. unfold Set_Intersection. destruct (hmake_eq h) as (r&Hr&->).
  assert (∀ s o X Y, reps h s X → reps h o Y →
    builds h (X ∩ Y) (hreturn (Some r) (hrange σ s (λ _ v h,
        if Set_Includes o v h then Set_Add (Some r) v h else Ok h) (<[r:=∅]> h)))) as Hgen.
  { intros s o X Y Hs Ho.
    destruct (hrange_filter σ h s X r (λ _ v h,
        if Set_Includes o v h then Set_Add (Some r) v h else Ok h) (λ v, v ∈ Y))
      as (m&Hl&Hm); [done..| |].
    { intros k m' Hk. rewrite (Includes_spec _ o Y) by by apply reps_other.
      case_bool_decide; case_decide; try done. by rewrite Add_fresh. }
    exists r, m. split_and!; [done| |].
    - by rewrite Hl.
    - by replace (X ∩ Y) with (filter (λ v, v ∈ Y) X) by set_solver. }
  destruct s1 as [l1|]; [destruct s2 as [l2|]|].
  - case_decide; [|by apply Hgen]. rewrite intersection_comm_L. by apply Hgen.
  - exists r, ∅. split_and!; [done..|]. simpl in Hs2. subst X2.
    replace (X1 ∩ ∅) with (∅ : gset K) by set_solver. apply repm_empty.
  - exists r, ∅. split_and!; [done..|]. simpl in Hs1. subst X1.
    replace (∅ ∩ X2) with (∅ : gset K) by set_solver. apply repm_empty.
Qed.
Lemma Difference_builds σ (h : heap) s1 s2 X1 X2 :
  legal σ → reps h s1 X1 → reps h s2 X2 →
  builds h (X1 ∖ X2) (Set_Difference σ s1 s2 h).
Proof.
  intros Hσ Hs1 Hs2. unfold Set_Difference. rewrite (repm_size X2) by by apply reps_read.
  case_decide as Hsz.
  { replace (X1 ∖ X2) with X1; [by apply Copy_builds|].
    apply size_empty_iff in Hsz. set_solver. }
  destruct (hmake_eq h) as (r&Hr&->).
  destruct (hrange_filter σ h s1 X1 r (λ k v h,
      match hread h s2 !! k with None => Set_Add (Some r) v h | Some _ => Ok h end) (λ v, v ∉ X2))
    as (m&Hl&Hm); [done..| |].
  { intros k m' Hk. pose proof (reps_read _ _ _ (reps_other h s2 X2 r m' Hs2 Hr)) as Hm2.
    pose proof (repm_lookup X2 _ k Hm2) as Hlk.
    destruct (hread _ s2 !! k) eqn:E.
    - rewrite decide_False; [done|]. intros Hn. apply Hn, Hlk. eauto.
    - rewrite decide_True; [by rewrite Add_fresh|]. intros [? ?]%Hlk. congruence. }
  exists r, m. split_and!; [done| |].
  - by rewrite Hl.
  - by replace (X1 ∖ X2) with (filter (λ v, v ∉ X2) X1) by set_solver.
Qed.
Lemma Filter_builds σ (h : heap) s X cb :
  legal σ → reps h s X → builds h (filter (λ v, cb v = true) X) (Set_Filter σ s cb h).
Proof.
  intros Hσ Hs. unfold Set_Filter. destruct (hmake_eq h) as (r&Hr&->).
  destruct (hrange_filter σ h s X r (λ _ v h, if cb v then Set_Add (Some r) v h else Ok h) (λ v, cb v = true))
    as (m&Hl&Hm); [done..| |].
  { intros k m' Hk. destruct (cb k); [by rewrite Add_fresh|done]. }
  exists r, m. split_and!; [done| |done]. by rewrite Hl.
Qed.

(** The state of a program represents independent sets. *)
Record srep (st : sstate) (vs : vars) : Prop := Srep {
  srep_vars : Forall2 (λ s x, match s, x with
                              | None, None => True
                              | Some l, Some X => reps st.1 (Some l) X
                              | _, _ => False
                              end) st.2 vs;
  srep_inj : ∀ i j l, st.2 !! i = Some (Some l) → st.2 !! j = Some (Some l) → i = j
}.
Lemma srep_reps st vs i : srep st vs → reps st.1 (svar st.2 i) (elems vs i).
Proof.
  intros [Hv _]. unfold svar, elems.
  destruct (st.2 !! i) as [s|] eqn:Ei.
  - destruct (Forall2_lookup_l _ _ _ _ _ Hv Ei) as (x&->&Hx).
    destruct s as [l|], x as [X|]; simpl; done.
  - apply lookup_ge_None in Ei. rewrite (Forall2_length _ _ _ Hv) in Ei. apply lookup_ge_None in Ei as ->. done.
Qed.
Lemma srep_nil st vs i : srep st vs → svar st.2 i = None ↔ is_nil vs i.
Proof.
  intros [Hv _]. unfold svar, is_nil.
  destruct (st.2 !! i) as [s|] eqn:Ei.
  - destruct (Forall2_lookup_l _ _ _ _ _ Hv Ei) as (x&->&Hx).
    destruct s as [l|], x as [X|]; simpl; try done. split; [done|]. intros Hn. by destruct (Hn X).
  - apply lookup_ge_None in Ei. rewrite (Forall2_length _ _ _ Hv) in Ei. apply lookup_ge_None in Ei as ->. done.
Qed.
Lemma srep_push h (vars : list setvar) vs x X :
  srep (h, vars) vs → builds h X x →
  ∃ st', spush vars x = Ok (SDone, st') ∧ srep st' (vs ++ [Some X]).
Proof.
  intros [Hv Hinj] (r&m&Hr&->&Hm). simpl in *. eexists. split; [done|].
  assert (∀ i l, vars !! i = Some (Some l) → is_Some (h !! l)) as Hdom.
  { intros i l Hi. destruct (Forall2_lookup_l _ _ _ _ _ Hv Hi) as ([Y|]&_&HY); [|done].
    destruct HY as (?&->&_). eauto. }
  split; simpl.
  - apply Forall2_app.
    + eapply Forall2_impl; [done|]. intros [l|] [Y|]; try done. intros HY. by apply (reps_other h (Some l) Y r m).
    + repeat constructor. exists m. by rewrite lookup_insert.
  - assert (∀ i, vars !! i ≠ Some (Some r)) as Hnr.
    { intros i Hi. apply Hdom in Hi as [??]. congruence. }
    intros i j l Hi Hj. apply lookup_app_Some in Hi as [Hi|[? Hi]]; apply lookup_app_Some in Hj as [Hj|[? Hj]].
    + by eapply Hinj.
    + apply list_lookup_singleton_Some in Hj as [? [= <-]]. by apply Hnr in Hi.
    + apply list_lookup_singleton_Some in Hi as [? [= <-]]. by apply Hnr in Hj.
    + apply list_lookup_singleton_Some in Hi as [? _], Hj as [? _]. lia.
Qed.
Lemma srep_update h (vars : list setvar) vs i l X m :
  srep (h, vars) vs → svar vars i = Some l → repm X m →
  srep (<[l := m]> h, vars) (<[i := Some X]> vs).
Proof.
  intros [Hv Hinj] Hi Hm. simpl in *.
  assert (vars !! i = Some (Some l)) as Hil.
  { unfold svar in Hi. destruct (vars !! i) as [[?|]|]; naive_solver. }
  split; simpl; [|done].
  apply Forall2_same_length_lookup_2.
  { rewrite insert_length. by eapply Forall2_length. }
  intros j s x Hj Hx. destruct (decide (i = j)) as [<-|Hij].
  - rewrite Hil in Hj. injection Hj as <-.
    rewrite list_lookup_insert in Hx; [|rewrite <-(Forall2_length _ _ _ Hv); by eapply lookup_lt_Some].
    injection Hx as <-. exists m. by rewrite lookup_insert.
  - rewrite list_lookup_insert_ne in Hx by done.
    pose proof (Forall2_lookup_lr _ _ _ _ _ _ Hv Hj Hx) as Hsx.
    destruct s as [l'|], x as [Y|]; try done. destruct Hsx as (m'&Hl'&Hm').
    exists m'. split; [|done]. rewrite lookup_insert_ne; [done|].
    intros <-. apply Hij. by eapply Hinj.
Qed.

Lemma sexec_ok σ o st vs :
  legal σ → srep st vs →
  (set_panics vs o ∧ sexec σ o st = Panic) ∨
  (¬ set_panics vs o ∧ ∃ r st' vs', sexec σ o st = Ok (r, st') ∧ set_spec vs o r vs' ∧ srep st' vs').
Proof.
  intros Hσ Hst. destruct st as [h vars].
  pose proof (λ i, srep_reps _ _ i Hst) as Hreps. pose proof (λ i, srep_nil _ _ i Hst) as Hnil. simpl in Hreps, Hnil.
  assert (∀ X x o, ¬ set_panics vs o → builds h X x → sexec σ o (h, vars) = spush vars x →
    (∀ vs', vs' = vs ++ [Some X] → set_spec vs o SDone vs') →
    (set_panics vs o ∧ sexec σ o (h, vars) = Panic) ∨
    (¬ set_panics vs o ∧ ∃ r st' vs', sexec σ o (h, vars) = Ok (r, st') ∧ set_spec vs o r vs' ∧ srep st' vs')) as Hpush.
  { intros X x o' Hp Hb He Hs. right. split; [done|].
    destruct (srep_push h vars vs x X Hst Hb) as (st'&Hpu&Hst').
    rewrite He, Hpu. eexists _, _, _. split; [done|]. split; [by apply Hs|done]. }
  destruct o as [|i v|i v|i v|i j|i j|i cb|i|i].
  - apply (Hpush ∅ (Ok (hmake h))); [by intros []| |done|by intros ? ->].
    destruct (hmake_eq h) as (r&Hr&->). exists r, ∅. split_and!; [done..|]. apply repm_empty.
  - simpl. destruct (svar vars i) as [l|] eqn:Ei; simpl.
    + right. split. { intros Hn%Hnil. congruence. }
      eexists _, _, _. split; [done|]. split.
      * split; [|done]. intros Hn%Hnil. congruence.
      * pose proof (reps_read _ _ _ (Hreps i)) as Hm. rewrite Ei in Hm.
        eapply srep_update; [done..|]. by apply repm_add.
    + left. split; [|done]. by apply Hnil.
  - right. split; [by intros []|]. simpl. destruct (svar vars i) as [l|] eqn:Ei; simpl.
    + eexists _, _, _. split; [done|]. split.
      * split; [done|]. split; [|done]. intros Hn%Hnil. congruence.
      * pose proof (reps_read _ _ _ (Hreps i)) as Hm. rewrite Ei in Hm.
        eapply srep_update; [done..|]. by apply repm_delete.
    + eexists _, _, vs. split; [done|]. split; [|done]. split; [done|]. split; [done|].
      intros []. by apply Hnil.
  - right. split; [by intros []|]. eexists _, _, vs. split; [done|]. split; [|done].
    simpl. split; [|done]. f_equal. by apply Includes_spec.
  - eapply Hpush; [by intros []|by apply Intersection_builds|done|by intros ? ->].
  - eapply Hpush; [by intros []|by apply Difference_builds|done|by intros ? ->].
  - eapply Hpush; [by intros []|by apply Filter_builds|done|by intros ? ->].
  - right. split; [by intros []|]. eexists _, _, vs. split; [done|]. split; [|done].
    simpl. split; [done|]. eexists. split; [done|]. unfold Set_List. specialize (Hreps i). specialize (Hnil i).
    destruct (svar vars i) as [l|] eqn:Ei.
    + split; [intros Hn%Hnil; congruence|]. intros _. eexists. split; [done|].
      pose proof (repm_vals σ 0 _ _ Hσ (reps_read _ _ _ Hreps)) as Hp. split.
      * rewrite Hp. apply NoDup_elements.
      * intros v. by rewrite Hp, elem_of_elements.
    + split; [done|]. intros []. by apply Hnil.
  - eapply Hpush; [by intros []|by apply Copy_builds|done|by intros ? ->].
Qed.

Lemma srun_ok p st vs rs st' :
  Forall (λ c, legal c.1) p → srep st vs → srun p st = Ok (rs, st') →
  ∃ vs', set_spec_run vs (map snd p) rs vs' ∧ srep st' vs'.
Proof.
  revert st vs rs st'. induction p as [|[σ o] p IH]; intros st vs rs st' Hp Hst Hr; simpl in *.
  { injection Hr as <- <-. exists vs. split; [constructor|done]. }
  apply Forall_cons_1 in Hp as [Hσ Hp].
  destruct (sexec_ok σ o st vs Hσ Hst) as [[_ He]|(_&r&st1&vs1&He&Hs&Hst1)]; rewrite He in Hr; [done|].
  destruct (srun p st1) as [[rs1 st2]| |] eqn:Er; [|done..]. injection Hr as <- <-.
  destruct (IH st1 vs1 rs1 st2 Hp Hst1 Er) as (vs2&Hrun&Hst2).
  exists vs2. split; [|done]. by econstructor.
Qed.
Lemma srep_init : srep (∅, []) [].
Proof. split; [constructor|done]. Qed.

(*P C23_sets_are_independent_values *)
(** Whatever a program does with sets, every answer is the one that independent
    mathematical sets give: no operation modifies its operands, and no two
    variables share elements. *)
Lemma p23r (p : list (schedule K * sop (K:=K))) rs st :
  Forall (λ c, legal c.1) p → srun p (∅, []) = Ok (rs, st) →
  ∃ vs, set_spec_run [] (map snd p) rs vs.
Proof.
  intros Hp Hr. destruct (srun_ok p _ _ _ _ Hp srep_init Hr) as (vs&?&_). eauto.
Qed.

(*P C23_only_panic_is_add_to_nil *)
Lemma p23p (p : list (schedule K * sop (K:=K))) σ o rs st :
  Forall (λ c, legal c.1) p → legal σ → srun p (∅, []) = Ok (rs, st) →
  ∃ vs, set_spec_run [] (map snd p) rs vs ∧
    ((set_panics vs o ∧ srun (p ++ [(σ, o)]) (∅, []) = Panic) ∨
     (¬ set_panics vs o ∧ ∃ r vs' st', srun (p ++ [(σ, o)]) (∅, []) = Ok (rs ++ [r], st') ∧ set_spec vs o r vs')).
Proof.
  intros Hp Hσ Hr. destruct (srun_ok p _ _ _ _ Hp srep_init Hr) as (vs&Hrun&Hst).
  exists vs. split; [done|].
  assert (∀ p st0 rs, srun p st0 = Ok (rs, st) → srun (p ++ [(σ, o)]) st0 =
    match sexec σ o st with Ok (r, st') => Ok (rs ++ [r], st') | Panic => Panic | OutOfFuel => OutOfFuel end) as Happ.
  { clear. intros p. induction p as [|[σ' o'] p IH]; intros st0 rs Hr; simpl in *.
    - injection Hr as <- ->. destruct (sexec σ o st) as [[r st']| |]; done.
    - destruct (sexec σ' o' st0) as [[r1 st1]| |]; [|done..].
      destruct (srun p st1) as [[rs1 st2]| |] eqn:E; [|done..]. injection Hr as <- ->.
      rewrite (IH _ _ E). destruct (sexec σ o st) as [[r st']| |]; done. }
  rewrite (Happ _ _ _ Hr).
  destruct (sexec_ok σ o st vs Hσ Hst) as [[? ->]|(?&r&st'&vs'&->&Hs&_)]; [by left|]. right. eauto 10.
Qed.

End proofs.
