(** * Exactly what a walker can deliver *)
From stdpp Require Import base list gmap relations sorting.
From Coq Require Import Lia.
From Verif Require Import GoBase SetModel DagModel DagSpec RelFacts DagWp DagInv DagOps DagMut
  DagBfs DagReduce DagObs DagRefine DagPropProofs DagTopo DagQueue WalkModel WalkObs WalkProofs WalkPropProofs.

Section walk.
Context {K : Type} `{Countable K} (next : K → goset K) (id : K).
Notation R := (R next).
Notation steps := (steps next id).
Notation step := (step next id).
Notation wstate := (wstate K).
Implicit Types (st : wstate).

(** One round of the walk. *)
Lemma round top (fifo : list K) v ks fifo' v' sent :
  some_order ks (next top) → bfs_inv R id sent (top :: fifo) → vis v (sent ++ top :: fifo) →
  foldl enqueue (fifo, v) ks = (fifo', v') →
  ∃ new, fifo' = fifo ++ new ∧ new = filter (.∉ sent ++ top :: fifo) ks ∧
    ∀ w, w ∈ new ↔ R top w ∧ w ∉ sent ++ top :: fifo.
Proof.
  intros [Hks Hks']%some_order_mem Hinv Hvis Heq.
  destruct (foldl_enqueue_filter (λ _, true) ks (sent ++ top :: fifo) fifo v Hks) as [v2 Heq2]; [by intros|].
  rewrite Heq in Heq2. injection Heq2 as -> ->. eexists. split_and!; [done..|].
  intros w. rewrite elem_of_list_filter, Hks'. unfold WalkProofs.R. naive_solver.
Qed.

(** ** What is delivered is the beginning of an order of a queue *)
Definition qinv st : Prop :=
  match pc st with
  | PInit => True
  | PLoop fifo v => queued R id (received st) (received st ++ fifo)
  | PSelect top fifo v | PSend top fifo v => queued R id (received st ++ [top]) ((received st ++ [top]) ++ fifo)
  | _ => ∃ more fifo, bfs_inv R id (received st ++ more) fifo ∧
           queued R id (received st ++ more) ((received st ++ more) ++ fifo)
  end.
Lemma step_qinv st e st' : winv next id st → qinv st → step st e st' → qinv st'.
Proof.
  intros [Hpc _] Hq Hs. unfold pc_inv, qinv in *.
  destruct Hs as [ks fifo v _ Hp Hks Hf|v _ Hp|top fifo v ks fifo' v' _ Hp Hks Hf
    |top fifo v _ Hp _|top fifo v _ Hp _ _|top fifo v _ Hp|_ Hp|_ Hp|_ _|_ _ _|_ _|_];
    simpl; try rewrite Hp in *; simpl in *; try done.
  - rewrite Hpc. destruct (foldl_enqueue_first (λ _, true) ks) as (v'&Heq&Hv').
    rewrite Hf in Heq. injection Heq as -> ->. apply some_order_mem in Hks as [Hnd Hks].
    apply queued_init. intros w. by rewrite Hks.
  - exists [], []. rewrite app_nil_r. split; [apply Hpc|done].
  - destruct Hpc as [Hinv Hvis]. destruct (round _ _ _ _ _ _ _ Hks Hinv Hvis Hf) as (new&->&_&Hnew).
    by apply queued_step.
  - exists [top], fifo. split; [apply Hpc|done].
Qed.
Lemma steps_qinv es st : steps start es st → qinv st.
Proof.
  remember (start : wstate) as st0 eqn:E. induction 1; subst; [done|].
  eapply step_qinv; [|by apply IHsteps|done]. by eapply steps_winv.
Qed.

Context (V : gset K) (HV : ∀ x y, R x y → y ∈ V).
Lemma queue_complete sent fifo :
  bfs_inv R id sent fifo → queued R id sent (sent ++ fifo) → ∃ rest, queue_order R id (sent ++ rest).
Proof.
  remember (size V - length sent) as n eqn:Hn. revert sent fifo Hn.
  induction n as [n IH] using lt_wf_ind. intros sent fifo -> Hinv Hq.
  destruct fifo as [|top fifo].
  { exists []. rewrite app_nil_r in *. apply queued_done; [by apply bfs_done|done]. }
  set (new := filter (λ w, w ∉ sent ++ top :: fifo) (map_to_list (next top)).*1).
  assert (∀ w, w ∈ new ↔ R top w ∧ w ∉ sent ++ top :: fifo) as Hnew.
  { intros w. unfold new. rewrite elem_of_list_filter.
    pose proof (some_order_mem (map_to_list (next top)).*1 (next top)) as [_ Hk]; [unfold some_order; reflexivity|].
    rewrite Hk. unfold WalkProofs.R. naive_solver. }
  assert (bfs_inv R id (sent ++ [top]) (fifo ++ new)) as Hinv'.
  { apply bfs_step; [done| |done]. apply NoDup_filter, NoDup_fst_map_to_list. }
  pose proof (bfs_inv_bound next id V HV _ _ Hinv) as Hb. rewrite app_length in Hb. simpl in Hb.
  destruct (IH (size V - length (sent ++ [top])) ltac:(rewrite app_length; simpl; lia) _ _ eq_refl Hinv') as (rest&Hrest).
  { by apply queued_step. }
  exists (top :: rest). by rewrite <-(assoc_L (++)) in Hrest.
Qed.
Lemma queue_prefix es st : steps start es st → ∃ rest, queue_order R id (received st ++ rest).
Proof.
  intros Hs. pose proof (steps_winv _ _ _ _ Hs) as [Hpc _]. pose proof (steps_qinv _ _ Hs) as Hq.
  unfold pc_inv, qinv in *. destruct (pc st) as [|fifo v|top fifo v|top fifo v| | |].
  - rewrite Hpc. simpl.
    pose proof (some_order_mem (map_to_list (next id)).*1 (next id)) as [Hnd Hk]; [unfold some_order; reflexivity|].
    apply (queue_complete [] (map_to_list (next id)).*1); [by apply bfs_init|by apply queued_init].
  - destruct Hpc as [Hpc _]. by eapply queue_complete.
  - destruct Hpc as [Hpc _]. destruct (queue_complete _ _ Hpc Hq) as [rest Hr].
    rewrite <-(assoc_L (++)) in Hr. eauto.
  - destruct Hpc as [Hpc _]. destruct (queue_complete _ _ Hpc Hq) as [rest Hr].
    rewrite <-(assoc_L (++)) in Hr. eauto.
  - destruct Hq as (more&fifo&H1&H2). destruct (queue_complete _ _ H1 H2) as [rest Hr].
    rewrite <-(assoc_L (++)) in Hr. eauto.
  - destruct Hq as (more&fifo&H1&H2). destruct (queue_complete _ _ H1 H2) as [rest Hr].
    rewrite <-(assoc_L (++)) in Hr. eauto.
  - destruct Hq as (more&fifo&H1&H2). destruct (queue_complete _ _ H1 H2) as [rest Hr].
    rewrite <-(assoc_L (++)) in Hr. eauto.
Qed.

(** ** Each such beginning can be delivered *)
Definition on_track (l : list K) (k : nat) st : Prop :=
  ∃ fifo v rest, st = W (PLoop fifo v) false false false false (take k l) ∧
    bfs_inv R id (take k l) fifo ∧ vis v (take k l ++ fifo) ∧ l = (take k l ++ fifo) ++ rest.
Lemma follow_walk l k :
  queue_order R id l → k ≤ length l → ∃ es st, steps start es st ∧ silent es ∧ on_track l k st.
Proof.
  clear HV V. intros Hl. pose proof Hl as (Hnd&Hel&Hq). induction k as [|k IH]; intros Hk.
  { set (ks0 := (map_to_list (next id)).*1).
    pose proof (some_order_mem ks0 (next id)) as [Hnd0 Hks0]; [unfold some_order; reflexivity|].
    pose proof (follow_legal l Hnd 0 ks0) as Hp.
    destruct (foldl_enqueue_first (λ _, true) (follow l 0 ks0)) as (v&Hf&Hv).
    exists ([] ++ [Walk]), (set_pc (PLoop (follow l 0 ks0) v) start). split_and!.
    - eapply steps_snoc; [constructor|]. by apply (step_init next id start (follow l 0 ks0)).
    - split; simpl; set_solver.
    - assert (∃ rest, l = follow l 0 ks0 ++ rest) as [rest Hr].
      { unfold follow. rewrite decide_True by done.
        assert (filter (.∉ l) ks0 = []) as ->.
        { destruct (filter (.∉ l) ks0) as [|w r] eqn:Hff; [done|]. exfalso.
          assert (w ∈ filter (.∉ l) ks0) as [Hw1 Hw2]%elem_of_list_filter by (rewrite Hff; set_solver).
          apply Hw1, Hel, tc_once. by apply Hks0. }
        rewrite app_nil_r. apply filter_prefix. intros i j x y Hij Hi Hj Hy%Hks0.
        destruct (Hq i j 0 id x y Hij Hi Hj eq_refl Hy) as (q&x'&Hq0&Hx'&?).
        assert (q = 0) as -> by lia. simpl in Hx'. simplify_eq. by apply Hks0. }
      exists (follow l 0 ks0), v, rest. split_and!; [done| |done|done].
      apply bfs_init; [by rewrite Hp|]. intros w. rewrite Hp. by apply Hks0. }
  destruct IH as (es&st&Hs&Hsil&fifo&v&rest&->&Hinv&Hvis&Heq); [lia|].
  destruct fifo as [|top fifo].
  { exfalso. apply bfs_done in Hinv as (_&Hall&_).
    destruct (lookup_lt_is_Some_2 l k) as [y Hy]; [lia|].
    assert (y ∈ take k l) as [i Hi]%elem_of_list_lookup.
    { apply Hall, Hel. by eapply elem_of_list_lookup_2. }
    apply lookup_take_Some in Hi as [Hi Hik]. assert (i = k) by (by eapply NoDup_lookup). lia. }
  set (ks0 := (map_to_list (next top)).*1).
  pose proof (some_order_mem ks0 (next top)) as [Hnd0 Hks0]; [unfold some_order; reflexivity|].
  pose proof (follow_legal l Hnd 0 ks0) as Hp.
  destruct (foldl enqueue (fifo, v) (follow l 0 ks0)) as [fifo' v'] eqn:Hf.
  destruct (round top fifo v (follow l 0 ks0) fifo' v' (take k l) Hp Hinv Hvis Hf) as (new&->&Hn&Hnew).
  destruct (vis_step next id top fifo v (follow l 0 ks0) _ v' (take k l) Hp Hinv Hvis Hf) as [Hinv' Hvis'].
  destruct (follow_step R id l (take k l) top fifo rest new ks0 0) as [rest' Hr]; [done..|].
  assert (take (S k) l = take k l ++ [top]) as Htake.
  { apply take_S_r. rewrite Heq. apply lookup_app_l_Some.
    rewrite lookup_app_r by (rewrite take_length; lia). rewrite take_length.
    by replace (k - k `min` length l) with 0 by lia. }
  exists (((es ++ [Walk]) ++ [Walk]) ++ [Recv top]).
  eexists. split_and!.
  - eapply steps_snoc; [eapply steps_snoc; [eapply steps_snoc; [exact Hs|]|]|].
    + eapply step_pop; [done|done| |exact Hf]. exact Hp.
    + by eapply step_default.
    + by eapply step_recv.
  - destruct Hsil as [??]. split; set_solver.
  - exists (fifo ++ new), v', rest'. rewrite Htake. by split_and!.
Qed.
Lemma follow_whole l :
  queue_order R id l → ∃ es st, steps start es st ∧ silent es ∧ pc st = PDone ∧ received st = l.
Proof.
  clear HV V. intros Hl. destruct (follow_walk l (length l) Hl) as (es&st&Hs&[Hs1 Hs2]&fifo&v&rest&->&_&_&Heq); [done|].
  rewrite take_ge in * by done.
  assert (fifo = []) as ->.
  { apply (f_equal length) in Heq. rewrite !app_length in Heq. destruct fifo; [done|simpl in Heq; lia]. }
  exists (((es ++ [Walk]) ++ [Walk]) ++ [Walk]). eexists. split_and!.
  - eapply steps_snoc; [eapply steps_snoc; [eapply steps_snoc; [exact Hs|]|]|].
    + by eapply step_empty.
    + by eapply step_close_ids.
    + by eapply step_close_signal.
  - split; set_solver.
  - done.
  - done.
Qed.
End walk.

Section props.
Context {K T : Type} `{Countable K} `{Inhabited T} (isz : K → bool).
Notation graph := (graph K T).
Implicit Types g : graph.

(*P C101_what_a_walker_delivers *)
(** A client that never signals can be the one that receives it. *)
Lemma what_a_walker_delivers g d id m :
  reachable isz g → known isz g id →
  ((∃ es st, runs isz g d id es st ∧ got es = m) ↔ ∃ rest, queue_order (follows isz g d) id (m ++ rest)) ∧
  ((∃ es st, runs isz g d id es st ∧ silent es ∧ got es = m) ↔ ∃ rest, queue_order (follows isz g d) id (m ++ rest)).
Proof.
  intros Hr Hid. pose proof (reachable_inv isz g Hr) as Hg.
  assert (∀ x y, R (neighbours d g) x y ↔ follows isz g d x y) as HR by (intros; by apply follows_R).
  assert ((∃ es st, runs isz g d id es st ∧ got es = m) → ∃ rest, queue_order (follows isz g d) id (m ++ rest)) as H1.
  { intros (es&st&Hs%runs_steps&<-). rewrite <-(steps_got _ _ _ _ _ Hs).
    destruct (queue_prefix (neighbours d g) id (dom (vertices g)) (λ x y, follows_V isz g d x y Hg) es st Hs) as [rest Hq].
    exists rest. by eapply queue_order_iff. }
  assert ((∃ rest, queue_order (follows isz g d) id (m ++ rest)) → ∃ es st, runs isz g d id es st ∧ silent es ∧ got es = m) as H2.
  { intros [rest Hq]. apply (queue_order_iff _ (R (neighbours d g))) in Hq; [|intros; symmetry; apply HR].
    destruct (follow_walk (neighbours d g) id (m ++ rest) (length m) Hq) as (es&st&Hs&Hsil&fifo&v&r&->&_).
    { rewrite app_length. lia. }
    exists es. eexists. split_and!; [|done|].
    - exists start. split; [|exact Hs]. pose proof (p17e isz d g id Hr) as Hw.
      destruct (Walker isz d g id) as [e|st0]; [by apply known_fv in Hw|]. destruct Hw as [_ ->]. done.
    - apply steps_got in Hs. rewrite <-Hs. simpl. by rewrite take_app. }
  split; split; [done| |naive_solver|done]. intros Hq. destruct (H2 Hq) as (es&st&?&_&?). eauto.
Qed.

(*P C101_walkers_and_ordered_queries *)
Lemma walker_vs_query g d id m :
  reachable isz g → known isz g id →
  (∃ es st, runs isz g d id es st ∧ got es = m) ↔
  ∃ rest σ g', legal σ ∧
    call isz σ (match d with Ancestors => OpGetOrderedAncestors id | Descendants => OpGetOrderedDescendants id end) g =
      Ok (RList (inr (m ++ rest)), g').
Proof.
  intros Hr Hid. destruct (what_a_walker_delivers g d id m Hr Hid) as [-> _].
  apply exist_proper. intros rest. symmetry. destruct d; [by apply which_ancestors|by apply which_descendants].
Qed.

(*P C101_what_a_patient_client_gets *)
Lemma patient_client g d id l :
  reachable isz g → known isz g id →
  (∃ es st, runs isz g d id es st ∧ silent es ∧ pc st = PDone ∧ got es = l) ↔ queue_order (follows isz g d) id l.
Proof.
  intros Hr Hid. pose proof (reachable_inv isz g Hr) as Hg.
  assert (∀ x y, R (neighbours d g) x y ↔ follows isz g d x y) as HR by (intros; by apply follows_R).
  split.
  - intros (es&st&Hs&Hsil&Hpc&<-).
    destruct (proj1 (proj1 (what_a_walker_delivers g d id (got es) Hr Hid))) as (rest&Hq); [eauto|].
    assert (rest = []) as ->; [|by rewrite app_nil_r in Hq].
    destruct rest as [|y rest]; [done|]. exfalso. destruct Hq as (Hnd&Hel&_).
    destruct (p17b isz g d id es st any_order (size (vertices g)) g Hr Hs Hsil) as (_&_&Hend); [done|].
    assert (bfs_order (follows isz g d) id (got es)) as (_&Hall&_).
    { destruct Hend as [(e&st'&He&Hst)|(_&?&_)]; [|done]. exfalso. unfold wstep in Hst.
      destruct Hst; simpl in He; congruence. }
    apply NoDup_app in Hnd as (_&Hd&_). apply (Hd y); [|set_solver]. apply Hall, Hel. set_solver.
  - intros Hq. apply (queue_order_iff _ (R (neighbours d g))) in Hq; [|intros; symmetry; apply HR].
    destruct (follow_whole (neighbours d g) id l Hq) as (es&st&Hs&Hsil&Hpc&Hrec).
    exists es, st. split_and!; [|done..|].
    + exists start. split; [|exact Hs]. pose proof (p17e isz d g id Hr) as Hw.
      destruct (Walker isz d g id) as [e|st0]; [by apply known_fv in Hw|]. destruct Hw as [_ ->]. done.
    + apply steps_got in Hs. by rewrite <-Hs.
Qed.
End props.
