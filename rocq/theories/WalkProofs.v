(** * Proofs about the walker goroutines *)
From stdpp Require Import base list gmap relations sorting.
From Verif Require Import GoBase SetModel DagModel DagSpec RelFacts DagWp DagInv DagOps DagMut
  DagBfs DagReduce DagObs DagRefine WalkModel WalkObs.

Section walk.
Context {K : Type} `{Countable K} (next : K → goset K) (id : K).
Notation wstate := (wstate K).
Notation event := (event K).
Notation step := (step next id).
Notation steps := (steps next id).
Implicit Types (st : wstate) (e : event) (es : list event).

Definition R : relation K := λ s t, mem t (next s).

Notation recvs := got.

Lemma steps_app_inv st es1 es2 st' :
  steps st (es1 ++ es2) st' → ∃ st1, steps st es1 st1 ∧ steps st1 es2 st'.
Proof.
  remember (es1 ++ es2) as es eqn:Heq. intros Hs. revert es1 es2 Heq.
  induction Hs as [st|st es st1 e st2 H1 IH H2]; intros es1 es2 Heq.
  { symmetry in Heq. apply app_nil in Heq as [-> ->]. exists st. split; constructor. }
  destruct es2 as [|e' es2 _] using rev_ind.
  { rewrite app_nil_r in Heq. subst es1. exists st2. split; [by econstructor|constructor]. }
  rewrite (assoc_L (++)) in Heq. apply app_inj_tail in Heq as [-> ->].
  destruct (IH _ _ eq_refl) as (st3&?&?). exists st3. split; [done|]. by econstructor.
Qed.
Lemma steps_cons_inv st e es st' :
  steps st (e :: es) st' → ∃ st1, step st e st1 ∧ steps st1 es st'.
Proof.
  intros (st1&H1&H2)%(steps_app_inv st [e]). exists st1. split; [|done].
  remember [e] as l eqn:El. destruct H1 as [st|st es' st0 e' st1 Hs1 He]; [done|].
  destruct es' as [|? [|??]]; simpl in El; [|done..]. injection El as ->.
  clear H2. remember [] as l eqn:El. destruct Hs1 as [|? es0]; [done|]. by destruct es0.
Qed.

Lemma steps_received st es st' : steps st es st' → received st' = received st ++ recvs es.
Proof.
  induction 1 as [st|st es st1 e st2 H1 IH H2]; [by rewrite app_nil_r|].
  unfold got in *. rewrite omap_app, (assoc_L (++)), <-IH.
  destruct H2; simpl; by rewrite ?app_nil_r.
Qed.

Lemma some_order_mem (ks : list K) (s : goset K) : some_order ks s → NoDup ks ∧ ∀ k, k ∈ ks ↔ mem k s.
Proof.
  intros Hp. split.
  - rewrite Hp. apply NoDup_fst_map_to_list.
  - intros k. rewrite Hp, elem_of_list_fmap. unfold mem. split.
    + intros ([a b]&->&Hab%elem_of_map_to_list). by exists b.
    + intros [v Hv]. exists (k, v). by rewrite elem_of_map_to_list.
Qed.

Definition vis (v : goset K) (l : list K) : Prop := ∀ w, mem w v ↔ w ∈ l.

(** The part of the invariant that holds whatever the client does. *)
Definition pc_inv st : Prop :=
  match pc st with
  | PInit => received st = []
  | PLoop fifo v => bfs_inv R id (received st) fifo ∧ vis v (received st ++ fifo)
  | PSelect top fifo v | PSend top fifo v =>
      bfs_inv R id (received st ++ [top]) fifo ∧ vis v ((received st ++ [top]) ++ fifo)
  | _ => ∃ more fifo, bfs_inv R id (received st ++ more) fifo
  end.
Definition closed_inv st : Prop :=
  ids_closed st = match pc st with PCloseSignal | PDone => true | _ => false end.
Definition winv st : Prop := pc_inv st ∧ closed_inv st.

Lemma vis_step top (fifo : list K) v ks fifo' v' sent :
  some_order ks (next top) → bfs_inv R id sent (top :: fifo) → vis v (sent ++ top :: fifo) →
  foldl enqueue (fifo, v) ks = (fifo', v') →
  bfs_inv R id (sent ++ [top]) fifo' ∧ vis v' ((sent ++ [top]) ++ fifo').
Proof.
  intros [Hks Hks']%some_order_mem Hinv Hvis Heq.
  destruct (foldl_enqueue (λ _, true) ks fifo v Hks) as (new&v1&Heq'&Hnd&Hnew&Hvis').
  rewrite Heq in Heq'. injection Heq' as -> ->. split.
  - apply bfs_step; [done..|]. intros w. by rewrite Hnew, Hks', (Hvis w).
  - intros w. rewrite (Hvis' w), (Hvis w).
    assert (w ∈ new ↔ w ∈ ks ∧ w ∉ sent ++ top :: fifo) as Hw by (by rewrite Hnew, (Hvis w)).
    rewrite !elem_of_app, !elem_of_cons in *.
    destruct (decide (w ∈ sent ∨ w = top ∨ w ∈ fifo)); set_solver.
Qed.

Lemma step_winv st e st' : winv st → step st e st' → winv st'.
Proof.
  intros [Hpc Hcl] Hs. unfold winv, pc_inv, closed_inv in *.
  destruct Hs as [ks fifo v _ Hp Hks Hf|v _ Hp|top fifo v ks fifo' v' _ Hp Hks Hf
    |top fifo v _ Hp _|top fifo v _ Hp _ _|top fifo v _ Hp|_ Hp|_ Hp|_ _|_ _ _|_ _|_];
    simpl; try rewrite Hp in *; simpl in *; try done.
  - split; [|done]. rewrite Hpc. destruct (foldl_enqueue_first (λ _, true) ks) as (v'&Heq&Hv').
    rewrite Hf in Heq. injection Heq as -> ->. apply some_order_mem in Hks as [Hnd Hks].
    split; [|by intros w; rewrite (Hv' w)]. apply bfs_init; [done|]. intros w. by rewrite Hks.
  - split; [|done]. exists [], []. rewrite app_nil_r. apply Hpc.
  - split; [|done]. destruct Hpc. by eapply vis_step.
  - split; [|done]. exists [top], fifo. apply Hpc.
Qed.
Lemma start_winv : winv start.
Proof. done. Qed.
Lemma steps_winv es st : steps start es st → winv st.
Proof.
  remember (start : wstate) as st0 eqn:E. induction 1; subst; [apply start_winv|].
  eapply step_winv; [|done]. by apply IHsteps.
Qed.

(** ** Every prefix can be completed *)
Context (V : gset K) (HV : ∀ x y, R x y → y ∈ V).

Lemma bfs_inv_bound sent fifo : bfs_inv R id sent fifo → length (sent ++ fifo) ≤ size V.
Proof.
  intros Hinv. rewrite <-(size_list_to_set (C:=gset K)) by apply Hinv.
  apply subseteq_size. intros y. rewrite elem_of_list_to_set. intros Hy.
  destruct (bfs_reach _ _ _ _ Hinv y Hy) as [d Hd%dist_tc].
  apply tc_last in Hd as (z&_&Hz). by eapply HV.
Qed.
Lemma bfs_complete sent fifo :
  bfs_inv R id sent fifo → ∃ rest, bfs_order R id (sent ++ rest).
Proof.
  remember (size V - length sent) as n eqn:Hn. revert sent fifo Hn.
  induction n as [n IH] using lt_wf_ind. intros sent fifo -> Hinv.
  destruct fifo as [|top fifo].
  { exists []. rewrite app_nil_r. by apply bfs_done. }
  set (new := filter (λ w, w ∉ sent ++ top :: fifo) (map_to_list (next top)).*1).
  assert (bfs_inv R id (sent ++ [top]) (fifo ++ new)) as Hinv'.
  { apply bfs_step; [done| |].
    - apply NoDup_filter, NoDup_fst_map_to_list.
    - intros w. unfold new. rewrite elem_of_list_filter.
      pose proof (some_order_mem (map_to_list (next top)).*1 (next top)) as [_ Hk]; [unfold some_order; reflexivity|].
      rewrite Hk. unfold R. naive_solver. }
  pose proof (bfs_inv_bound _ _ Hinv) as Hb. rewrite app_length in Hb. simpl in Hb.
  destruct (IH (size V - length (sent ++ [top])) ltac:(rewrite app_length; simpl; lia) _ _ eq_refl Hinv') as (rest&Hrest).
  exists (top :: rest). by rewrite <-(assoc_L (++)) in Hrest.
Qed.
Lemma winv_prefix st : winv st → ∃ rest, bfs_order R id (received st ++ rest).
Proof.
  intros [Hpc _]. unfold pc_inv in Hpc. destruct (pc st) as [|fifo v|top fifo v|top fifo v| | |].
  - rewrite Hpc. simpl.
    destruct (bfs_complete [] (map_to_list (next id)).*1) as (rest&Hrest); [|eauto].
    apply bfs_init; [apply NoDup_fst_map_to_list|]. intros w.
    pose proof (some_order_mem (map_to_list (next id)).*1 (next id)) as [_ Hk]; [unfold some_order; reflexivity|].
    by rewrite Hk.
  - destruct Hpc as [Hpc _]. by eapply bfs_complete.
  - destruct Hpc as [Hpc _]. apply bfs_complete in Hpc as (rest&Hrest).
    rewrite <-(assoc_L (++)) in Hrest. eauto.
  - destruct Hpc as [Hpc _]. apply bfs_complete in Hpc as (rest&Hrest).
    rewrite <-(assoc_L (++)) in Hrest. eauto.
  - destruct Hpc as (more&fifo&Hpc). apply bfs_complete in Hpc as (rest&Hrest).
    rewrite <-(assoc_L (++)) in Hrest. eauto.
  - destruct Hpc as (more&fifo&Hpc). apply bfs_complete in Hpc as (rest&Hrest).
    rewrite <-(assoc_L (++)) in Hrest. eauto.
  - destruct Hpc as (more&fifo&Hpc). apply bfs_complete in Hpc as (rest&Hrest).
    rewrite <-(assoc_L (++)) in Hrest. eauto.
Qed.

(** ** The goroutine takes a bounded number of steps *)
Definition measure st : nat :=
  let n := size V - length (received st) in
  match pc st with
  | PInit => 3 * n + 6
  | PLoop _ _ => 3 * n + 5
  | PSelect _ _ _ => 3 * n + 4
  | PSend _ _ _ => 3 * n + 3
  | PCloseIds => 2
  | PCloseSignal => 1
  | PDone => 0
  end.
Lemma step_measure st e st' :
  winv st → step st e st' →
  (if goroutine_step e then 1 else 0) + measure st' ≤ measure st.
Proof.
  intros [Hpc _] Hs. unfold measure, pc_inv in *.
  destruct Hs as [ks fifo v _ Hp Hks Hf|v _ Hp|top fifo v ks fifo' v' _ Hp Hks Hf
    |top fifo v _ Hp _|top fifo v _ Hp _ _|top fifo v _ Hp|_ Hp|_ Hp|_ _|_ _ _|_ _|_];
    simpl in *; try rewrite Hp in *; simpl in *; try lia.
  destruct Hpc as [Hinv _]. apply bfs_inv_bound in Hinv. rewrite !app_length in *. simpl in *. lia.
Qed.
Lemma steps_measure es st :
  steps start es st → length (filter (λ e, goroutine_step e = true) es) + measure st ≤ 3 * size V + 6.
Proof.
  intros Hs. assert (length (filter (λ e, goroutine_step e = true) es) + measure st ≤ measure start) as Hle.
  2: { unfold measure at 2 in Hle. simpl in *. lia. }
  remember (start : wstate) as st0 eqn:E. induction Hs as [|st0 es st1 e st2 H1 IH H2]; subst.
  { simpl. lia. }
  specialize (IH eq_refl). pose proof (step_measure _ _ _ (steps_winv _ _ H1) H2) as Hm.
  rewrite filter_app, app_length. cbn [filter list_filter].
  destruct (goroutine_step e); simpl in *; lia.
Qed.

(** A goroutine that has not ended can move, or can be received from. *)
Lemma winv_progress st :
  crashed st = false → pc st ≠ PDone → ∃ e st', goroutine_step e = true ∧ step st e st'.
Proof.
  intros Hc Hd. destruct (pc st) as [|[|top fifo] v|top fifo v|top fifo v| | |] eqn:Hp; [..|done].
  - destruct (foldl enqueue_first ([], ∅) (map_to_list (next id)).*1) as [fifo v] eqn:Hf.
    eexists Walk, _. split; [done|]. eapply step_init; [done|done|unfold some_order; reflexivity|done].
  - eexists Walk, _. split; [done|]. by eapply step_empty.
  - destruct (foldl enqueue (fifo, v) (map_to_list (next top)).*1) as [fifo' v'] eqn:Hf.
    eexists Walk, _. split; [done|]. eapply step_pop; [done|done|unfold some_order; reflexivity|done].
  - destruct (sig_full st) eqn:Hs1; [|destruct (sig_closed st) eqn:Hs2].
    + eexists Walk, _. split; [done|]. eapply step_stop; eauto.
    + eexists Walk, _. split; [done|]. eapply step_stop; eauto.
    + eexists Walk, _. split; [done|]. by eapply step_default.
  - eexists (Recv top), _. split; [done|]. by eapply step_recv.
  - eexists Walk, _. split; [done|]. by eapply step_close_ids.
  - eexists Walk, _. split; [done|]. by eapply step_close_signal.
Qed.

(** ** A client that does not use [signal] *)
Definition quiet_inv st : Prop :=
  sig_full st = false ∧ crashed st = false ∧
  match pc st with
  | PCloseIds | PCloseSignal => sig_closed st = false ∧ bfs_inv R id (received st) []
  | PDone => sig_closed st = true ∧ bfs_inv R id (received st) []
  | _ => sig_closed st = false
  end.
Lemma steps_quiet es st : steps start es st → silent es → quiet_inv st.
Proof.
  remember (start : wstate) as st0 eqn:E. induction 1 as [|st0 es st1 e st2 H1 IH H2]; subst; [done|].
  intros [Hq1 Hq2]. rewrite !not_elem_of_app, !not_elem_of_cons in Hq1, Hq2.
  specialize (IH eq_refl (conj (proj1 Hq1) (proj1 Hq2))) as (Hf&Hc&Hpc).
  pose proof (steps_winv _ _ H1) as [Hw _]. unfold pc_inv in Hw. unfold quiet_inv in *.
  destruct H2 as [ks fifo v _ Hp Hks Hf'|v _ Hp|top fifo v ks fifo' v' _ Hp Hks Hf'
    |top fifo v _ Hp Hst|top fifo v _ Hp _ _|top fifo v _ Hp|_ Hp|_ Hp|_ _|_ _ _|_ _|_];
    simpl in *; try rewrite Hp in *; simpl in *; try done.
  - by destruct Hw.
  - destruct Hst; congruence.
  - naive_solver.
  - naive_solver.
  - naive_solver.
  - naive_solver.
Qed.

(** ** A client that has signalled *)
Definition flagged st : Prop :=
  sig_full st = true ∨ sig_closed st = true ∨ crashed st = true ∨
  match pc st with PCloseIds | PCloseSignal | PDone => True | _ => False end.
Definition budget st : nat := match pc st with PSend _ _ _ => 1 | _ => 0 end.
Lemma step_flagged st e st' :
  flagged st → step st e st' → flagged st' ∧ length (recvs [e]) + budget st' ≤ budget st.
Proof.
  intros Hfl Hs. unfold flagged, budget in *.
  destruct Hs as [ks fifo v Hc Hp Hks Hf'|v Hc Hp|top fifo v ks fifo' v' Hc Hp Hks Hf'
    |top fifo v Hc Hp Hst|top fifo v Hc Hp Hs1 Hs2|top fifo v Hc Hp|Hc Hp|Hc Hp|Hc _|Hc _ _|Hc _|Hc];
    simpl in *; try rewrite Hp in *; simpl in *;
    (split; [|first [lia|exfalso; rewrite Hc, Hs1, Hs2 in Hfl; by destruct Hfl as [?|[?|[?|?]]]]]);
    rewrite ?Hc in *; destruct Hfl as [?|[?|[?|?]]]; try done; try (by left); try (by right; left); try (by right; right; left); try (by right; right; right).
Qed.
Lemma steps_flagged st es st' :
  flagged st → steps st es st' → flagged st' ∧ length (recvs es) + budget st' ≤ budget st.
Proof.
  intros Hfl. induction 1 as [st|st es st1 e st2 H1 IH H2].
  { split; [done|]. simpl. lia. }
  destruct (IH Hfl) as [Hfl1 Hb1]. destruct (step_flagged _ _ _ Hfl1 H2) as [Hfl2 Hb2].
  split; [done|]. unfold got in *. rewrite omap_app, app_length. lia.
Qed.
Lemma signal_flagged st st' : step st Signal st' → flagged st' ∧ pc st' = pc st.
Proof. unfold flagged. inversion 1; subst; simpl; naive_solver. Qed.
Lemma close_flagged st st' : step st CloseSignal st' → flagged st' ∧ pc st' = pc st.
Proof. unfold flagged. inversion 1; subst; simpl; naive_solver. Qed.


(** Without a close by the client, [signal] is closed only after [ids]. *)
Lemma steps_noclose es st :
  steps start es st → CloseSignal ∉ es →
  (sig_closed st = true → pc st = PDone) ∧ (crashed st = true → pc st = PDone).
Proof.
  remember (start : wstate) as st0 eqn:E. induction 1 as [|st0 es st1 e st2 H1 IH H2]; subst; [done|].
  intros Hq. rewrite !not_elem_of_app, !not_elem_of_cons in Hq.
  specialize (IH eq_refl (proj1 Hq)) as (Hcl&Hcr).
  destruct H2 as [ks fifo v Hc Hp Hks Hf'|v Hc Hp|top fifo v ks fifo' v' Hc Hp Hks Hf'
    |top fifo v Hc Hp Hst|top fifo v Hc Hp _ _|top fifo v Hc Hp|Hc Hp|Hc Hp|Hc _|Hc Hs1 _|Hc Hs|Hc];
    simpl in *; try rewrite Hp in *; rewrite ?Hc in *; try done; try naive_solver.
Qed.

(** A flagged goroutine that is not sending moves until it ends. *)
Lemma flagged_moves st :
  flagged st → budget st = 0 → crashed st = false → pc st ≠ PDone → ∃ st', step st Walk st'.
Proof.
  intros Hfl Hb Hc Hd. destruct (winv_progress st Hc Hd) as (e&st'&He&Hs).
  destruct e; try done; [eauto|]. exfalso. inversion Hs; subst.
  unfold budget in Hb. by destruct (pc st).
Qed.

(** After a close by the client, the end of the goroutine is a panic. *)
Definition doomed st : Prop := sig_closed st = true ∧ (pc st = PDone → crashed st = true).
Lemma step_doomed st e st' : doomed st → step st e st' → doomed st'.
Proof.
  intros [Hcl Hd] Hs. unfold doomed.
  destruct Hs as [ks fifo v Hc Hp Hks Hf'|v Hc Hp|top fifo v ks fifo' v' Hc Hp Hks Hf'
    |top fifo v Hc Hp Hst|top fifo v Hc Hp _ _|top fifo v Hc Hp|Hc Hp|Hc Hp|Hc _|Hc Hs1 _|Hc Hs|Hc];
    simpl in *; try rewrite Hp in *; rewrite ?Hc in *; try done; naive_solver.
Qed.
Lemma steps_doomed st es st' : doomed st → steps st es st' → doomed st'.
Proof. intros Hd. induction 1; [done|]. eauto using step_doomed. Qed.
Lemma close_doomed st st' : step st CloseSignal st' → sig_closed st = false → pc st ≠ PDone → doomed st'.
Proof. unfold doomed. inversion 1; subst; simpl; naive_solver. Qed.
End walk.
