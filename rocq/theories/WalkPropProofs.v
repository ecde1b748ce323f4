(** * Proofs of the properties of the walkers *)
From stdpp Require Import base list gmap relations sorting.
From Verif Require Import GoBase SetModel DagModel DagSpec RelFacts DagWp DagInv DagOps DagMut
  DagBfs DagReduce DagObs DagRefine DagPropProofs DagExample WalkModel WalkObs WalkProofs.

Section props.
Context {K T : Type} `{Countable K} `{Inhabited T} (isz : K → bool).
Notation graph := (graph K T).
Implicit Types g : graph.

Lemma follows_R g d x y : inv isz g → R (neighbours d g) x y ↔ follows isz g d x y.
Proof.
  intros Hg. unfold R, neighbours, follows. destruct d; simpl.
  - unfold flip. rewrite has_edge_abs, edge_abs by done. symmetry. apply (inv_mirror isz g Hg).
  - by rewrite has_edge_abs, edge_abs by done.
Qed.
Lemma follows_V g d x y : inv isz g → R (neighbours d g) x y → y ∈ dom (vertices g).
Proof.
  intros Hg Hxy. apply follows_R in Hxy; [|done]. apply elem_of_dom.
  destruct d; simpl in Hxy; unfold flip in *; rewrite has_edge_abs, edge_abs in Hxy by done;
    by apply (inv_dom isz g Hg) in Hxy as [??].
Qed.
Lemma runs_steps g d id es st :
  runs isz g d id es st → steps (neighbours d g) id start es st.
Proof.
  intros (st0&Hw&Hs). unfold Walker in Hw. destruct (checkVertexID isz g id); [done|].
  by injection Hw as <-.
Qed.
Lemma steps_got g d id es st : steps (neighbours d g) id start es st → received st = got es.
Proof. intros Hs%steps_received. done. Qed.

(*P C17_walker_errors *)
Lemma p17e d g id :
  reachable isz g →
  match Walker isz d g id with
  | inl e => first_violated (vertex_conditions isz g id) (Some e)
  | inr st => first_violated (vertex_conditions isz g id) None ∧ st = start
  end.
Proof.
  intros Hg%reachable_inv. pose proof (vertex_err_fv isz g id Hg) as Hfv.
  rewrite vertex_err_abs in Hfv. unfold Walker. by destruct (checkVertexID isz g id).
Qed.

(*P C17_prefix_of_breadth_first_order *)
Lemma p17a g d id es st :
  reachable isz g → runs isz g d id es st →
  ∃ rest, bfs_order (follows isz g d) id (got es ++ rest).
Proof.
  intros Hg%reachable_inv Hs%runs_steps.
  rewrite <-(steps_got _ _ _ _ _ Hs).
  destruct (winv_prefix (neighbours d g) id (dom (vertices g))
    (λ x y, follows_V g d x y Hg) st) as (rest&Hrest).
  { by eapply steps_winv. }
  exists rest. eapply bfs_order_iff; [|done]. intros. by apply follows_R.
Qed.

(*P C17_silent_client_gets_everything *)
(** The goroutine takes at most [3 * order + 6] steps, it is never stuck as long as
    the client keeps receiving, and when it has ended everything has been delivered
    and the client sees the end of the channel. *)
Lemma p17b g d id es st σ order g' :
  reachable isz g → runs isz g d id es st → silent es →
  call isz σ OpGetOrder g = Ok (RInt order, g') →
  crashed st = false ∧
  length (filter (λ e, goroutine_step e = true) es) ≤ 3 * order + 6 ∧
  ((∃ e st', goroutine_step e = true ∧ wstep g d id st e st') ∨
   (pc st = PDone ∧ bfs_order (follows isz g d) id (got es) ∧ wstep g d id st SeeEnd st)).
Proof.
  intros Hg%reachable_inv Hs%runs_steps Hq Ho.
  assert (order = size (dom (vertices g))) as ->.
  { unfold call in Ho. simpl in Ho. injection Ho as <- _. by rewrite size_dom. }
  pose proof (steps_quiet _ _ _ _ Hs Hq) as (Hf&Hc&Hpc).
  pose proof (steps_measure _ _ _ (λ x y, follows_V g d x y Hg) _ _ Hs) as Hm.
  pose proof (steps_winv _ _ _ _ Hs) as [_ Hcl]. unfold closed_inv in Hcl.
  split; [done|]. split; [lia|].
  destruct (pc st) eqn:Hp; [..|right].
  1-6: left; apply (winv_progress (neighbours d g) id); [done|by rewrite Hp].
  split_and!; [done| |].
  - rewrite <-(steps_got _ _ _ _ _ Hs). eapply bfs_order_iff; [|by apply bfs_done; apply Hpc].
    intros. by apply follows_R.
  - by apply step_see_end.
Qed.

(*P C18_at_most_one_id_after_the_signal *)
Lemma p18a g d id es1 es2 st :
  runs isz g d id (es1 ++ Signal :: es2) st → length (got es2) ≤ 1.
Proof.
  intros Hs%runs_steps. apply steps_app_inv in Hs as (st1&_&Hs).
  apply steps_cons_inv in Hs as (st2&Hsig&Hs). apply signal_flagged in Hsig as [Hfl _].
  apply steps_flagged in Hs as [_ Hb]; [|done].
  unfold budget in Hb. destruct (pc st2); lia.
Qed.

(*P C18_receiving_client_sees_the_end *)
(** Whenever the client signals: as long as it goes on receiving, the goroutine
    moves on, a bounded number of times, until [ids] is closed. *)
Lemma p18b g d id es st σ order g' :
  reachable isz g → runs isz g d id es st → CloseSignal ∉ es →
  call isz σ OpGetOrder g = Ok (RInt order, g') →
  length (filter (λ e, goroutine_step e = true) es) ≤ 3 * order + 6 ∧
  ((∃ e st', goroutine_step e = true ∧ wstep g d id st e st') ∨ ids_closed st = true).
Proof.
  intros Hg%reachable_inv Hs%runs_steps Hq Ho.
  assert (order = size (dom (vertices g))) as ->.
  { unfold call in Ho. simpl in Ho. injection Ho as <- _. by rewrite size_dom. }
  pose proof (steps_measure _ _ _ (λ x y, follows_V g d x y Hg) _ _ Hs) as Hm.
  split; [lia|]. pose proof (steps_noclose _ _ _ _ Hs Hq) as [Hcl Hcr].
  pose proof (steps_winv _ _ _ _ Hs) as [_ Hci]. unfold closed_inv in Hci.
  destruct (crashed st) eqn:Hc.
  { right. by rewrite Hci, Hcr. }
  destruct (ids_closed st); [by right|left].
  apply (winv_progress (neighbours d g) id); [done|]. intros Hp. by rewrite Hp in Hci.
Qed.

(*P C49_signal_while_not_sending_ends_the_walker *)
(** A signal sent while the goroutine is not blocked in its send: with no receive at
    all, it goes on by itself until it has ended. *)
Lemma p49 g d id es1 st1 st2 es st3 :
  runs isz g d id es1 st1 → wstep g d id st1 Signal st2 → (∀ k fifo v, pc st1 ≠ PSend k fifo v) →
  steps (neighbours d g) id st2 es st3 → crashed st3 = false →
  (∃ st4, wstep g d id st3 Walk st4) ∨ pc st3 = PDone.
Proof.
  intros _ Hsig Hns Hs Hc. apply signal_flagged in Hsig as [Hfl Hpc].
  destruct (steps_flagged _ _ _ _ _ Hfl Hs) as [Hfl' Hb].
  assert (budget st2 = 0) as Hb2.
  { unfold budget. rewrite Hpc. destruct (pc st1) eqn:E; try done. by destruct (Hns top fifo visited). }
  destruct (pc st3) eqn:Hp; [..|by right].
  1-6: left; apply flagged_moves; [done|lia|done|by rewrite Hp].
Qed.

(*P C19_signal_is_safe_before_the_end_partial *)
(** The true part: before it has received the last id, a client that has not
    signalled yet can signal without panic and without blocking. *)
Lemma p19p g d id es st :
  reachable isz g → runs isz g d id es st → silent es →
  ¬ bfs_order (follows isz g d) id (got es) →
  (∃ st', wstep g d id st Signal st') ∧ (∀ st', wstep g d id st Signal st' → crashed st' = false).
Proof.
  intros Hg%reachable_inv Hs%runs_steps Hq Hn.
  pose proof (steps_quiet _ _ _ _ Hs Hq) as (Hf&Hc&Hpc).
  assert (sig_closed st = false) as Hcl.
  { destruct (pc st); try done; try apply Hpc. exfalso. apply Hn.
    rewrite <-(steps_got _ _ _ _ _ Hs). eapply bfs_order_iff; [|by apply bfs_done; apply Hpc].
    intros. by apply follows_R. }
  split.
  - eexists. by apply step_signal.
  - intros st' Hst'. inversion Hst'; subst; [done|congruence].
Qed.

(*P C50_closing_the_signal_channel_crashes *)
(** Once the client has closed [signal] of a goroutine that has not ended, the
    goroutine cannot end without a panic. *)
Lemma p50 g d id es1 es2 st :
  reachable isz g → runs isz g d id (es1 ++ CloseSignal :: es2) st → silent es1 →
  ¬ bfs_order (follows isz g d) id (got es1) → pc st = PDone → crashed st = true.
Proof.
  intros Hg%reachable_inv Hs%runs_steps Hq Hn Hd.
  apply steps_app_inv in Hs as (st1&Hs1&Hs). apply steps_cons_inv in Hs as (st2&Hcs&Hs).
  pose proof (steps_quiet _ _ _ _ Hs1 Hq) as (Hf&Hc&Hpc).
  assert (sig_closed st1 = false ∧ pc st1 ≠ PDone) as [Hcl Hnd].
  { destruct (pc st1); try done; try (split; [apply Hpc|done]). exfalso. apply Hn.
    rewrite <-(steps_got _ _ _ _ _ Hs1). eapply bfs_order_iff; [|by apply bfs_done; apply Hpc].
    intros. by apply follows_R. }
  pose proof (close_doomed _ _ _ _ Hcs Hcl Hnd) as Hdo.
  by apply (steps_doomed _ _ _ _ _ Hdo Hs).
Qed.
End props.
