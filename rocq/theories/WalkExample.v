(** * Concrete executions of the walkers, and two refutations *)
From stdpp Require Import base list gmap relations sorting.
From Verif Require Import GoBase SetModel DagModel DagSpec DagObs DagExample WalkModel WalkObs
  WalkProofs.

Section exec.
Context {K : Type} `{Countable K} (next : K → goset K) (id : K).
Notation wstate := (wstate K).

(** One execution of the goroutine, with one iteration order of the maps. *)
Definition wexec (st : wstate) (e : event K) : option wstate :=
  if crashed st then None else
  match e with
  | Walk =>
      match pc st with
      | PInit => let '(f, v) := foldl enqueue_first ([], ∅) (map_to_list (next id)).*1 in
                 Some (set_pc (PLoop f v) st)
      | PLoop [] v => Some (set_pc PCloseIds st)
      | PLoop (top :: f) v =>
          let '(f', v') := foldl enqueue (f, v) (map_to_list (next top)).*1 in
          Some (set_pc (PSelect top f' v') st)
      | PSelect top f v =>
          if sig_full st || sig_closed st
          then Some (W PCloseIds (ids_closed st) false (sig_closed st) false (received st))
          else Some (set_pc (PSend top f v) st)
      | PSend _ _ _ => None
      | PCloseIds => Some (W PCloseSignal true (sig_full st) (sig_closed st) false (received st))
      | PCloseSignal => Some (W PDone (ids_closed st) (sig_full st) true (sig_closed st) (received st))
      | PDone => None
      end
  | Recv k =>
      match pc st with
      | PSend top f v =>
          if decide (k = top)
          then Some (W (PLoop f v) (ids_closed st) (sig_full st) (sig_closed st) false (received st ++ [top]))
          else None
      | _ => None
      end
  | SeeEnd => if ids_closed st then Some st else None
  | Signal =>
      if sig_closed st then Some (W (pc st) (ids_closed st) (sig_full st) true true (received st))
      else if sig_full st then None
      else Some (W (pc st) (ids_closed st) true (sig_closed st) false (received st))
  | CloseSignal => Some (W (pc st) (ids_closed st) (sig_full st) true (sig_closed st) (received st))
  end.
Lemma wexec_step st e st' : wexec st e = Some st' → step next id st e st'.
Proof.
  unfold wexec. destruct (crashed st) eqn:Hc; [done|].
  destruct e as [|k| | |].
  - destruct (pc st) as [|[|top f] v|top f v|top f v| | |] eqn:Hp; [..|done].
    + destruct (foldl _ _ _) as [f v] eqn:Hf. intros [= <-].
      eapply step_init; [done|done|unfold some_order; reflexivity|done].
    + intros [= <-]. by eapply step_empty.
    + destruct (foldl _ _ _) as [f' v'] eqn:Hf. intros [= <-].
      eapply step_pop; [done|done|unfold some_order; reflexivity|done].
    + destruct (sig_full st) eqn:H1; [|destruct (sig_closed st) eqn:H2]; simpl; intros [= <-].
      * eapply step_stop; eauto.
      * rewrite <-H2 at 1. eapply step_stop; eauto.
      * by eapply step_default.
    + done.
    + intros [= <-]. by eapply step_close_ids.
    + intros [= <-]. by eapply step_close_signal.
  - destruct (pc st) as [|[|top f] v|top f v|top f v| | |] eqn:Hp; try done.
    destruct (decide _) as [->|]; [|done]. intros [= <-]. by eapply step_recv.
  - destruct (ids_closed st) eqn:Hi; [|done]. intros [= <-]. by apply step_see_end.
  - destruct (sig_closed st) eqn:H1; [intros [= <-]; by apply step_signal_panic|].
    destruct (sig_full st) eqn:H2; [done|]. intros [= <-].
    pose proof (step_signal next id st Hc H1 H2) as Hst. by rewrite H1 in Hst.
  - intros [= <-]. by apply step_client_close.
Qed.
Definition wexecs (es : list (event K)) : option wstate :=
  foldl (λ o e, st ← o; wexec st e) (Some start) es.
Lemma wexecs_steps es st : wexecs es = Some st → steps next id start es st.
Proof.
  revert st. induction es as [|e es IH] using rev_ind; unfold wexecs in *; simpl.
  { intros st [= <-]. constructor. }
  intros st. rewrite foldl_app. simpl. destruct (foldl _ _ _) as [st1|] eqn:Hf; [|done].
  simpl. intros Hs. econstructor; [by apply IH|]. by apply wexec_step.
Qed.
End exec.

(** An execution of a walker on the example graph. *)
Definition trace (d : dir) (id : nat) (es : list (event nat)) : wstate nat :=
  match wexecs (neighbours d ex) id es with Some st => st | None => start end.
Definition executable (d : dir) (id : nat) (es : list (event nat)) : bool :=
  bool_decide (checkVertexID nz ex id = None) &&
  match wexecs (neighbours d ex) id es with Some _ => true | None => false end.
Lemma trace_runs d id es : executable d id es = true → runs nz ex d id es (trace d id es).
Proof.
  unfold executable, trace, runs, Walker. intros [Hc%bool_decide_eq_true Hw]%andb_true_iff.
  rewrite Hc. exists start. split; [done|]. destruct (wexecs _ _ _) eqn:He; [|done].
  by apply wexecs_steps.
Qed.
Lemma silent_bool {K} (es : list (event K)) :
  forallb (λ e, match e with Signal | CloseSignal => false | _ => true end) es = true → silent es.
Proof.
  rewrite forallb_forall. intros Hf. split; intros Hin%elem_of_list_In%Hf; done.
Qed.
Ltac by_walking := repeat match goal with |- _ ∧ _ => apply conj end;
  lazymatch goal with
  | |- runs _ _ _ _ _ _ => apply trace_runs; vm_compute; reflexivity
  | |- silent _ => apply silent_bool; vm_compute; reflexivity
  | |- _ => by_computing
  end.

(** The descendants of 4 are 3 and 5: the client receives both, then the end. *)
Definition whole_walk : list (event nat) :=
  [Walk; Walk; Walk; Recv 3; Walk; Walk; Recv 5; Walk; Walk; Walk; SeeEnd].
(** The client signals while the goroutine waits for a receiver. *)
Definition late_signal : list (event nat) := [Walk; Walk; Walk; Signal].
(** The client signals before. *)
Definition early_signal : list (event nat) := [Walk; Signal; Walk; Walk; Walk; Walk].

Lemma not_yet : ¬ bfs_order (follows nz ex Descendants) 4 (got (take 6 whole_walk)).
Proof.
  intros (_&Hl&_). assert (5 ∈ got (take 6 whole_walk)) as Hin.
  { apply Hl. apply (tc_l _ 4 3 5); [|apply tc_once]; apply an_edge; vm_compute; reflexivity. }
  apply elem_of_list_singleton in Hin. discriminate.
Qed.

(** The goroutine is blocked in its send as long as nobody receives. *)
Lemma blocked {K} `{Countable K} (next : K → goset K) id st es st' top f v :
  steps next id st es st' → got es = [] → pc st = PSend top f v →
  pc st' = PSend top f v ∧ ids_closed st' = ids_closed st.
Proof.
  intros Hs Hg Hp. revert Hg. induction Hs as [|st es st1 e st2 H1 IH H2]; [done|].
  unfold got. rewrite omap_app. intros [Hg1 Hg2]%app_nil.
  destruct (IH Hp Hg1) as [Hp1 <-]. inversion H2; subst; simpl; try done; congruence.
Qed.

(*P C18_no_goroutine_left_behind_refuted *)
(** The part of C18 that fails: the client signals once and receives nothing more;
    whatever happens next, the goroutine neither ends nor closes [ids]. *)
Lemma p18r :
  ∃ (g : graph nat nat) d id es st,
    reachable nz g ∧ runs nz g d id (es ++ [Signal]) st ∧ silent es ∧
    ∀ es' st', steps (neighbours d g) id st es' st' → got es' = [] →
      pc st' ≠ PDone ∧ ids_closed st' = false.
Proof.
  exists ex, Descendants, 4, [Walk; Walk; Walk], (trace Descendants 4 late_signal).
  split; [apply ex_reachable|]. split; [apply trace_runs; vm_compute; reflexivity|].
  split; [by_walking|]. intros es' st' Hs Hg.
  assert (∃ top f v, pc (trace Descendants 4 late_signal) = PSend top f v) as (top&f&v&Hp).
  { eexists _, _, _. vm_compute. reflexivity. }
  destruct (blocked _ _ _ _ _ _ _ _ Hs Hg Hp) as [Hp' ->]. split; [by rewrite Hp'|].
  vm_compute. reflexivity.
Qed.

(*P C19_signal_never_panics_refuted *)
(** A client that never signalled before, and signals after the goroutine has
    delivered everything, panics. *)
Lemma p19r :
  ∃ (g : graph nat nat) d id es st st',
    reachable nz g ∧ runs nz g d id es st ∧ silent es ∧
    wstep g d id st Signal st' ∧ crashed st' = true.
Proof.
  exists ex, Descendants, 4, whole_walk, (trace Descendants 4 whole_walk). eexists.
  split; [apply ex_reachable|]. split; [apply trace_runs; vm_compute; reflexivity|].
  split; [by_walking|]. split; [|shelve]. apply step_signal_panic; vm_compute; reflexivity.
  Unshelve. reflexivity.
Qed.
