(** * Two races *)
From stdpp Require Import base list gmap fin_map_dom.
From Verif Require Import GoBase SetModel DagModel DagSpec DagObs DagExample DagMem DagMemFacts DagMemExample DagProg DagRaceSpec.

(** One step of a goroutine, as a function *)
Definition one {A} (m : mem nat nat) (p : prog nat nat A) : option (mem nat nat * prog nat nat A) :=
  match p with
  | Read l k => Some (m, k (cells m !! l))
  | Put l c k => Some (put m l c, k)
  | New c k => let l := fresh (dom (cells m)) in Some (put m l c, k l)
  | Self k => Some (m, k (this m))
  | SetSelf u k => Some (Mem (cells m) (u (this m)), k)
  | Order ks k => Some (m, k ks)
  | Fuel k => Some (m, k 20)
  | _ => None
  end.
(** The goroutines with these numbers take a step each, one after the other. *)
Fixpoint steps {A} (l : list nat) (m : mem nat nat) (ps : list (prog nat nat A)) : option (mem nat nat * list (prog nat nat A)) :=
  match l with
  | [] => Some (m, ps)
  | i :: l => match ps !! i with
              | None => None
              | Some p => match one m p with None => None | Some (m', p') => steps l m' (<[i := p']> ps) end
              end
  end.
Definition race_at {A} (i j : nat) (ps : list (prog nat nat A)) : bool :=
  match ps !! i, ps !! j with
  | Some p, Some q =>
      match access p, access q with
      | Some (x, b), Some (x', b') => bool_decide (i ≠ j) && bool_decide (x = x') && (b || b')
      | _, _ => false
      end
  | _, _ => false
  end.
Lemma one_step {A} m (p : prog nat nat A) m' p' : one m p = Some (m', p') → pstep m p m' p'.
Proof.
  destruct p; cbn; intros E; try discriminate; injection E as <- <-; try by constructor. constructor. apply not_elem_of_dom, is_fresh.
Qed.
Lemma steps_reach {A} l : ∀ m (ps : list (prog nat nat A)) s, steps l m ps = Some s → rtc tstep (m, ps) s.
Proof.
  induction l as [|i l IH]; intros m ps s E; cbn in E; [injection E as <-; apply rtc_refl|].
  destruct (ps !! i) as [p|] eqn:Ei; [|done]. destruct (one m p) as [[m' p']|] eqn:E1; [|done].
  eapply rtc_l; [|exact (IH _ _ _ E)]. econstructor; [exact Ei|]. by apply one_step.
Qed.
Lemma race_at_race {A} i j (ps : list (prog nat nat A)) : race_at i j ps = true → race ps.
Proof.
  unfold race_at. destruct (ps !! i) as [p|] eqn:Ei; [|done]. destruct (ps !! j) as [q|] eqn:Ej; [|done].
  destruct (access p) as [[x b]|] eqn:Ep; [|done]. destruct (access q) as [[x' b']|] eqn:Eq; [|done]. intros E.
  apply andb_prop in E as [E E2]. apply andb_prop in E as [E0 E1]. apply bool_decide_eq_true in E0, E1. subst x'.
  exists i, j, p, q, x, b, b'. repeat split; try done. by apply orb_prop.
Qed.
Lemma race_found {l m ts} i j :
  match steps l m (map (task_prog nz) ts) with Some s => race_at i j s.2 = true | None => False end →
  ∃ s, reaches nz m ts s ∧ race s.2.
Proof.
  destruct (steps l m _) as [s|] eqn:E; [|done]. intros Hr. exists s. split; [by eapply steps_reach|by eapply race_at_race].
Qed.

(** All goroutines that have not ended take a step each, [n] times. *)
Definition turn {A} (s : mem nat nat * list (prog nat nat A)) (i : nat) : mem nat nat * list (prog nat nat A) :=
  match s.2 !! i with
  | None => s
  | Some p => match one s.1 p with None => s | Some (m', p') => (m', <[i := p']> s.2) end
  end.
Definition turns {A} (n : nat) (s : mem nat nat * list (prog nat nat A)) :=
  Nat.iter n (λ s, foldl turn s (seq 0 (length s.2))) s.
Lemma turn_reach {A} (s : mem nat nat * list (prog nat nat A)) i : rtc tstep s (turn s i).
Proof.
  unfold turn. destruct s as [m ps]. cbn. destruct (ps !! i) as [p|] eqn:Ei; [|apply rtc_refl].
  destruct (one m p) as [[m' p']|] eqn:E1; [|apply rtc_refl]. apply rtc_once. econstructor; [exact Ei|]. by apply one_step.
Qed.
Lemma turns_reach {A} n (s : mem nat nat * list (prog nat nat A)) : rtc tstep s (turns n s).
Proof.
  assert (∀ l s', rtc tstep s' (foldl (turn (A:=A)) s' l)) as Hf.
  { intros l. induction l as [|i l IHl]; intros s'; cbn; [apply rtc_refl|]. etrans; [apply turn_reach|apply IHl]. }
  unfold turns. induction n as [|n IH]; [apply rtc_refl|]. cbn. etrans; [exact IH|]. apply Hf.
Qed.

(** The conditions on the goroutines can be checked. *)
Definition queries_b (ts : list (task nat nat)) : bool := forallb (λ t, forallb query (task_calls t)) ts.
Lemma queries_check ts : queries_b ts = true → Forall queries ts.
Proof.
  unfold queries_b. intros E. apply Forall_forall. intros t Ht o Ho. rewrite forallb_forall in E.
  specialize (E t (proj1 (elem_of_list_In _ _) Ht)). rewrite forallb_forall in E. apply E. by apply elem_of_list_In.
Qed.
Definition askers (kind : op nat nat → bool) (ts : list (task nat nat)) : list nat :=
  (filter (λ x, existsb kind (task_calls x.2) = true) (imap (λ i t, (i, t)) ts)).*1.
Lemma in_one_check kind ts : length (askers kind ts) <= 1 → in_one kind ts.
Proof.
  intros Hl i j t t' o o' Hi Hj Ho Ho' Hk Hk'.
  assert (∀ i t o, ts !! i = Some t → o ∈ task_calls t → kind o = true → i ∈ askers kind ts) as Hin.
  { intros i1 t1 o1 H1 H2 H3. unfold askers. apply elem_of_list_fmap. exists (i1, t1). split; [done|]. apply elem_of_list_filter. split.
    - cbn. apply existsb_exists. exists o1. split; [by apply elem_of_list_In|done].
    - apply (elem_of_list_lookup_2 _ i1). by rewrite list_lookup_imap, H1. }
  pose proof (Hin i t o Hi Ho Hk) as H1. pose proof (Hin j t' o' Hj Ho' Hk') as H2.
  destruct (askers kind ts) as [|a [|b l]]; [by apply elem_of_nil in H1|..|cbn in Hl; lia].
  apply elem_of_list_singleton in H1, H2. congruence.
Qed.

(** A client that adds the vertices 1 and 2 and the edge from 1 to 2 *)
Definition pair_client : list (step nat nat) := ex_calls [OpAddVertex 1 10; OpAddVertex 2 20; OpAddEdge 1 2].
Definition pair_out := hrun nz pair_client [] (start ex_before).
Definition pair_mem : mem nat nat := match pair_out with Ok (_, _, m) => m | _ => ex_before end.
Lemma pair_legal : legal_history (calls pair_client).
Proof.
  cbv [pair_client ex_calls map calls]. unfold legal_history.
  repeat (apply Forall_cons; split; [apply zigzag_legal|]). apply Forall_nil. exact I.
Qed.
Lemma pair_run : hrun nz pair_client [] (start ex_before) = Ok ([RErr None; RErr None; RErr None], [], pair_mem).
Proof. vm_compute. reflexivity. Qed.
(*P C82_parallel_queries_refuted *)
(** The graph has the vertices 1 and 2 and the edge from 1 to 2.  Two goroutines ask for the
    ancestors of 2 and get to a point where both are about to write the cache. *)
Lemma p82_refuted :
  ∃ (p : list (step nat nat)) m0 outs given m (ts : list (task nat nat)) s,
    legal_history (calls p) ∧ hrun nz p [] (start m0) = Ok (outs, given, m) ∧
    Forall queries ts ∧ reaches nz m ts s ∧ race s.2.
Proof.
  assert (∃ s, reaches nz pair_mem [Calls [OpGetAncestors 2]; Calls [OpGetAncestors 2]] s ∧ race s.2) as (s & Hr & Hs)
    by (apply (race_found (l := replicate 21 0 ++ replicate 21 1) 0 1); vm_compute; reflexivity).
  do 6 eexists. exists s. split; [exact pair_legal|]. split; [exact pair_run|]. split; [|split; [exact Hr|exact Hs]].
  apply queries_check. reflexivity.
Qed.
(*P C85_change_during_walk_refuted *)
(** In that graph a walker starts at 1, and the only goroutine of the client deletes the edge:
    the walker is about to read the set that the client is about to change. *)
Lemma p85_refuted :
  ∃ (p : list (step nat nat)) m0 outs given m up id (o : op nat nat) s,
    legal_history (calls p) ∧ hrun nz p [] (start m0) = Ok (outs, given, m) ∧
    reaches nz m [Walk up id; Calls [o]] s ∧ race s.2.
Proof.
  assert (∃ s, reaches nz pair_mem [Walk false 1; Calls [OpDeleteEdge 1 2]] s ∧ race s.2) as (s & Hr & Hs)
    by (apply (race_found (l := replicate 3 0 ++ replicate 58 1) 0 1); vm_compute; reflexivity).
  do 8 eexists. exists s. split; [exact pair_legal|]. split; [exact pair_run|]. split; [exact Hr|exact Hs].
Qed.
