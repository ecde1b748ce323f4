(** * How many edges a graph can have *)
From stdpp Require Import base list gmap relations sorting strings.
From Coq Require Import Lia.
From Verif Require Import GoBase SetModel DagModel DagSpec DagObs RelFacts DagInv DagOps DagRefine DagPropProofs DagExample.

Section bound.
Context {K T : Type} `{Countable K} `{Inhabited T} (isz : K → bool).
Notation graph := (graph K T).
Implicit Types g : graph.

(*P C98_at_most *)
(** Two vertices have at most one edge between them. *)
Lemma at_most σ1 σ2 g n m g1 g2 :
  reachable isz g → legal σ1 → legal σ2 →
  call isz σ1 OpGetOrder g = Ok (RInt n, g1) → call isz σ2 OpGetSize g = Ok (RInt m, g2) →
  2 * m ≤ n * (n - 1).
Proof.
  intros Hr Hσ1 Hσ2 Hn Hm.
  destruct (reach_call_inv isz σ1 OpGetOrder g _ _ Hr Hσ1 Hn) as (Hg&_&_&Hn').
  destruct (reach_call_inv isz σ2 OpGetSize g _ _ Hr Hσ2 Hm) as (_&_&_&Hm').
  assert (n = size (av (abs g))) as -> by congruence. assert (m = size (ae (abs g))) as -> by congruence.
  set (vs := elements (dom (av (abs g)))). set (es := elements (ae (abs g))).
  assert (size (av (abs g)) = length vs) as ->.
  { rewrite <-(size_dom (D:=gset K)). done. }
  change (size (ae (abs g))) with (length es).
  assert (∀ s t, (s, t) ∈ es → s ∈ vs ∧ t ∈ vs) as Hdom.
  { intros s t Hst. unfold es in Hst. rewrite elem_of_elements in Hst. apply edge_abs in Hst.
    apply (inv_dom isz g Hg) in Hst. unfold vs. rewrite !elem_of_elements, !elem_of_dom. done. }
  assert (∀ s t, (s, t) ∈ es → (t, s) ∉ es ∧ s ≠ t) as Hac.
  { intros s t Hst. unfold es in *. rewrite !elem_of_elements in *. apply edge_abs in Hst. split.
    - intros Hts. apply edge_abs in Hts. apply (inv_acyclic isz g Hg s).
      eapply tc_l; [done|]. by apply tc_once.
    - intros ->. apply (inv_acyclic isz g Hg t). by apply tc_once. }
  set (swap := λ e : K * K, (e.2, e.1)).
  assert (length (es ++ (swap <$> es) ++ ((λ v, (v, v)) <$> vs)) ≤ length (list_prod vs vs)) as Hle.
  { apply submseteq_length, NoDup_submseteq.
    - rewrite !NoDup_app. split_and!.
      + apply NoDup_elements.
      + intros [s t] Hst. rewrite elem_of_app, !elem_of_list_fmap.
        intros [([t' s']&[= -> ->]&Hts)|(v&[= -> ->]&Hv)].
        * by apply Hac in Hst as [? _].
        * by apply Hac in Hst as [_ ?].
      + apply NoDup_fmap_2; [|apply NoDup_elements]. intros [??] [??]. unfold swap. simpl. congruence.
      + intros [s t]. rewrite !elem_of_list_fmap. intros ([t' s']&[= -> ->]&Hts) (v&[= -> ->]&Hv).
        by apply Hac in Hts as [_ ?].
      + apply NoDup_fmap_2; [|apply NoDup_elements]. intros ??. congruence.
    - intros [s t]. rewrite !elem_of_app, !elem_of_list_fmap.
      intros [Hst|[([t' s']&[= -> ->]&Hts)|(v&[= -> ->]&Hv)]];
        apply elem_of_list_In, in_prod_iff; rewrite <-!elem_of_list_In.
      + by apply Hdom.
      + by apply Hdom in Hts as [??].
      + done. }
  rewrite !app_length, !fmap_length, prod_length in Hle. destruct (length vs); simpl in *; lia.
Qed.
End bound.

(** ** There are graphs with that many edges *)
Lemma step_call o (g : graph nat nat) : reachable nz g →
  ∃ r g', reachable nz g' ∧ spec_step nz (abs g) o r (abs g').
Proof.
  intros Hg. destruct (reach_call nz zigzag o g Hg zigzag_legal) as (r&g'&Hc&_&_&?).
  exists r, g'. split; [|done]. by eapply (reachable_call nz zigzag o g); [apply zigzag_legal|..].
Qed.
Lemma tc_lt (R : relation nat) : (∀ s t, R s t → s < t) → ∀ s t, tc R s t → s < t.
Proof. intros HR s t Hst. induction Hst as [s t Hst|s u t Hsu _ IH]; [by apply HR|]. apply HR in Hsu. lia. Qed.

Definition full (n i : nat) (g : graph nat nat) : Prop :=
  reachable nz g ∧ (∀ k, k ∈ dom (av (abs g)) ↔ 1 ≤ k ≤ S n) ∧ size (av (abs g)) = S n ∧
  2 * size (ae (abs g)) = n * (n - 1) + 2 * i ∧
  ∀ s t, edge (abs g) s t → s < t ∧ (t ≤ n ∨ t = S n ∧ s ≤ i).
Lemma full_edge n i g : full n i g → i < n → ∃ g', full n (S i) g'.
Proof.
  intros (Hr&Hdom&Hv&He&Hst) Hi.
  destruct (step_call (OpAddEdge (S i) (S n)) g Hr) as (r&g'&Hr'&Hs).
  exists g'. unfold spec_step in Hs.
  replace (edge_err nz (abs g) (S i) (S n)) with (None (A:=err)) in Hs.
  2: { unfold edge_err, first_err. simpl nz.
       rewrite (bool_decide_eq_false_2 (S i = S n)) by lia.
       rewrite (bool_decide_eq_false_2 (S i ∉ dom (av (abs g)))).
       2: { intros Hn. apply Hn, Hdom. lia. }
       rewrite (bool_decide_eq_false_2 (S n ∉ dom (av (abs g)))); [done|].
       intros Hn. apply Hn, Hdom. lia. }
  assert ((S i, S n) ∉ ae (abs g)) as Hno by (intros Hin; apply Hst in Hin; lia).
  rewrite decide_False in Hs by done.
  destruct Hs as [(Hp&_)|(_&_&Ha)].
  { exfalso. apply (tc_lt (edge (abs g))) in Hp; [lia|]. intros s t Hx. by apply Hst in Hx as [? _]. }
  unfold full. rewrite Ha. cbn [av ae]. split_and!; [done..| |].
  - rewrite size_union by set_solver. rewrite size_singleton. lia.
  - intros s t. unfold edge. cbn [ae]. rewrite elem_of_union, elem_of_singleton.
    intros [[= -> ->]|Hx]; [lia|]. apply Hst in Hx. lia.
Qed.
Lemma full_exists n : ∃ g, full n n g.
Proof.
  assert (∀ n, (∃ g, full n 0 g) → ∀ i, i ≤ n → ∃ g, full n i g) as Hall.
  { clear. intros n H0 i. induction i as [|i IH]; intros Hi; [done|].
    destruct IH as [g Hg]; [lia|]. by apply (full_edge n i g). }
  induction n as [|n IH].
  - destruct (step_call (OpAddVertex 1 0) NewAcyclicGraph) as (r&g&Hr&Hs).
    { exists [], []. split; [constructor|done]. }
    exists g. simpl in Hs. destruct Hs as [_ Ha]. unfold full. rewrite Ha. cbn [av ae].
    split_and!; [done| | | |].
    + intros k. rewrite dom_insert, dom_empty. split; [|intros; assert (k = 1) by lia]; set_solver by lia.
    + by rewrite map_size_insert_None.
    + done.
    + intros s t. unfold edge. set_solver.
  - apply (Hall (S n)); [|done]. destruct IH as (g0&Hr&Hdom&Hv&He&Hst).
    destruct (step_call (OpAddVertex (S (S n)) 0) g0 Hr) as (r&g&Hr'&Hs). exists g.
    assert (S (S n) ∉ dom (av (abs g0))) as Hno by (rewrite Hdom; lia).
    unfold spec_step, first_err in Hs. simpl nz in Hs.
    rewrite (bool_decide_eq_false_2 (S (S n) ∈ dom (av (abs g0)))) in Hs by done.
    destruct Hs as [_ Ha]. unfold full. rewrite Ha. cbn [av ae]. split_and!; [done| | | |].
    + intros k. rewrite dom_insert, elem_of_union, elem_of_singleton, Hdom. lia.
    + rewrite map_size_insert_None by (by apply not_elem_of_dom). lia.
    + rewrite He. destruct n; simpl; lia.
    + intros s t Hx. apply Hst in Hx. lia.
Qed.

(*P C98_that_many *)
Lemma that_many n :
  ∃ (g : graph nat nat) m, reachable nz g ∧ 2 * m = n * (n - 1) ∧
    ∀ σ, legal σ → ∃ g1 g2, call nz σ OpGetOrder g = Ok (RInt n, g1) ∧ call nz σ OpGetSize g = Ok (RInt m, g2).
Proof.
  assert (∃ g : graph nat nat, reachable nz g ∧ size (av (abs g)) = n ∧ 2 * size (ae (abs g)) = n * (n - 1)) as (g&Hr&Hv&He).
  { destruct n as [|n].
    - exists NewAcyclicGraph. split_and!; [exists [], []; split; [constructor|done]|vm_compute; reflexivity..].
    - destruct (full_exists n) as (g&Hr&_&Hv&He&_). exists g. split_and!; [done..|].
      rewrite He. destruct n; simpl; lia. }
  exists g, (size (ae (abs g))). split_and!; [done..|]. intros σ Hσ.
  destruct (reach_call nz σ OpGetOrder g Hr Hσ) as (r1&g1&Hc1&_&_&_&->).
  destruct (reach_call nz σ OpGetSize g Hr Hσ) as (r2&g2&Hc2&_&_&_&->).
  exists g1, g2. by rewrite <-Hv.
Qed.
