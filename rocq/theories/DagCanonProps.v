(** * The transitive reduction is a canonical form *)
From stdpp Require Import base list gmap relations sorting strings.
From Verif Require Import GoBase SetModel DagModel DagSpec DagObs DagExample DagTopo DagProps DagBuildProps DagCanon.

(** The edges that stay lead from a vertex to a descendant with no vertex between them; they are
    the edges that no longer path replaces. *)
Theorem C102_which_edges_stay {K T : Type} `{Countable K} `{Inhabited T} (isz : K → bool)
    σ (g g' : graph K T) u v :
  reachable isz g → legal σ → call isz σ OpReduceTransitively g = Ok (RUnit, g') →
  (has_edge isz g' u v ↔
     tc (has_edge isz g) u v ∧ ¬ ∃ c, tc (has_edge isz g) u c ∧ tc (has_edge isz g) c v) ∧
  (has_edge isz g' u v ↔
     has_edge isz g u v ∧ ¬ ∃ c, has_edge isz g u c ∧ tc (has_edge isz g) c v).
Proof. exact (which_edges_stay isz σ g g' u v). Qed.
(** 1 → 3 goes since 1 → 4 → 3; 4 → 3 stays. *)
Example C102_edges_example :
  reachable nz ex ∧ reply OpReduceTransitively ex = Some RUnit ∧
  has_edge nz ex 1 3 ∧ has_edge nz ex 1 4 ∧ has_edge nz ex 4 3 ∧
  ¬ has_edge nz (after OpReduceTransitively ex) 1 3 ∧ has_edge nz (after OpReduceTransitively ex) 4 3.
Proof.
  split_and!; [exact ex_reachable|vm_compute; reflexivity|apply an_edge; vm_compute; reflexivity..
    |apply no_edge; vm_compute; reflexivity|apply an_edge; vm_compute; reflexivity].
Qed.
Print Assumptions C102_which_edges_stay.

(** Two graphs with the same vertices and values have the same ancestors and descendants exactly
    if no calls can tell their reductions apart. *)
Theorem C102_canonical_form {K T : Type} `{Countable K} `{Inhabited T} (isz : K → bool)
    σ1 σ2 (g1 g2 g1' g2' : graph K T) :
  reachable isz g1 → reachable isz g2 → legal σ1 → legal σ2 →
  call isz σ1 OpReduceTransitively g1 = Ok (RUnit, g1') →
  call isz σ2 OpReduceTransitively g2 = Ok (RUnit, g2') →
  (∀ k x, has_vertex isz g1 k x ↔ has_vertex isz g2 k x) →
  (∀ s t, tc (has_edge isz g1) s t ↔ tc (has_edge isz g2) s t) ↔
  (∀ h, legal_pairs h → agree isz h g1' g2').
Proof. exact (canonical_form isz σ1 σ2 g1 g2 g1' g2'). Qed.
(** [ex] without 1 → 3 and with 2 → 5, and [ex] itself. *)
Definition other : graph nat nat := after (OpAddEdge 2 5) (after (OpDeleteEdge 1 3) ex).
Lemma reduced_tc (g : graph nat nat) s t :
  reachable nz g → tc (has_edge nz (after OpReduceTransitively g)) s t ↔ tc (has_edge nz g) s t.
Proof.
  intros Hr. destruct (C14_reduction_preserves_reachability nz zigzag g Hr zigzag_legal) as (g'&Hc&_&_&Htc&_).
  unfold after. rewrite Hc. apply Htc.
Qed.
Example C102_example :
  reachable nz ex ∧ reachable nz other ∧
  reply OpReduceTransitively ex = Some RUnit ∧ reply OpReduceTransitively other = Some RUnit ∧
  (∀ k x, has_vertex nz ex k x ↔ has_vertex nz other k x) ∧
  (has_edge nz ex 1 3 ∧ ¬ has_edge nz other 1 3 ∧ ¬ has_edge nz ex 2 5 ∧ has_edge nz other 2 5) ∧
  (∀ s t, tc (has_edge nz ex) s t ↔ tc (has_edge nz other) s t).
Proof.
  assert (reachable nz other) as Ho by (apply after_reachable, after_reachable, ex_reachable).
  pose proof ex_reachable as Hex.
  split_and!; [exact Hex|exact Ho|vm_compute; reflexivity|vm_compute; reflexivity| |..].
  - apply same_vertices; [exact Hex|exact Ho|vm_compute; reflexivity].
  - apply an_edge. vm_compute. reflexivity.
  - apply no_edge. vm_compute. reflexivity.
  - apply no_edge. vm_compute. reflexivity.
  - apply an_edge. vm_compute. reflexivity.
  - intros s t. rewrite <-(reduced_tc ex), <-(reduced_tc other) by assumption.
    split; apply RelFacts.tc_mono; apply fewer_edges; try (apply after_reachable; assumption);
      vm_compute; repeat constructor.
Qed.
Print Assumptions C102_canonical_form.
