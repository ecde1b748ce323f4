(** * Every acyclic graph can be built, and only its vertices and edges matter *)
From stdpp Require Import base list gmap relations sorting strings.
From Verif Require Import GoBase SetModel DagModel DagSpec DagObs DagExample DagBuild DagTopo.

(** Add the vertices, then the edges, in any order and with any iteration orders. *)
Theorem C99_can_be_built {K T : Type} `{Countable K} `{Inhabited T} (isz : K → bool)
    (vs : list (K * T)) (es : list (K * K)) (h : list (schedule K * op K T)) :
  NoDup vs.*1 → (∀ k, k ∈ vs.*1 → isz k = false) →
  NoDup es → (∀ s t, (s, t) ∈ es → s ∈ vs.*1 ∧ t ∈ vs.*1) →
  (∀ v, ¬ tc (λ s t, (s, t) ∈ es) v v) →
  legal_history h →
  map snd h = map (λ x, OpAddVertex x.1 x.2) vs ++ map (λ e, OpAddEdge e.1 e.2) es →
  ∃ outs g, run isz h NewAcyclicGraph = Ok (outs, g) ∧ Forall (λ r, r = RErr None) outs ∧
    (∀ k x, has_vertex isz g k x ↔ (k, x) ∈ vs) ∧ (∀ s t, has_edge isz g s t ↔ (s, t) ∈ es).
Proof. exact (can_be_built isz vs es h). Qed.
(** The edges of a chain, the last first, and a shortcut before the chain is complete. *)
Definition chain_vs : list (nat * nat) := [(1, 10); (2, 20); (3, 30); (4, 40)].
Definition chain_es : list (nat * nat) := [(3, 4); (1, 4); (2, 3); (1, 2)].
Definition chain_h : list (schedule nat * op nat nat) :=
  map (λ o, (zigzag, o)) (map (λ x, OpAddVertex x.1 x.2) chain_vs ++ map (λ e, OpAddEdge e.1 e.2) chain_es).
Example C99_example :
  NoDup chain_vs.*1 ∧ (∀ k, k ∈ chain_vs.*1 → nz k = false) ∧
  NoDup chain_es ∧ (∀ s t, (s, t) ∈ chain_es → s ∈ chain_vs.*1 ∧ t ∈ chain_vs.*1) ∧
  (∀ v, ¬ tc (λ s t, (s, t) ∈ chain_es) v v) ∧ legal_history chain_h.
Proof.
  split_and!.
  - apply (bool_decide_unpack _). vm_compute. done.
  - apply Forall_forall. repeat constructor.
  - apply (bool_decide_unpack _). vm_compute. done.
  - assert (Forall (λ e, e.1 ∈ chain_vs.*1 ∧ e.2 ∈ chain_vs.*1) chain_es) as Hall.
    { apply (bool_decide_unpack _). vm_compute. done. }
    rewrite Forall_forall in Hall. intros s t Hst. by apply (Hall (s, t)).
  - intros v Hv. enough (v < v) by lia. revert Hv. generalize v at 2 4. intros w Hv.
    assert (∀ s t, (s, t) ∈ chain_es → s < t) as Hlt.
    { assert (Forall (λ e, e.1 < e.2) chain_es) as Hall by (apply (bool_decide_unpack _); vm_compute; done).
      rewrite Forall_forall in Hall. intros s t Hst. by apply (Hall (s, t)). }
    induction Hv as [x y Hxy|x y z Hxy _ IH]; [by apply Hlt|]. apply Hlt in Hxy. lia.
  - apply Forall_map, Forall_true. intros o. apply zigzag_legal.
Qed.
Print Assumptions C99_can_be_built.

(** The order of the calls that built a graph, what has been deleted and what is cached
    make no difference. *)
Theorem C99_nothing_else_matters {K T : Type} `{Countable K} `{Inhabited T} (isz : K → bool)
    (g1 g2 : graph K T) h :
  reachable isz g1 → reachable isz g2 →
  (∀ k x, has_vertex isz g1 k x ↔ has_vertex isz g2 k x) →
  (∀ s t, has_edge isz g1 s t ↔ has_edge isz g2 s t) →
  legal_pairs h → agree isz h g1 g2.
Proof. exact (nothing_else_matters isz g1 g2 h). Qed.
(** An edge is added and deleted; the caches and the maps of edges are different then. *)
Definition detour : graph nat nat := after (OpDeleteEdge 5 6) (after (OpAddEdge 5 6) ex).
Definition sizes (g : graph nat nat) : list nat :=
  [size (inboundEdges g); size (outboundEdges g); size (ancestorsCache g); size (descendantsCache g)].
Lemma same_vertices (g1 g2 : graph nat nat) :
  reachable nz g1 → reachable nz g2 → map_to_list (vertices g1) = map_to_list (vertices g2) →
  ∀ k x, has_vertex nz g1 k x ↔ has_vertex nz g2 k x.
Proof.
  intros H1 H2 Heq k x. rewrite !(DagRefine.has_vertex_abs nz) by (by apply (DagRefine.reachable_inv nz)).
  change (vertices g1 !! k = Some x ↔ vertices g2 !! k = Some x).
  by rewrite <-!elem_of_map_to_list, Heq.
Qed.
Lemma fewer_edges (g1 g2 : graph nat nat) :
  reachable nz g1 → Forall (λ e, isEdge nz g2 e.1 e.2 = (true, None)) (edges_of g1) →
  ∀ s t, has_edge nz g1 s t → has_edge nz g2 s t.
Proof.
  intros H1 Hall s t Hst. apply edges_of_all in Hst; [|done]. rewrite Forall_forall in Hall.
  by apply an_edge, (Hall (s, t)).
Qed.
Example C99_detour_example :
  reachable nz ex ∧ reachable nz detour ∧
  sizes ex = [4; 4; 4; 1] ∧ sizes detour = [5; 5; 4; 0] ∧
  (∀ k x, has_vertex nz detour k x ↔ has_vertex nz ex k x) ∧
  (∀ s t, has_edge nz detour s t ↔ has_edge nz ex s t).
Proof.
  assert (reachable nz detour) as Hd by (apply after_reachable, after_reachable, ex_reachable).
  split_and!; [exact ex_reachable|done|vm_compute; reflexivity..| |].
  - apply same_vertices; [done|exact ex_reachable|vm_compute; reflexivity].
  - intros s t. split; apply fewer_edges; try done; [|exact ex_reachable|];
      vm_compute; repeat constructor.
Qed.
Print Assumptions C99_nothing_else_matters.
