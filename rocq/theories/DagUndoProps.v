(** * Calls that undo each other, and calls whose order does not matter *)
From stdpp Require Import base list gmap relations sorting strings.
From Verif Require Import GoBase SetModel DagModel DagSpec DagObs DagExample DagUndo.

(** No calls can tell the graph afterwards from the one before. *)
Theorem C103_add_edge_undone {K T : Type} `{Countable K} `{Inhabited T} (isz : K → bool)
    σ1 σ2 (g g1 : graph K T) s t :
  reachable isz g → legal σ1 → legal σ2 → call isz σ1 (OpAddEdge s t) g = Ok (RErr None, g1) →
  ∃ g2, call isz σ2 (OpDeleteEdge s t) g1 = Ok (RErr None, g2) ∧
    ∀ h, legal_pairs h → agree isz h g g2.
Proof. exact (add_edge_undone isz σ1 σ2 g g1 s t). Qed.
Example C103_add_edge_example :
  reachable nz ex ∧ reply (OpAddEdge 6 1) ex = Some (RErr None) ∧
  reply (OpDeleteEdge 6 1) ex = Some (RErr (Some ErrEdgeNotFound)) ∧
  reply (OpDeleteEdge 6 1) (after (OpAddEdge 6 1) ex) = Some (RErr None).
Proof. by_computing. Qed.
Print Assumptions C103_add_edge_undone.

Theorem C103_delete_edge_undone {K T : Type} `{Countable K} `{Inhabited T} (isz : K → bool)
    σ1 σ2 (g g1 : graph K T) s t :
  reachable isz g → legal σ1 → legal σ2 → call isz σ1 (OpDeleteEdge s t) g = Ok (RErr None, g1) →
  ∃ g2, call isz σ2 (OpAddEdge s t) g1 = Ok (RErr None, g2) ∧
    ∀ h, legal_pairs h → agree isz h g g2.
Proof. exact (delete_edge_undone isz σ1 σ2 g g1 s t). Qed.
(** Not so if the other direction has been added in between. *)
Example C103_delete_edge_example :
  reachable nz ex ∧ reply (OpDeleteEdge 3 5) ex = Some (RErr None) ∧
  reply (OpAddEdge 3 5) (after (OpDeleteEdge 3 5) ex) = Some (RErr None) ∧
  reply (OpAddEdge 3 5) (after (OpAddEdge 5 3) (after (OpDeleteEdge 3 5) ex)) = Some (RErr (Some ErrEdgeLoop)).
Proof. by_computing. Qed.
Print Assumptions C103_delete_edge_undone.

Theorem C103_add_vertex_undone {K T : Type} `{Countable K} `{Inhabited T} (isz : K → bool)
    σ1 σ2 (g g1 : graph K T) v x :
  reachable isz g → legal σ1 → legal σ2 → call isz σ1 (OpAddVertex v x) g = Ok (RErr None, g1) →
  ∃ g2, call isz σ2 (OpDeleteVertex v) g1 = Ok (RErr None, g2) ∧
    ∀ h, legal_pairs h → agree isz h g g2.
Proof. exact (add_vertex_undone isz σ1 σ2 g g1 v x). Qed.
Example C103_add_vertex_example :
  reachable nz ex ∧ reply (OpAddVertex 7 70) ex = Some (RErr None) ∧
  reply (OpDeleteVertex 7) (after (OpAddVertex 7 70) ex) = Some (RErr None) ∧
  reply (OpGetVertex 7) (after (OpDeleteVertex 7) (after (OpAddVertex 7 70) ex)) =
    Some (RVertex (inl ErrVertexNotFound)).
Proof. by_computing. Qed.
Print Assumptions C103_add_vertex_undone.

(** Two edges that can be added one after the other can be added in the other order too. *)
Theorem C103_edges_in_any_order {K T : Type} `{Countable K} `{Inhabited T} (isz : K → bool)
    σ1 σ2 σ3 σ4 (g g1 g2 : graph K T) s t u v :
  reachable isz g → legal σ1 → legal σ2 → legal σ3 → legal σ4 →
  call isz σ1 (OpAddEdge s t) g = Ok (RErr None, g1) →
  call isz σ2 (OpAddEdge u v) g1 = Ok (RErr None, g2) →
  ∃ g3 g4, call isz σ3 (OpAddEdge u v) g = Ok (RErr None, g3) ∧
    call isz σ4 (OpAddEdge s t) g3 = Ok (RErr None, g4) ∧
    ∀ h, legal_pairs h → agree isz h g2 g4.
Proof. exact (edges_in_any_order isz σ1 σ2 σ3 σ4 g g1 g2 s t u v). Qed.
(** The edges 6 → 1 and 2 → 6, each of which can be added, can be added together in no order. *)
Example C103_edges_example :
  reachable nz ex ∧ reply (OpAddEdge 6 1) ex = Some (RErr None) ∧
  reply (OpAddEdge 2 4) (after (OpAddEdge 6 1) ex) = Some (RErr None) ∧
  reply (OpAddEdge 2 6) ex = Some (RErr None) ∧
  reply (OpAddEdge 2 6) (after (OpAddEdge 6 1) ex) = Some (RErr (Some ErrEdgeLoop)) ∧
  reply (OpAddEdge 6 1) (after (OpAddEdge 2 6) ex) = Some (RErr (Some ErrEdgeLoop)).
Proof. by_computing. Qed.
Print Assumptions C103_edges_in_any_order.
