(** * How many edges a graph can have *)
From stdpp Require Import base list gmap relations sorting strings.
From Verif Require Import GoBase SetModel DagModel DagSpec DagObs DagExample DagEdges.

(** Two vertices have at most one edge between them. *)
Theorem C98_at_most {K T : Type} `{Countable K} `{Inhabited T} (isz : K → bool)
    σ1 σ2 (g : graph K T) n m (g1 g2 : graph K T) :
  reachable isz g → legal σ1 → legal σ2 →
  call isz σ1 OpGetOrder g = Ok (RInt n, g1) → call isz σ2 OpGetSize g = Ok (RInt m, g2) →
  2 * m ≤ n * (n - 1).
Proof. exact (at_most isz σ1 σ2 g n m g1 g2). Qed.
Example C98_example :
  reachable nz ex ∧ reply OpGetOrder ex = Some (RInt 6) ∧ reply OpGetSize ex = Some (RInt 6).
Proof. by_computing. Qed.
Print Assumptions C98_at_most.

(** For every number of vertices there is a graph with that many edges. *)
Theorem C98_that_many n :
  ∃ (g : graph nat nat) m, reachable nz g ∧ 2 * m = n * (n - 1) ∧
    ∀ σ, legal σ → ∃ g1 g2, call nz σ OpGetOrder g = Ok (RInt n, g1) ∧ call nz σ OpGetSize g = Ok (RInt m, g2).
Proof. exact (that_many n). Qed.
(** Four vertices and six edges: one more is a duplicate or a loop. *)
Example C98_that_many_example :
  let g := foldr after ex [OpDeleteVertex 5; OpDeleteVertex 6] in
  let g := after (OpAddEdge 2 4) g in
  reply OpGetOrder g = Some (RInt 4) ∧ reply OpGetSize g = Some (RInt 6) ∧
  reply (OpAddEdge 4 2) g = Some (RErr (Some ErrEdgeLoop)) ∧
  reply (OpAddEdge 1 2) g = Some (RErr (Some ErrEdgeDuplicate)).
Proof. vm_compute. split_and!; reflexivity. Qed.
Print Assumptions C98_that_many.
