(** * How long the calls of the graph take

    [exec isz σ o g 0] runs one call; the number that it returns beside the result is
    the number of [range] loops over maps that the call has started, in whatever
    function.  Recursive calls are made only in the body of such loops. *)
From stdpp Require Import base list gmap relations sorting strings.
From Verif Require Import GoBase SetModel DagModel DagSpec DagObs DagInv DagRefine DagExample DagCostProofs.

(** A call starts at most [3 * (vertices + edges) + 4] loops over maps. *)
Theorem C93_few_loops {K T : Type} `{Countable K} `{Inhabited T} (isz : K → bool)
    σ σ1 σ2 (o : op K T) g r g' n v e g1 g2 :
  reachable isz g → legal σ → legal σ2 →
  call isz σ1 OpGetOrder g = Ok (RInt v, g1) →
  call isz σ2 OpGetSize g = Ok (RInt e, g2) →
  exec isz σ o g 0 = Ok (r, g', n) →
  n ≤ 3 * (v + e) + 4.
Proof. exact (few_loops isz σ σ1 σ2 o g r g' n v e g1 g2). Qed.
(** A chain of diamonds: [2 ^ 7] paths from 1 to 22.  The first query fills the
    caches, the second finds everything there. *)
Definition diamonds : list (op nat nat) :=
  map (λ k, OpAddVertex (S k) 0) (seq 0 22) ++
  concat (map (λ k, [OpAddEdge (3 * k + 1) (3 * k + 2); OpAddEdge (3 * k + 1) (3 * k + 3);
                     OpAddEdge (3 * k + 2) (3 * k + 4); OpAddEdge (3 * k + 3) (3 * k + 4)]) (seq 0 7)).
Definition diamond_graph : graph nat nat :=
  match run nz (map (λ o, (zigzag, o)) diamonds) NewAcyclicGraph with Ok (_, g) => g | _ => NewAcyclicGraph end.
Definition loops (o : op nat nat) (g : graph nat nat) : nat :=
  match exec nz zigzag o g 0 with Ok (_, _, n) => n | _ => 0 end.
Example C93_example :
  reachable nz diamond_graph ∧ legal zigzag ∧
  reply OpGetOrder diamond_graph = Some (RInt 22) ∧ reply OpGetSize diamond_graph = Some (RInt 28) ∧
  map (λ o, loops o diamond_graph)
    [OpGetDescendants 1; OpGetAncestors 22; OpReduceTransitively; OpDeleteVertex 10; OpGetOrderedDescendants 1; OpGetOrder] =
  [50; 4; 124; 32; 22; 0] ∧
  loops (OpGetDescendants 1) (after (OpGetDescendants 1) diamond_graph) = 1.
Proof.
  split.
  { assert (legal_history (map (λ o, (zigzag, o)) diamonds)) as Hl.
    { apply Forall_map, Forall_true. intros o. apply zigzag_legal. }
    destruct (run_ok nz _ _ Hl (inv_new nz)) as (outs&g&Hrun&_).
    exists (map (λ o, (zigzag, o)) diamonds), outs. split; [done|].
    unfold diamond_graph. by rewrite Hrun. }
  by_computing.
Qed.
Print Assumptions C93_few_loops.

(** None of these loops is over a map with more entries than the graph has
    vertices: the order of such a map has no influence at all. *)
Theorem C93_short_loops {K T : Type} `{Countable K} `{Inhabited T} (isz : K → bool)
    σ σ' σ1 (o : op K T) g v g1 :
  reachable isz g → legal σ →
  call isz σ1 OpGetOrder g = Ok (RInt v, g1) →
  (∀ n l, length l ≤ v → σ n l = σ' n l) →
  exec isz σ o g 0 = exec isz σ' o g 0.
Proof. exact (short_loops isz σ σ' σ1 o g v g1). Qed.
(** An order that loses the keys of maps with more than 22 entries. *)
Definition lossy : schedule nat := λ n l, if bool_decide (length l ≤ 22) then zigzag n l else [].
Example C93_lossy :
  (∀ n l, length l ≤ 22 → zigzag n l = lossy n l) ∧
  loops OpReduceTransitively diamond_graph =
  match exec nz lossy OpReduceTransitively diamond_graph 0 with Ok (_, _, n) => n | _ => 0 end.
Proof.
  split.
  - intros n l Hl. unfold lossy. by rewrite bool_decide_eq_true_2.
  - vm_compute. reflexivity.
Qed.
Print Assumptions C93_short_loops.
