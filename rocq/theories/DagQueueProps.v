(** * Exactly which lists the ordered queries return *)
From stdpp Require Import base list gmap relations sorting strings.
From Verif Require Import GoBase SetModel DagModel DagSpec DagObs DagExample DagTopo DagQueue.

(** The lists of descendants that some iteration orders give are the orders of a queue. *)
Theorem C100_which_descendant_lists {K T : Type} `{Countable K} `{Inhabited T} (isz : K → bool)
    (g : graph K T) v l :
  reachable isz g → known isz g v →
  (∃ σ g', legal σ ∧ call isz σ (OpGetOrderedDescendants v) g = Ok (RList (inr l), g')) ↔
  queue_order (has_edge isz g) v l.
Proof. exact (which_descendants isz g v l). Qed.
(** 1 → 2 → 3 → 5 and 1 → 4 → 6.  The last list is in the order of the distances, but it is
    not returned: 3 comes before 6 if 2 comes before 4. *)
Definition fork : graph nat nat := foldr after ex [OpAddEdge 4 6; OpDeleteEdge 4 3; OpDeleteEdge 1 3].
Lemma fork_reachable : reachable nz fork.
Proof. apply after_reachable, after_reachable, after_reachable, ex_reachable. Qed.
Example C100_example :
  reachable nz fork ∧ known nz fork 1 ∧
  ids (call nz (follow [2; 4; 3; 6; 5]) (OpGetOrderedDescendants 1) fork) = Some [2; 4; 3; 6; 5] ∧
  ids (call nz (follow [4; 2; 6; 3; 5]) (OpGetOrderedDescendants 1) fork) = Some [4; 2; 6; 3; 5] ∧
  ids (call nz (follow [2; 4; 6; 3; 5]) (OpGetOrderedDescendants 1) fork) = Some [2; 4; 3; 6; 5] ∧
  ¬ queue_order (has_edge nz fork) 1 [2; 4; 6; 3; 5].
Proof.
  split_and!; [exact fork_reachable|by_computing|vm_compute; reflexivity..|].
  intros (_&_&Hq). destruct (Hq 2 3 1 2 6 3) as (q&x'&Hle&Hx'&He); [lia|done..| |].
  - apply an_edge. vm_compute. reflexivity.
  - revert He. destruct q as [|[|q]]; [| |lia]; simpl in Hx'; injection Hx' as <-; apply no_edge; vm_compute; reflexivity.
Qed.
Print Assumptions C100_which_descendant_lists.

Theorem C100_which_ancestor_lists {K T : Type} `{Countable K} `{Inhabited T} (isz : K → bool)
    (g : graph K T) v l :
  reachable isz g → known isz g v →
  (∃ σ g', legal σ ∧ call isz σ (OpGetOrderedAncestors v) g = Ok (RList (inr l), g')) ↔
  queue_order (flip (has_edge isz g)) v l.
Proof. exact (which_ancestors isz g v l). Qed.
Example C100_ancestors_example :
  reachable nz ex ∧ known nz ex 5 ∧
  ids (call nz (follow [3; 4; 1; 2]) (OpGetOrderedAncestors 5) ex) = Some [3; 4; 1; 2] ∧
  ids (call nz (follow [4; 3; 1; 2]) (OpGetOrderedAncestors 5) ex) = Some [3; 4; 1; 2].
Proof. split_and!; [exact ex_reachable|by_computing|vm_compute; reflexivity..]. Qed.
Print Assumptions C100_which_ancestor_lists.
