(** * When the ordered queries list a vertex after those it depends on *)
From stdpp Require Import base list gmap relations sorting strings.
From Verif Require Import GoBase SetModel DagModel DagSpec DagObs DagExample DagTopo.

(** Of the vertices at the same distance each may come first. *)
Theorem C97_any_may_be_first_descendant {K T : Type} `{Countable K} `{Inhabited T} (isz : K → bool)
    (g : graph K T) v y m :
  reachable isz g → known isz g v → dist (has_edge isz g) v y m →
  ∃ σ l g', legal σ ∧ call isz σ (OpGetOrderedDescendants v) g = Ok (RList (inr l), g') ∧
    ∀ i j z, l !! i = Some y → l !! j = Some z → dist (has_edge isz g) v z m → i ≤ j.
Proof. exact (any_first_d isz g v y m). Qed.
(** 2, 3 and 4 are at distance 1 of 1. *)
Example C97_any_first_example :
  reachable nz ex ∧ known nz ex 1 ∧ dist (has_edge nz ex) 1 3 1 ∧
  ids (call nz any_order (OpGetOrderedDescendants 1) ex) = Some [3; 2; 4; 5] ∧
  ids (call nz (prefer [4]) (OpGetOrderedDescendants 1) ex) = Some [4; 3; 2; 5].
Proof.
  split_and!; [exact ex_reachable|by_computing|apply dist_1, an_edge; vm_compute; reflexivity|vm_compute; reflexivity..].
Qed.
Print Assumptions C97_any_may_be_first_descendant.

Theorem C97_any_may_be_first_ancestor {K T : Type} `{Countable K} `{Inhabited T} (isz : K → bool)
    (g : graph K T) v y m :
  reachable isz g → known isz g v → dist (flip (has_edge isz g)) v y m →
  ∃ σ l g', legal σ ∧ call isz σ (OpGetOrderedAncestors v) g = Ok (RList (inr l), g') ∧
    ∀ i j z, l !! i = Some y → l !! j = Some z → dist (flip (has_edge isz g)) v z m → i ≤ j.
Proof. exact (any_first_a isz g v y m). Qed.
Example C97_any_first_ancestor_example :
  reachable nz ex ∧ known nz ex 3 ∧ dist (flip (has_edge nz ex)) 3 4 1 ∧
  ids (call nz (prefer [4]) (OpGetOrderedAncestors 3) ex) = Some [4; 1; 2] ∧
  ids (call nz (prefer [2]) (OpGetOrderedAncestors 3) ex) = Some [2; 1; 4].
Proof.
  split_and!; [exact ex_reachable|by_computing|apply dist_1, an_edge; vm_compute; reflexivity|vm_compute; reflexivity..].
Qed.
Print Assumptions C97_any_may_be_first_ancestor.

Theorem C97_descendants_in_order {K T : Type} `{Countable K} `{Inhabited T} (isz : K → bool)
    (g : graph K T) v :
  reachable isz g → known isz g v →
  (∀ σ l g', legal σ → call isz σ (OpGetOrderedDescendants v) g = Ok (RList (inr l), g') →
     in_order (has_edge isz g) l) ↔
  layered (has_edge isz g) v.
Proof. exact (descendants_in_order isz g v). Qed.
(** Without the edge 1 → 3 the order is right.  With it 3 may come before its parent 2. *)
Example C97_descendants_example :
  (reachable nz neat ∧ known nz neat 1 ∧ layered (has_edge nz neat) 1 ∧
   ids (call nz zigzag (OpGetOrderedDescendants 1) neat) = Some [4; 2; 3; 5]) ∧
  ¬ layered (has_edge nz ex) 1 ∧ has_edge nz ex 2 3 ∧
  ids (call nz zigzag (OpGetOrderedDescendants 1) ex) = Some [4; 2; 3; 5] ∧
  ids (call nz any_order (OpGetOrderedDescendants 1) ex) = Some [3; 2; 4; 5].
Proof.
  split_and!; [exact neat_reachable|by_computing|exact neat_layered|vm_compute; reflexivity| |
    apply an_edge; vm_compute; reflexivity|vm_compute; reflexivity..].
  intros HR. destruct (HR 2 3 1) as (_&_&Hmin).
  - apply dist_1, an_edge. vm_compute. reflexivity.
  - apply an_edge. vm_compute. reflexivity.
  - enough (2 ≤ 1) by lia. apply Hmin; [lia|]. apply nsteps_once, an_edge. vm_compute. reflexivity.
Qed.
Print Assumptions C97_descendants_in_order.

Theorem C97_ancestors_in_order {K T : Type} `{Countable K} `{Inhabited T} (isz : K → bool)
    (g : graph K T) v :
  reachable isz g → known isz g v →
  (∀ σ l g', legal σ → call isz σ (OpGetOrderedAncestors v) g = Ok (RList (inr l), g') →
     in_order (flip (has_edge isz g)) l) ↔
  layered (flip (has_edge isz g)) v.
Proof. exact (ancestors_in_order isz g v). Qed.
Example C97_ancestors_example :
  reachable nz ex ∧ known nz ex 3 ∧ ¬ layered (flip (has_edge nz ex)) 3 ∧ has_edge nz ex 1 2 ∧
  ids (call nz (prefer [2; 4]) (OpGetOrderedAncestors 3) ex) = Some [2; 4; 1] ∧
  ids (call nz (prefer [1]) (OpGetOrderedAncestors 3) ex) = Some [1; 2; 4].
Proof.
  split_and!; [exact ex_reachable|by_computing| |apply an_edge; vm_compute; reflexivity|vm_compute; reflexivity..].
  intros HR. destruct (HR 2 1 1) as (_&_&Hmin).
  - apply dist_1, an_edge. vm_compute. reflexivity.
  - apply an_edge. vm_compute. reflexivity.
  - enough (2 ≤ 1) by lia. apply Hmin; [lia|]. apply nsteps_once, an_edge. vm_compute. reflexivity.
Qed.
Print Assumptions C97_ancestors_in_order.

(** An edge that leads back to a smaller distance: the order is wrong whatever the schedule. *)
Theorem C97_never_in_order {K T : Type} `{Countable K} `{Inhabited T} (isz : K → bool)
    σ (g : graph K T) v x y n m l (g' : graph K T) :
  reachable isz g → legal σ →
  dist (has_edge isz g) v x n → has_edge isz g x y → dist (has_edge isz g) v y m → m < n →
  call isz σ (OpGetOrderedDescendants v) g = Ok (RList (inr l), g') → ¬ in_order (has_edge isz g) l.
Proof. exact (never_in_order isz σ g v x y n m l g'). Qed.
(** The edge 5 → 6 leads from distance 2 to distance 1, and 6 is listed before 5. *)
Example C97_never_example :
  reachable nz back ∧ dist (has_edge nz back) 1 5 2 ∧ has_edge nz back 5 6 ∧ dist (has_edge nz back) 1 6 1 ∧
  ids (call nz (prefer [5; 3]) (OpGetOrderedDescendants 1) back) = Some [3; 2; 4; 6; 5].
Proof.
  split; [exact back_reachable|]. destruct back_nearer as (?&?&?&_). split_and!; [done..|vm_compute; reflexivity].
Qed.
Print Assumptions C97_never_in_order.

Theorem C97_ancestors_never_in_order {K T : Type} `{Countable K} `{Inhabited T} (isz : K → bool)
    σ (g : graph K T) v x y n m l (g' : graph K T) :
  reachable isz g → legal σ →
  dist (flip (has_edge isz g)) v x n → has_edge isz g y x → dist (flip (has_edge isz g)) v y m → m < n →
  call isz σ (OpGetOrderedAncestors v) g = Ok (RList (inr l), g') → ¬ in_order (flip (has_edge isz g)) l.
Proof. exact (ancestors_never_in_order isz σ g v x y n m l g'). Qed.
Example C97_ancestors_never_example :
  reachable nz back ∧ dist (flip (has_edge nz back)) 6 3 2 ∧ has_edge nz back 1 3 ∧
  dist (flip (has_edge nz back)) 6 1 1 ∧
  ids (call nz (prefer [3; 5]) (OpGetOrderedAncestors 6) back) = Some [5; 1; 3; 2; 4].
Proof.
  split; [exact back_reachable|]. destruct back_nearer as (_&_&_&?&?&?). split_and!; [done..|vm_compute; reflexivity].
Qed.
Print Assumptions C97_ancestors_never_in_order.

(** Whatever the iteration orders: some vertex is listed before one of its parents, and
    some vertex before one of its children. *)
Theorem C96_topological_refuted :
  ∃ (g : graph nat nat) v w, reachable nz g ∧ known nz g v ∧ known nz g w ∧
    (∀ σ l g', legal σ → call nz σ (OpGetOrderedDescendants v) g = Ok (RList (inr l), g') →
       ¬ in_order (has_edge nz g) l) ∧
    (∀ σ l g', legal σ → call nz σ (OpGetOrderedAncestors w) g = Ok (RList (inr l), g') →
       ¬ in_order (flip (has_edge nz g)) l).
Proof. exact topological_refuted. Qed.
Example C96_example :
  ids (call nz zigzag (OpGetOrderedDescendants 1) back) = Some [6; 4; 2; 3; 5] ∧
  ids (call nz zigzag (OpGetOrderedAncestors 6) back) = Some [5; 1; 3; 2; 4].
Proof. split; vm_compute; reflexivity. Qed.
Print Assumptions C96_topological_refuted.
