(** * The properties of pkg/dag

    [reachable isz g]: some sequence of API calls builds [g], whatever the zero test
    [isz] on keys and whatever the map iteration orders were.  [legal σ]: the
    iteration orders of the call under consideration, arbitrary as well. *)
From stdpp Require Import base list gmap relations sorting strings pretty.
From Verif Require Import GoBase SetModel DagModel DagSpec DagObs DagExample
  DagFuel DagPropProofs.

Theorem C01_acyclic {K T : Type} `{Countable K} `{Inhabited T} (isz : K → bool)
    (g : graph K T) v :
  reachable isz g →
  ¬ tc (has_edge isz g) v v ∧
  (∀ σ m g', legal σ → call isz σ (OpGetDescendants v) g = Ok (RMapErr (inr m), g') → m !! v = None) ∧
  (∀ σ m g', legal σ → call isz σ (OpGetAncestors v) g = Ok (RMapErr (inr m), g') → m !! v = None).
Proof. exact (p01 isz g v). Qed.
Example C01_example :
  reachable nz ex ∧ has_edge nz ex 1 2 ∧ has_edge nz ex 2 3 ∧
  ids (call nz zigzag (OpGetDescendants 1) ex) = Some [2; 3; 4; 5] ∧
  ids (call nz zigzag (OpGetAncestors 5) ex) = Some [1; 2; 3; 4].
Proof. by_computing. Qed.
Print Assumptions C01_acyclic.

Theorem C02_loop_detection_exact {K T : Type} `{Countable K} `{Inhabited T} (isz : K → bool)
    σ (g : graph K T) s t :
  reachable isz g → legal σ →
  known isz g s → known isz g t → s ≠ t → ¬ has_edge isz g s t →
  ∃ r g', call isz σ (OpAddEdge s t) g = Ok (RErr r, g') ∧
    (r = Some ErrEdgeLoop ↔ tc (has_edge isz g) t s) ∧
    (¬ tc (has_edge isz g) t s → r = None ∧ has_edge isz g' s t).
Proof. exact (p02 isz σ g s t). Qed.
Example C02_example :
  reachable nz ex ∧ known nz ex 5 ∧ known nz ex 1 ∧ ¬ has_edge nz ex 5 1 ∧
  reply (OpAddEdge 5 1) ex = Some (RErr (Some ErrEdgeLoop)) ∧
  reply (OpAddEdge 1 5) ex = Some (RErr None).
Proof. by_computing. Qed.
Print Assumptions C02_loop_detection_exact.

Theorem C03_refinement {K T : Type} `{Countable K} `{Inhabited T} (isz : K → bool)
    (h : list (schedule K * op K T)) :
  legal_history h →
  ∃ outs g a, run isz h NewAcyclicGraph = Ok (outs, g) ∧
    spec_run isz empty_graph (map snd h) outs a ∧
    (∀ k x, has_vertex isz g k x ↔ av a !! k = Some x) ∧
    (∀ s t, has_edge isz g s t ↔ (s, t) ∈ ae a).
Proof. exact (p03 isz h). Qed.
Example C03_example : legal_history ex_history ∧ length ex_history = 14 ∧
  reply OpGetSize ex = Some (RInt 6).
Proof. by_computing. Qed.
Print Assumptions C03_refinement.

Theorem C04_descendants_exact {K T : Type} `{Countable K} `{Inhabited T} (isz : K → bool)
    σ (g : graph K T) id :
  reachable isz g → legal σ →
  ∃ r g', call isz σ (OpGetDescendants id) g = Ok (RMapErr r, g') ∧
    match r with
    | inl e => first_violated (vertex_conditions isz g id) (Some e)
    | inr m => first_violated (vertex_conditions isz g id) None ∧
               exactly isz g (λ k, tc (has_edge isz g) id k) m
    end.
Proof. exact (p04d isz σ g id). Qed.
Example C04_descendants_example :
  reachable nz ex ∧ ids (call nz zigzag (OpGetDescendants 4) ex) = Some [3; 5] ∧
  reply (OpGetDescendants 9) ex = Some (RMapErr (inl ErrVertexNotFound)).
Proof. by_computing. Qed.
Print Assumptions C04_descendants_exact.

Theorem C04_ancestors_exact {K T : Type} `{Countable K} `{Inhabited T} (isz : K → bool)
    σ (g : graph K T) id :
  reachable isz g → legal σ →
  ∃ r g', call isz σ (OpGetAncestors id) g = Ok (RMapErr r, g') ∧
    match r with
    | inl e => first_violated (vertex_conditions isz g id) (Some e)
    | inr m => first_violated (vertex_conditions isz g id) None ∧
               exactly isz g (λ k, tc (has_edge isz g) k id) m
    end.
Proof. exact (p04a isz σ g id). Qed.
Example C04_ancestors_example :
  reachable nz ex ∧ ids (call nz zigzag (OpGetAncestors 3) ex) = Some [1; 2; 4] ∧
  reply (OpGetAncestors 0) ex = Some (RMapErr (inl ErrVertexIDEmpty)).
Proof. by_computing. Qed.
Print Assumptions C04_ancestors_exact.

Theorem C05_failed_calls_change_nothing {K T : Type} `{Countable K} `{Inhabited T} (isz : K → bool)
    σ o e (g : graph K T) (g' : graph K T) h :
  reachable isz g → legal σ → legal_pairs h →
  mutating o = true → call isz σ o g = Ok (RErr (Some e), g') →
  agree isz h g' g ∧
  (∀ k x, has_vertex isz g' k x ↔ has_vertex isz g k x) ∧
  (∀ s t, has_edge isz g' s t ↔ has_edge isz g s t).
Proof. exact (p05 isz σ o e g g' h). Qed.
(** The failing call fills caches: the graph is not the same value afterwards. *)
Example C05_example :
  reachable nz ex ∧ mutating (OpAddEdge (T:=nat) 5 1) = true ∧
  reply (OpAddEdge 5 1) ex = Some (RErr (Some ErrEdgeLoop)) ∧
  descendantsCache (after (OpAddEdge 5 1) ex) ≠ descendantsCache ex.
Proof. by_computing. Qed.
Print Assumptions C05_failed_calls_change_nothing.

Theorem C06_delete_vertex {K T : Type} `{Countable K} `{Inhabited T} (isz : K → bool)
    σ (g : graph K T) v :
  reachable isz g → legal σ →
  ∃ r g', call isz σ (OpDeleteVertex v) g = Ok (RErr r, g') ∧
    first_violated (vertex_conditions isz g v) r ∧
    (r = None ↔ known isz g v) ∧
    (r = None →
      (∀ k x, has_vertex isz g' k x ↔ has_vertex isz g k x ∧ k ≠ v) ∧
      (∀ s t, has_edge isz g' s t ↔ has_edge isz g s t ∧ s ≠ v ∧ t ≠ v)).
Proof. exact (p06 isz σ g v). Qed.
Example C06_example :
  reachable nz ex ∧ reply (OpDeleteVertex 3) ex = Some (RErr None) ∧
  ids (call nz zigzag (OpGetDescendants 1) (after (OpDeleteVertex 3) ex)) = Some [2; 4] ∧
  reply OpGetSize (after (OpDeleteVertex 3) ex) = Some (RInt 2).
Proof. by_computing. Qed.
Print Assumptions C06_delete_vertex.

Theorem C07_add_edge {K T : Type} `{Countable K} `{Inhabited T} (isz : K → bool)
    σ (g : graph K T) s t (g' : graph K T) :
  reachable isz g → legal σ → call isz σ (OpAddEdge s t) g = Ok (RErr None, g') →
  ¬ has_edge isz g s t ∧
  (∀ k x, has_vertex isz g' k x ↔ has_vertex isz g k x) ∧
  (∀ x y, has_edge isz g' x y ↔ has_edge isz g x y ∨ (x = s ∧ y = t)).
Proof. exact (p07a isz σ g s t g'). Qed.
Example C07_add_example :
  reachable nz ex ∧ reply (OpAddEdge 6 1) ex = Some (RErr None) ∧
  ids (call nz zigzag (OpGetAncestors 2) (after (OpAddEdge 6 1) ex)) = Some [1; 6].
Proof. by_computing. Qed.
Print Assumptions C07_add_edge.

Theorem C07_delete_edge {K T : Type} `{Countable K} `{Inhabited T} (isz : K → bool)
    σ (g : graph K T) s t :
  reachable isz g → legal σ →
  ∃ r g', call isz σ (OpDeleteEdge s t) g = Ok (RErr r, g') ∧
    (r = None ↔ has_edge isz g s t) ∧
    (r = None →
      (∀ k x, has_vertex isz g' k x ↔ has_vertex isz g k x) ∧
      (∀ x y, has_edge isz g' x y ↔ has_edge isz g x y ∧ ¬ (x = s ∧ y = t))).
Proof. exact (p07d isz σ g s t). Qed.
Example C07_delete_example :
  reachable nz ex ∧ reply (OpDeleteEdge 3 5) ex = Some (RErr None) ∧
  reply (OpDeleteEdge 1 5) ex = Some (RErr (Some ErrEdgeNotFound)) ∧
  ids (call nz zigzag (OpGetAncestors 5) (after (OpDeleteEdge 3 5) ex)) = Some [].
Proof. by_computing. Qed.
Print Assumptions C07_delete_edge.

Theorem C08_add_vertex {K T : Type} `{Countable K} `{Inhabited T} (isz : K → bool)
    σ (g : graph K T) v x :
  reachable isz g → legal σ →
  ∃ r g', call isz σ (OpAddVertex v x) g = Ok (RErr r, g') ∧
    first_violated [(isz v = true, ErrVertexIDEmpty); (known isz g v, ErrVertexDuplicate)] r ∧
    (∀ s t, has_edge isz g' s t ↔ has_edge isz g s t) ∧
    (r ≠ None → ∀ k y, has_vertex isz g' k y ↔ has_vertex isz g k y) ∧
    (r = None →
      (∀ k y, has_vertex isz g' k y ↔ (k = v ∧ y = x) ∨ (k ≠ v ∧ has_vertex isz g k y)) ∧
      (∀ σ', legal σ' → ∃ g1 g2 g3 g4,
        call isz σ' (OpGetParents v) g' = Ok (RMapErr (inr ∅), g1) ∧
        call isz σ' (OpGetChildren v) g' = Ok (RMapErr (inr ∅), g2) ∧
        call isz σ' (OpGetAncestors v) g' = Ok (RMapErr (inr ∅), g3) ∧
        call isz σ' (OpGetDescendants v) g' = Ok (RMapErr (inr ∅), g4))).
Proof. exact (p08 isz σ g v x). Qed.
Example C08_example :
  reachable nz ex ∧ reply (OpAddVertex 7 70) ex = Some (RErr None) ∧
  reply (OpAddVertex 1 99) ex = Some (RErr (Some ErrVertexDuplicate)) ∧
  reply (OpGetVertex 1) (after (OpAddVertex 1 99) ex) = Some (RVertex (inr 10)).
Proof. by_computing. Qed.
Print Assumptions C08_add_vertex.

Theorem C09_vertex_error_precedence {K T : Type} `{Countable K} `{Inhabited T} (isz : K → bool)
    σ (g : graph K T) o id r (g' : graph K T) :
  reachable isz g → legal σ → vertex_call o = Some id →
  call isz σ o g = Ok (r, g') → first_violated (vertex_conditions isz g id) (out_err r).
Proof. exact (p09v isz σ g o id r g'). Qed.
Example C09_vertex_example :
  vertex_call (OpGetOrderedAncestors (T:=nat) 9) = Some 9 ∧
  reply (OpGetOrderedAncestors 9) ex = Some (RList (inl ErrVertexNotFound)) ∧
  reply (OpDeleteVertex 0) ex = Some (RErr (Some ErrVertexIDEmpty)).
Proof. by_computing. Qed.
Print Assumptions C09_vertex_error_precedence.

Theorem C09_add_vertex_error_precedence {K T : Type} `{Countable K} `{Inhabited T} (isz : K → bool)
    σ (g : graph K T) v x r (g' : graph K T) :
  reachable isz g → legal σ → call isz σ (OpAddVertex v x) g = Ok (r, g') →
  first_violated [(isz v = true, ErrVertexIDEmpty); (known isz g v, ErrVertexDuplicate)] (out_err r).
Proof. exact (p09a isz σ g v x r g'). Qed.
Example C09_add_vertex_example :
  reply (OpAddVertex 0 1) ex = Some (RErr (Some ErrVertexIDEmpty)).
Proof. by_computing. Qed.
Print Assumptions C09_add_vertex_error_precedence.

Theorem C09_add_edge_error_precedence {K T : Type} `{Countable K} `{Inhabited T} (isz : K → bool)
    σ (g : graph K T) s t r (g' : graph K T) :
  reachable isz g → legal σ → call isz σ (OpAddEdge s t) g = Ok (r, g') →
  first_violated (edge_conditions isz g s t ++
    [(has_edge isz g s t, ErrEdgeDuplicate); (tc (has_edge isz g) t s, ErrEdgeLoop)]) (out_err r).
Proof. exact (p09e isz σ g s t r g'). Qed.
Example C09_add_edge_example :
  reply (OpAddEdge 0 0) ex = Some (RErr (Some ErrEdgeSourceIDEmpty)) ∧
  reply (OpAddEdge 9 9) ex = Some (RErr (Some ErrEdgeSourceTargetIdentical)) ∧
  reply (OpAddEdge 9 8) ex = Some (RErr (Some ErrEdgeSourceIDNotFound)) ∧
  reply (OpAddEdge 1 2) ex = Some (RErr (Some ErrEdgeDuplicate)).
Proof. by_computing. Qed.
Print Assumptions C09_add_edge_error_precedence.

Theorem C09_delete_edge_error_precedence {K T : Type} `{Countable K} `{Inhabited T} (isz : K → bool)
    σ (g : graph K T) s t r (g' : graph K T) :
  reachable isz g → legal σ → call isz σ (OpDeleteEdge s t) g = Ok (r, g') →
  first_violated (edge_conditions isz g s t ++ [(¬ has_edge isz g s t, ErrEdgeNotFound)]) (out_err r).
Proof. exact (p09d isz σ g s t r g'). Qed.
Example C09_delete_edge_example :
  reply (OpDeleteEdge 1 0) ex = Some (RErr (Some ErrEdgeTargetIDEmpty)) ∧
  reply (OpDeleteEdge 1 9) ex = Some (RErr (Some ErrEdgeTargetIDNotFound)) ∧
  reply (OpDeleteEdge 2 1) ex = Some (RErr (Some ErrEdgeNotFound)).
Proof. by_computing. Qed.
Print Assumptions C09_delete_edge_error_precedence.

Theorem C09_is_edge_error_precedence {K T : Type} `{Countable K} `{Inhabited T} (isz : K → bool)
    σ (g : graph K T) s t r (g' : graph K T) :
  reachable isz g → legal σ → call isz σ (OpIsEdge s t) g = Ok (r, g') →
  first_violated (edge_conditions isz g s t) (out_err r).
Proof. exact (p09i isz σ g s t r g'). Qed.
Example C09_is_edge_example :
  reply (OpIsEdge 2 1) ex = Some (RBool (false, None)) ∧
  reply (OpIsEdge 2 2) ex = Some (RBool (false, Some ErrEdgeSourceTargetIdentical)).
Proof. by_computing. Qed.
Print Assumptions C09_is_edge_error_precedence.

Theorem C10_parents_children_edges_agree {K T : Type} `{Countable K} `{Inhabited T} (isz : K → bool)
    σ1 σ2 (g : graph K T) s t :
  reachable isz g → legal σ1 → legal σ2 → known isz g s → known isz g t →
  ∃ ps cs g1 g2,
    call isz σ1 (OpGetParents t) g = Ok (RMapErr (inr ps), g1) ∧
    call isz σ2 (OpGetChildren s) g = Ok (RMapErr (inr cs), g2) ∧
    (is_Some (ps !! s) ↔ has_edge isz g s t) ∧
    (is_Some (cs !! t) ↔ has_edge isz g s t) ∧
    (∀ k x, ps !! k = Some x → has_vertex isz g k x) ∧
    (∀ k x, cs !! k = Some x → has_vertex isz g k x).
Proof. exact (p10 isz σ1 σ2 g s t). Qed.
Example C10_example :
  reachable nz ex ∧ known nz ex 1 ∧ known nz ex 3 ∧ has_edge nz ex 1 3 ∧
  ids (call nz zigzag (OpGetParents 3) ex) = Some [1; 2; 4] ∧
  ids (call nz zigzag (OpGetChildren 1) ex) = Some [2; 3; 4].
Proof. by_computing. Qed.
Print Assumptions C10_parents_children_edges_agree.

Theorem C11_roots {K T : Type} `{Countable K} `{Inhabited T} (isz : K → bool)
    σ (g : graph K T) :
  reachable isz g → legal σ →
  ∃ m g', call isz σ OpGetRoots g = Ok (RMap m, g') ∧
    exactly isz g (λ k, ∀ s, ¬ has_edge isz g s k) m ∧
    (∀ v, known isz g v → ∃ r, is_Some (m !! r) ∧ rtc (has_edge isz g) r v).
Proof. exact (p11r isz σ g). Qed.
Example C11_roots_example :
  reachable nz ex ∧ ids (call nz zigzag OpGetRoots ex) = Some [1; 6].
Proof. by_computing. Qed.
Print Assumptions C11_roots.

Theorem C11_leaves {K T : Type} `{Countable K} `{Inhabited T} (isz : K → bool)
    σ (g : graph K T) :
  reachable isz g → legal σ →
  ∃ m g', call isz σ OpGetLeaves g = Ok (RMap m, g') ∧
    exactly isz g (λ k, ∀ t, ¬ has_edge isz g k t) m ∧
    (∀ v, known isz g v → ∃ l, is_Some (m !! l) ∧ rtc (has_edge isz g) v l).
Proof. exact (p11l isz σ g). Qed.
Example C11_leaves_example :
  reachable nz ex ∧ ids (call nz zigzag OpGetLeaves ex) = Some [5; 6].
Proof. by_computing. Qed.
Print Assumptions C11_leaves.

Theorem C12_order_and_size {K T : Type} `{Countable K} `{Inhabited T} (isz : K → bool)
    σ (g : graph K T) :
  reachable isz g → legal σ →
  ∃ vs es g1 g2,
    call isz σ OpGetOrder g = Ok (RInt (length vs), g1) ∧
    call isz σ OpGetSize g = Ok (RInt (length es), g2) ∧
    NoDup vs ∧ (∀ k, k ∈ vs ↔ known isz g k) ∧
    NoDup es ∧ (∀ s t, (s, t) ∈ es ↔ has_edge isz g s t).
Proof. exact (p12 isz σ g). Qed.
Example C12_example :
  reachable nz ex ∧ reply OpGetOrder ex = Some (RInt 6) ∧ reply OpGetSize ex = Some (RInt 6) ∧
  reply OpGetSize (after (OpDeleteVertex 1) ex) = Some (RInt 3).
Proof. by_computing. Qed.
Print Assumptions C12_order_and_size.

Theorem C13_duality {K T : Type} `{Countable K} `{Inhabited T} (isz : K → bool)
    σ1 σ2 (g : graph K T) a b ma md (g1 : graph K T) (g2 : graph K T) :
  reachable isz g → legal σ1 → legal σ2 →
  call isz σ1 (OpGetAncestors b) g = Ok (RMapErr (inr ma), g1) →
  call isz σ2 (OpGetDescendants a) g = Ok (RMapErr (inr md), g2) →
  is_Some (ma !! a) ↔ is_Some (md !! b).
Proof. exact (p13 isz σ1 σ2 g a b ma md g1 g2). Qed.
Example C13_example :
  reachable nz ex ∧ ids (call nz zigzag (OpGetAncestors 5) ex) = Some [1; 2; 3; 4] ∧
  ids (call nz any_order (OpGetDescendants 2) ex) = Some [3; 5].
Proof. by_computing. Qed.
Print Assumptions C13_duality.

Theorem C14_reduction_preserves_reachability {K T : Type} `{Countable K} `{Inhabited T} (isz : K → bool)
    σ (g : graph K T) :
  reachable isz g → legal σ →
  ∃ g', call isz σ OpReduceTransitively g = Ok (RUnit, g') ∧
    (∀ k x, has_vertex isz g' k x ↔ has_vertex isz g k x) ∧
    (∀ s t, has_edge isz g' s t → has_edge isz g s t) ∧
    (∀ s t, tc (has_edge isz g') s t ↔ tc (has_edge isz g) s t) ∧
    (∀ o, (∃ v, o = OpGetAncestors v ∨ o = OpGetDescendants v) →
      ∀ σ1 σ2 r1 r2 g1 g2, legal σ1 → legal σ2 →
        call isz σ1 o g = Ok (r1, g1) → call isz σ2 o g' = Ok (r2, g2) → r1 = r2).
Proof. exact (p14 isz σ g). Qed.
Example C14_example :
  reachable nz ex ∧ reply OpGetSize (after OpReduceTransitively ex) = Some (RInt 5) ∧
  ids (call nz zigzag (OpGetDescendants 1) (after OpReduceTransitively ex)) = Some [2; 3; 4; 5].
Proof. by_computing. Qed.
Print Assumptions C14_reduction_preserves_reachability.

Theorem C15_reduction_minimal {K T : Type} `{Countable K} `{Inhabited T} (isz : K → bool)
    σ σ2 (g : graph K T) (g' : graph K T) (g'' : graph K T) :
  reachable isz g → legal σ → legal σ2 →
  call isz σ OpReduceTransitively g = Ok (RUnit, g') →
  call isz σ2 OpReduceTransitively g' = Ok (RUnit, g'') →
  (∀ u v, has_edge isz g' u v →
     ¬ ∃ c, has_edge isz g' u c ∧ tc (has_edge isz g') c v) ∧
  (∀ R : relation K, (∀ x y, tc R x y ↔ tc (has_edge isz g) x y) →
     ∀ u v, has_edge isz g' u v → R u v) ∧
  (∀ u v, has_edge isz g'' u v ↔ has_edge isz g' u v).
Proof. exact (p15 isz σ σ2 g g' g''). Qed.
Example C15_example :
  reachable nz ex ∧
  reply OpReduceTransitively ex = Some RUnit ∧
  reply OpReduceTransitively (after OpReduceTransitively ex) = Some RUnit ∧
  has_edge nz ex 1 3 ∧ ¬ has_edge nz (after OpReduceTransitively ex) 1 3 ∧
  has_edge nz (after OpReduceTransitively ex) 1 4.
Proof. by_computing. Qed.
Print Assumptions C15_reduction_minimal.

Theorem C16_ordered_descendants {K T : Type} `{Countable K} `{Inhabited T} (isz : K → bool)
    σ (g : graph K T) v :
  reachable isz g → legal σ →
  ∃ r g', call isz σ (OpGetOrderedDescendants v) g = Ok (RList r, g') ∧
    match r with
    | inl e => first_violated (vertex_conditions isz g v) (Some e)
    | inr l => first_violated (vertex_conditions isz g v) None ∧ bfs_order (has_edge isz g) v l
    end.
Proof. exact (p16d isz σ g v). Qed.
Example C16_descendants_example :
  reachable nz ex ∧ ids (call nz zigzag (OpGetOrderedDescendants 1) ex) = Some [4; 2; 3; 5] ∧
  ids (call nz any_order (OpGetOrderedDescendants 1) ex) = Some [3; 2; 4; 5].
Proof. by_computing. Qed.
Print Assumptions C16_ordered_descendants.

Theorem C16_ordered_ancestors {K T : Type} `{Countable K} `{Inhabited T} (isz : K → bool)
    σ (g : graph K T) v :
  reachable isz g → legal σ →
  ∃ r g', call isz σ (OpGetOrderedAncestors v) g = Ok (RList r, g') ∧
    match r with
    | inl e => first_violated (vertex_conditions isz g v) (Some e)
    | inr l => first_violated (vertex_conditions isz g v) None ∧ bfs_order (flip (has_edge isz g)) v l
    end.
Proof. exact (p16a isz σ g v). Qed.
Example C16_ancestors_example :
  reachable nz ex ∧ ids (call nz zigzag (OpGetOrderedAncestors 5) ex) = Some [3; 1; 2; 4].
Proof. by_computing. Qed.
Print Assumptions C16_ordered_ancestors.

Theorem C20_no_panic {K T : Type} `{Countable K} `{Inhabited T} (isz : K → bool)
    σ (o : op K T) (g : graph K T) :
  reachable isz g → legal σ → ∃ r g', call isz σ o g = Ok (r, g') ∧ reachable isz g'.
Proof. exact (p20 isz σ o g). Qed.
Example C20_example :
  reachable nz ex ∧ legal zigzag ∧ is_Some (reply OpReduceTransitively ex).
Proof. by_computing. Qed.
Print Assumptions C20_no_panic.

Theorem C21_iteration_order_irrelevant {K T : Type} `{Countable K} `{Inhabited T} (isz : K → bool)
    h (g : graph K T) :
  reachable isz g → legal_pairs h → agree isz h g g.
Proof. exact (p21 isz h g). Qed.
(** The order of siblings is what may differ (see [C16_descendants_example]). *)
Example C21_example :
  reachable nz ex ∧
  legal_pairs [(zigzag, any_order, OpAddEdge (T:=nat) 5 6); (any_order, zigzag, OpReduceTransitively)].
Proof.
  split; [exact ex_reachable|]. repeat constructor; apply zigzag_legal || apply any_order_legal.
Qed.
Print Assumptions C21_iteration_order_irrelevant.

Theorem C22_queries_pure {K T : Type} `{Countable K} `{Inhabited T} (isz : K → bool)
    σ o (g : graph K T) r (g' : graph K T) h :
  reachable isz g → legal σ → legal_pairs h →
  mutating o = false → call isz σ o g = Ok (r, g') →
  agree isz h g' g ∧
  (∀ k x, has_vertex isz g' k x ↔ has_vertex isz g k x) ∧
  (∀ s t, has_edge isz g' s t ↔ has_edge isz g s t).
Proof. exact (p22 isz σ o g r g' h). Qed.
(** The query fills a cache: the graph is not the same value afterwards. *)
Example C22_example :
  reachable nz ex ∧ mutating (OpGetDescendants (T:=nat) 1) = false ∧
  descendantsCache (after (OpGetDescendants 1) ex) ≠ descendantsCache ex.
Proof. by_computing. Qed.
Print Assumptions C22_queries_pure.

Theorem C24_string {K T : Type} `{Countable K} `{Inhabited T} (isz : K → bool)
    σ show (g : graph K T) :
  reachable isz g → legal σ →
  ∃ vs es g',
    call isz σ (OpString show) g
      = Ok (RText (show_graph show (length vs) (length es) vs es), g') ∧
    NoDup vs ∧ (∀ k, k ∈ vs ↔ known isz g k) ∧
    NoDup es ∧ (∀ s t, (s, t) ∈ es ↔ has_edge isz g s t).
Proof. exact (p24 isz σ show g). Qed.
Example C24_example :
  reachable nz ex ∧
  match reply (OpString pretty) (after (OpDeleteVertex 3) ex) with
  | Some (RText s) => s = String.concat nl
      ["DAG Vertices: 5 - Edges: 2"; "Vertices:"; "  1"; "  5"; "  2"; "  4"; "  6";
       "Edges:"; "  1 -> 2"; "  1 -> 4"; ""]
  | _ => False
  end.
Proof. by_computing. Qed.
Print Assumptions C24_string.

Theorem C20_fuel_irrelevant {K T : Type} `{Countable K} `{Inhabited T} (isz : K → bool) (σ : schedule K)
    f1 f2 (g : graph K T) n :
  f1 ≤ f2 →
  (∀ id x, getAncestorsIDs isz σ f1 id g n = Ok x → getAncestorsIDs isz σ f2 id g n = Ok x) ∧
  (∀ id x, getDescendantsIDs isz σ f1 id g n = Ok x → getDescendantsIDs isz σ f2 id g n = Ok x) ∧
  (∀ fifo visited sent x,
     walkAncestorsLoop σ f1 fifo visited sent g n = Ok x →
     walkAncestorsLoop σ f2 fifo visited sent g n = Ok x) ∧
  (∀ fifo visited sent x,
     walkDescendantsLoop σ f1 fifo visited sent g n = Ok x →
     walkDescendantsLoop σ f2 fifo visited sent g n = Ok x).
Proof. exact (p20f isz σ f1 f2 g n). Qed.
Example C20_fuel_example :
  getDescendantsIDs nz zigzag 2 1 ex 0 = OutOfFuel ∧
  is_Ok (getDescendantsIDs nz zigzag 5 1 ex 0).
Proof. by_computing. Qed.
Print Assumptions C20_fuel_irrelevant.
