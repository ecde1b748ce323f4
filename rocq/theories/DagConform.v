(** * The graph and the sets against the tests of pkg/dag

    Generated from the test tables of /repo/pkg/dag/dag_test.go and set_test.go: the name of a
    case and whether the model gives what the test expects, with three orders of the range
    loops.  A test graph is made of its maps, as in buildTestGraph, and need not be one that
    calls can make.  Like the tests, the checks look only at the error where one is expected,
    and take an error for an empty result where none is mentioned.  Left out are the
    benchmarks.  TestSet_List/Values and TestAcyclicGraph_DescendantsWalker_Signal expect a
    certain order of a range loop, so they can fail: the order of the first is not compared
    here, and the second holds with the one order used for the walkers. *)
From stdpp Require Import base list gmap strings pretty.
From Verif Require Import GoBase SetModel DagModel DagObs WalkModel WalkExample.

Global Instance err_dec : EqDecision err. Proof. solve_decision. Defined.
Notation gr := (graph string nat).
Definition empty_id (s : string) : bool := bool_decide (s = "").
Definition turning : schedule string := λ n l, rotate n l.
Definition orders : list (schedule string) := [λ _ l, l; λ _ l, reverse l; turning].
Definition sets_of (l : list (string * list string)) : gmap string (goset string) :=
  list_to_map (map (λ x, (x.1, list_to_map (map (λ v, (v, v)) x.2))) l).
Definition G (vs : list (string * nat)) (i o : list (string * list string)) : gr :=
  Graph (list_to_map vs) (sets_of i) (sets_of o) ∅ ∅.
Definition same_out_b (r r' : out string nat) : bool :=
  match r, r' with
  | RErr e, RErr e' => bool_decide (e = e')
  | RVertex v, RVertex v' => bool_decide (v = v')
  | RInt n, RInt n' => bool_decide (n = n')
  | RMap m, RMap m' => bool_decide (m = m')
  | _, _ => false
  end.
Definition with_orders (f : schedule string → bool) : bool := forallb f orders.
Definition gives (o : op string nat) (g : gr) (r : out string nat) : bool :=
  with_orders (λ σ, match call empty_id σ o g with Ok (r', _) => same_out_b r r' | _ => false end).
Definition size_order (σ : schedule string) (g : gr) : option (nat * nat) :=
  match call empty_id σ OpGetOrder g, call empty_id σ OpGetSize g with
  | Ok (RInt n, _), Ok (RInt m, _) => Some (n, m)
  | _, _ => None
  end.
Definition changes (edges : bool) (o : op string nat) (g : gr) (e : option err) (w : gr) : bool :=
  with_orders (λ σ, match call empty_id σ o g with
    | Ok (RErr e', g') =>
        bool_decide (e = e') &&
        match e with
        | Some _ => true
        | None =>
            bool_decide (vertices g' = vertices w) &&
            (negb edges || bool_decide (inboundEdges g' = inboundEdges w) && bool_decide (outboundEdges g' = outboundEdges w)) &&
            bool_decide (size_order σ g' = size_order σ w) && bool_decide (is_Some (size_order σ w))
        end
    | _ => false
    end).
Definition is_edge (s t : string) (g : gr) (e : option err) (b : bool) : bool :=
  with_orders (λ σ, match call empty_id σ (OpIsEdge s t) g with
    | Ok (RBool (b', e'), _) => match e with Some _ => bool_decide (e = e') | None => bool_decide (b = b') end
    | _ => false
    end).
Definition selects (o : op string nat) (g : gr) (e : option err) (w : list (string * nat)) : bool :=
  with_orders (λ σ, match call empty_id σ o g with
    | Ok (RMapErr r, _) =>
        match e, r with
        | Some e, inl e' => bool_decide (e = e')
        | Some _, inr _ => false
        | None, inl _ => bool_decide (w = [])
        | None, inr m => bool_decide (m = list_to_map w)
        end
    | _ => false
    end).
(** Each level is a permutation of the next ids; ids after the last level are not looked at. *)
Fixpoint by_level (w : list (list string)) (l : list string) : bool :=
  match w with
  | [] => true
  | x :: w => bool_decide (length x ≤ length l) && bool_decide (take (length x) l ≡ₚ x) && by_level w (drop (length x) l)
  end.
Definition ordered (o : op string nat) (g : gr) (e : option err) (w : list (list string)) : bool :=
  with_orders (λ σ, match call empty_id σ o g with
    | Ok (RList r, _) =>
        match e, r with
        | Some e, inl e' => bool_decide (e = e')
        | Some _, inr _ => false
        | None, inl _ => bool_decide (w = [])
        | None, inr l => match w with [] => bool_decide (l = []) | _ => by_level w l end
        end
    | _ => false
    end).
Definition reduces (g w : gr) : bool :=
  with_orders (λ σ, match call empty_id σ OpReduceTransitively g with
    | Ok (RUnit, g') =>
        bool_decide (vertices g' = vertices w) && bool_decide (inboundEdges g' = inboundEdges w) &&
        bool_decide (outboundEdges g' = outboundEdges w) && bool_decide (ancestorsCache g' = ancestorsCache w) &&
        bool_decide (descendantsCache g' = descendantsCache w)
    | _ => false
    end).
Definition built (os : list (op string nat)) : gr :=
  match run empty_id (map (λ o, (λ _ l, l, o)) os) NewAcyclicGraph with Ok (_, g) => g | _ => NewAcyclicGraph end.
(** The text starts with the first line and has the right length. *)
Definition expected_text : string :=
  ("DAG Vertices: 4 - Edges: 3" +:+ nl +:+ "Vertices:" +:+ nl +:+ "  1" +:+ nl +:+ "  2" +:+ nl +:+ "  3" +:+ nl +:+ "  4" +:+ nl +:+
   "Edges:" +:+ nl +:+ "  1 -> 2" +:+ nl +:+ "  2 -> 3" +:+ nl +:+ "  2 -> 4" +:+ nl)%string.
Definition prints : bool :=
  let g := built [OpAddVertex "1" 1; OpAddVertex "2" 2; OpAddVertex "3" 3; OpAddVertex "4" 4; OpAddEdge "1" "2"; OpAddEdge "2" "3"; OpAddEdge "2" "4"] in
  with_orders (λ σ, match call empty_id σ (OpString id) g with
    | Ok (RText s, _) => bool_decide (String.substring 0 26 s = "DAG Vertices: 4 - Edges: 3") && bool_decide (String.length s = String.length expected_text)
    | _ => false
    end).

Section sets.
Context {K : Type} `{Countable K}.
Notation heap := (gmap nat (goset K)).
Definition set_of (l : list K) : goset K := list_to_map (map (λ v, (v, v)) l).
(** Two sets, or nil, in memory *)
Definition memory (a b : option (list K)) : heap :=
  match a with Some l => {[ 0 := set_of l ]} | None => ∅ end ∪ match b with Some l => {[ 1 := set_of l ]} | None => ∅ end.
Definition var_of (n : nat) (a : option (list K)) : setvar := match a with Some _ => Some n | None => None end.
Definition is_set (h : heap) (s : setvar) (w : option (list K)) : bool :=
  match s, w with
  | Some l, Some w => bool_decide (h !! l = Some (set_of w))
  | None, None => true
  | _, _ => false
  end.
Definition adds (v : K) (a w : option (list K)) : bool :=
  match Set_Add (var_of 0 a) v (memory a None) with Ok h => is_set h (var_of 0 a) w | _ => false end.
Definition deletes (v : K) (a w : option (list K)) : bool := is_set (Set_Delete (var_of 0 a) v (memory a None)) (var_of 0 a) w.
Definition includes (v : K) (a : option (list K)) (b : bool) : bool := bool_decide (Set_Includes (var_of 0 a) v (memory a None) = b).
Definition makes (f : schedule K → setvar → setvar → heap → res (heap * setvar)) (a b w : option (list K)) : bool :=
  forallb (λ σ, match f σ (var_of 0 a) (var_of 1 b) (memory a b) with Ok (h, r) => is_set h r w && bool_decide (r ∉ [var_of 0 a; var_of 1 b]) | _ => false end)
    [λ _ l, l; λ _ l, reverse l].
Definition lists (a w : option (list K)) : bool :=
  forallb (λ σ, match Set_List σ (var_of 0 a) (memory a None), w with
    | None, None => true
    | Some l, Some w => bool_decide (l ≡ₚ w)
    | _, _ => false
    end) [λ _ l, l; λ _ l, reverse l].
End sets.

Definition dag_cases : list (string * bool) := [
("TestAcyclicGraph_GetOrder/Empty", gives (OpGetOrder) (G [] [] []) (RInt 0));
("TestAcyclicGraph_GetOrder/Vertices", gives (OpGetOrder) (G [("foo", 1); ("bar", 2)] [] []) (RInt 2));
("TestAcyclicGraph_GetOrder/Edge", gives (OpGetOrder) (G [("foo", 1); ("bar", 2)] [("bar", ["foo"])] [("foo", ["bar"])]) (RInt 2));
("TestAcyclicGraph_GetSize/Empty", gives (OpGetSize) (G [] [] []) (RInt 0));
("TestAcyclicGraph_GetSize/Vertices - No Edge", gives (OpGetSize) (G [("foo", 1); ("bar", 2)] [] []) (RInt 0));
("TestAcyclicGraph_GetSize/One Edge", gives (OpGetSize) (G [("foo", 1); ("bar", 2)] [("bar", ["foo"])] [("foo", ["bar"])]) (RInt 1));
("TestAcyclicGraph_AddVertex/Empty ID", changes false (OpAddVertex "" 1) (G [] [] []) (Some ErrVertexIDEmpty) (G [] [] []));
("TestAcyclicGraph_AddVertex/Duplicate ID", changes false (OpAddVertex "foo" 2) (G [("foo", 1)] [] []) (Some ErrVertexDuplicate) (G [] [] []));
("TestAcyclicGraph_AddVertex/Valid add", changes false (OpAddVertex "foo" 1) (G [] [] []) None (G [("foo", 1)] [] []));
("TestAcyclicGraph_GetVertex/Empty ID", gives (OpGetVertex "") (G [("foo", 1); ("bar", 2)] [] []) (RVertex (inl ErrVertexIDEmpty)));
("TestAcyclicGraph_GetVertex/Missing ID", gives (OpGetVertex "baz") (G [("foo", 1); ("bar", 2)] [] []) (RVertex (inl ErrVertexNotFound)));
("TestAcyclicGraph_GetVertex/Ok", gives (OpGetVertex "foo") (G [("foo", 1); ("bar", 2)] [] []) (RVertex (inr 1)));
("TestAcyclicGraph_DeleteVertex/Empty ID", changes true (OpDeleteVertex "") (G [("foo", 1); ("bar", 2)] [] []) (Some ErrVertexIDEmpty) (G [] [] []));
("TestAcyclicGraph_DeleteVertex/Missing ID", changes true (OpDeleteVertex "baz") (G [("foo", 1); ("bar", 2)] [] []) (Some ErrVertexNotFound) (G [] [] []));
("TestAcyclicGraph_DeleteVertex/Ok - no edges", changes true (OpDeleteVertex "foo") (G [("foo", 1); ("bar", 2)] [] []) None (G [("bar", 2)] [] []));
("TestAcyclicGraph_DeleteVertex/Ok - inbound edges", changes true (OpDeleteVertex "foo") (G [("foo", 1); ("bar", 2)] [("foo", ["bar"])] [("bar", ["foo"])]) None (G [("bar", 2)] [] [("bar", [])]));
("TestAcyclicGraph_DeleteVertex/Ok - outbound edges", changes true (OpDeleteVertex "foo") (G [("foo", 1); ("bar", 2)] [("bar", ["foo"])] [("foo", ["bar"])]) None (G [("bar", 2)] [("bar", [])] []));
("TestAcyclicGraph_AddEdge/Empty Source ID", changes true (OpAddEdge "" "bar") (G [("foo", 1); ("bar", 2)] [] []) (Some ErrEdgeSourceIDEmpty) (G [] [] []));
("TestAcyclicGraph_AddEdge/Empty Target ID", changes true (OpAddEdge "foo" "") (G [("foo", 1); ("bar", 2)] [] []) (Some ErrEdgeTargetIDEmpty) (G [] [] []));
("TestAcyclicGraph_AddEdge/Missing Source ID", changes true (OpAddEdge "baz" "bar") (G [("foo", 1); ("bar", 2)] [] []) (Some ErrEdgeSourceIDNotFound) (G [] [] []));
("TestAcyclicGraph_AddEdge/Missing Target ID", changes true (OpAddEdge "foo" "baz") (G [("foo", 1); ("bar", 2)] [] []) (Some ErrEdgeTargetIDNotFound) (G [] [] []));
("TestAcyclicGraph_AddEdge/Identical IDs", changes true (OpAddEdge "foo" "foo") (G [("foo", 1); ("bar", 2)] [] []) (Some ErrEdgeSourceTargetIdentical) (G [] [] []));
("TestAcyclicGraph_AddEdge/Duplicate", changes true (OpAddEdge "foo" "bar") (G [("foo", 1); ("bar", 2)] [("bar", ["foo"])] [("foo", ["bar"])]) (Some ErrEdgeDuplicate) (G [] [] []));
("TestAcyclicGraph_AddEdge/Loop", changes true (OpAddEdge "foo" "bar") (G [("foo", 1); ("bar", 2)] [("foo", ["bar"])] [("bar", ["foo"])]) (Some ErrEdgeLoop) (G [] [] []));
("TestAcyclicGraph_AddEdge/Ok", changes true (OpAddEdge "foo" "bar") (G [("foo", 1); ("bar", 2)] [] []) None (G [("foo", 1); ("bar", 2)] [("bar", ["foo"])] [("foo", ["bar"])]));
("TestAcyclicGraph_AddEdge/Ok - Descendants", changes true (OpAddEdge "foo" "bar") (G [("foo", 1); ("bar", 2); ("baz", 3)] [("baz", ["bar"])] [("bar", ["baz"])]) None (G [("foo", 1); ("bar", 2); ("baz", 3)] [("bar", ["foo"]); ("baz", ["bar"])] [("foo", ["bar"]); ("bar", ["baz"])]));
("TestAcyclicGraph_AddEdge/Ok - Ancestors", changes true (OpAddEdge "foo" "bar") (G [("foo", 1); ("bar", 2); ("baz", 3)] [("foo", ["baz"])] [("baz", ["foo"])]) None (G [("foo", 1); ("bar", 2); ("baz", 3)] [("bar", ["foo"]); ("foo", ["baz"])] [("foo", ["bar"]); ("baz", ["foo"])]));
("TestAcyclicGraph_IsEdge/Empty Source ID", is_edge "" "bar" (G [("foo", 1); ("bar", 2)] [] []) (Some ErrEdgeSourceIDEmpty) false);
("TestAcyclicGraph_IsEdge/Empty Target ID", is_edge "foo" "" (G [("foo", 1); ("bar", 2)] [] []) (Some ErrEdgeTargetIDEmpty) false);
("TestAcyclicGraph_IsEdge/Missing Source ID", is_edge "baz" "bar" (G [("foo", 1); ("bar", 2)] [] []) (Some ErrEdgeSourceIDNotFound) false);
("TestAcyclicGraph_IsEdge/Missing Target ID", is_edge "foo" "baz" (G [("foo", 1); ("bar", 2)] [] []) (Some ErrEdgeTargetIDNotFound) false);
("TestAcyclicGraph_IsEdge/Identical IDs", is_edge "foo" "foo" (G [("foo", 1); ("bar", 2)] [] []) (Some ErrEdgeSourceTargetIdentical) false);
("TestAcyclicGraph_IsEdge/Edge", is_edge "foo" "bar" (G [("foo", 1); ("bar", 2)] [("bar", ["foo"])] [("foo", ["bar"])]) None true);
("TestAcyclicGraph_IsEdge/No Edges", is_edge "bar" "foo" (G [("foo", 1); ("bar", 2)] [] []) None false);
("TestAcyclicGraph_IsEdge/No Edge on source", is_edge "foo" "bar" (G [("foo", 1); ("bar", 2); ("baz", 2)] [("bar", ["baz"])] [("baz", ["bar"])]) None false);
("TestAcyclicGraph_IsEdge/No Edge on target", is_edge "foo" "bar" (G [("foo", 1); ("bar", 2); ("baz", 2)] [("baz", ["foo"])] [("foo", ["baz"])]) None false);
("TestAcyclicGraph_IsEdge/Wrong Edge on source ", is_edge "foo" "bar" (G [("foo", 1); ("bar", 2); ("baz", 2)] [("baz", ["bar"])] [("bar", ["baz"])]) None false);
("TestAcyclicGraph_IsEdge/Wrong Edge on source and target", is_edge "foo" "bar" (G [("foo", 1); ("bar", 2); ("baz", 2)] [("baz", ["foo"; "bar"])] [("foo", ["baz"]); ("bar", ["baz"])]) None false);
("TestAcyclicGraph_DeleteEdge/Empty Source ID", changes true (OpDeleteEdge "" "bar") (G [("foo", 1); ("bar", 2)] [] []) (Some ErrEdgeSourceIDEmpty) (G [] [] []));
("TestAcyclicGraph_DeleteEdge/Empty Target ID", changes true (OpDeleteEdge "foo" "") (G [("foo", 1); ("bar", 2)] [] []) (Some ErrEdgeTargetIDEmpty) (G [] [] []));
("TestAcyclicGraph_DeleteEdge/Missing Source ID", changes true (OpDeleteEdge "baz" "bar") (G [("foo", 1); ("bar", 2)] [] []) (Some ErrEdgeSourceIDNotFound) (G [] [] []));
("TestAcyclicGraph_DeleteEdge/Missing Target ID", changes true (OpDeleteEdge "foo" "baz") (G [("foo", 1); ("bar", 2)] [] []) (Some ErrEdgeTargetIDNotFound) (G [] [] []));
("TestAcyclicGraph_DeleteEdge/Identical IDs", changes true (OpDeleteEdge "foo" "foo") (G [("foo", 1); ("bar", 2)] [] []) (Some ErrEdgeSourceTargetIdentical) (G [] [] []));
("TestAcyclicGraph_DeleteEdge/Missing Edge", changes true (OpDeleteEdge "foo" "bar") (G [("foo", 1); ("bar", 2)] [] []) (Some ErrEdgeNotFound) (G [] [] []));
("TestAcyclicGraph_DeleteEdge/Ok", changes true (OpDeleteEdge "foo" "bar") (G [("foo", 1); ("bar", 2)] [("bar", ["foo"])] [("foo", ["bar"])]) None (G [("foo", 1); ("bar", 2)] [("bar", [])] [("foo", [])]));
("TestAcyclicGraph_DeleteEdge/Ok - Descendants", changes true (OpDeleteEdge "foo" "bar") (G [("foo", 1); ("bar", 2); ("baz", 3)] [("bar", ["foo"]); ("baz", ["bar"])] [("foo", ["bar"]); ("bar", ["baz"])]) None (G [("foo", 1); ("bar", 2); ("baz", 3)] [("bar", []); ("baz", ["bar"])] [("foo", []); ("bar", ["baz"])]));
("TestAcyclicGraph_DeleteEdge/Ok - Ancestors", changes true (OpDeleteEdge "foo" "bar") (G [("foo", 1); ("bar", 2); ("baz", 3)] [("bar", ["foo"]); ("foo", ["baz"])] [("foo", ["bar"]); ("baz", ["foo"])]) None (G [("foo", 1); ("bar", 2); ("baz", 3)] [("bar", []); ("foo", ["baz"])] [("foo", []); ("baz", ["foo"])]));
("TestAcyclicGraph_GetLeaves/No Vertices", gives OpGetLeaves (G [] [] []) (RMap (list_to_map [])));
("TestAcyclicGraph_GetLeaves/No Edges (all leaves)", gives OpGetLeaves (G [("foo", 1); ("bar", 2)] [] []) (RMap (list_to_map [("foo", 1); ("bar", 2)])));
("TestAcyclicGraph_GetLeaves/Two nodes - one edge", gives OpGetLeaves (G [("foo", 1); ("bar", 2)] [("foo", ["bar"])] [("bar", ["foo"])]) (RMap (list_to_map [("foo", 1)])));
("TestAcyclicGraph_GetLeaves/Three nodes - one edge", gives OpGetLeaves (G [("foo", 1); ("bar", 2); ("baz", 3)] [("baz", ["bar"])] [("bar", ["baz"])]) (RMap (list_to_map [("foo", 1); ("baz", 3)])));
("TestAcyclicGraph_GetRoots/No Vertices", gives OpGetRoots (G [] [] []) (RMap (list_to_map [])));
("TestAcyclicGraph_GetRoots/No Edges (all roots)", gives OpGetRoots (G [("foo", 1); ("bar", 2)] [] []) (RMap (list_to_map [("foo", 1); ("bar", 2)])));
("TestAcyclicGraph_GetRoots/Two nodes - one edge", gives OpGetRoots (G [("foo", 1); ("bar", 2)] [("foo", ["bar"])] [("bar", ["foo"])]) (RMap (list_to_map [("bar", 2)])));
("TestAcyclicGraph_GetRoots/Three nodes - one edge", gives OpGetRoots (G [("foo", 1); ("bar", 2); ("baz", 3)] [("baz", ["bar"])] [("bar", ["baz"])]) (RMap (list_to_map [("foo", 1); ("bar", 2)])));
("TestAcyclicGraph_GetVertices/Empty Graph", gives OpGetVertices (G [] [] []) (RMap (list_to_map [])));
("TestAcyclicGraph_GetVertices/Nodes", gives OpGetVertices (G [("foo", 1); ("bar", 2)] [] []) (RMap (list_to_map [("foo", 1); ("bar", 2)])));
("TestAcyclicGraph_GetParents/Empty ID", selects (OpGetParents "") (G [("foo", 1); ("bar", 2)] [] []) (Some ErrVertexIDEmpty) []);
("TestAcyclicGraph_GetParents/Missing ID", selects (OpGetParents "baz") (G [("foo", 1); ("bar", 2)] [] []) (Some ErrVertexNotFound) []);
("TestAcyclicGraph_GetParents/Empty graph", selects (OpGetParents "") (G [] [] []) None []);
("TestAcyclicGraph_GetParents/No Edges", selects (OpGetParents "foo") (G [("foo", 1); ("bar", 2); ("baz", 3)] [] []) None []);
("TestAcyclicGraph_GetParents/Two Ancestors, No descendants", selects (OpGetParents "foo") (G [("foo", 1); ("bar", 2); ("baz", 3)] [("foo", ["bar"]); ("bar", ["baz"])] [("bar", ["foo"]); ("baz", ["bar"])]) None [("bar", 2)]);
("TestAcyclicGraph_GetParents/One Ancestor, One descendant", selects (OpGetParents "foo") (G [("foo", 1); ("bar", 2); ("baz", 3)] [("foo", ["bar"]); ("baz", ["foo"])] [("bar", ["foo"]); ("foo", ["baz"])]) None [("bar", 2)]);
("TestAcyclicGraph_GetParents/No Ancestors, Two Descendants", selects (OpGetParents "foo") (G [("foo", 1); ("bar", 2); ("baz", 3)] [("bar", ["foo"]); ("baz", ["bar"])] [("foo", ["bar"]); ("bar", ["baz"])]) None []);
("TestAcyclicGraph_GetParents/One Ancestor, No descendants", selects (OpGetParents "foo") (G [("foo", 1); ("bar", 2); ("baz", 3)] [("foo", ["bar"])] [("bar", ["foo"])]) None [("bar", 2)]);
("TestAcyclicGraph_GetParents/No Ancestors, One descendant", selects (OpGetParents "foo") (G [("foo", 1); ("bar", 2); ("baz", 3)] [("bar", ["foo"])] [("foo", ["bar"])]) None []);
("TestAcyclicGraph_GetParents/Two Parents, No descendants", selects (OpGetParents "foo") (G [("foo", 1); ("bar", 2); ("baz", 3)] [("foo", ["bar"; "baz"])] [("bar", ["foo"]); ("baz", ["foo"])]) None [("bar", 2); ("baz", 3)]);
("TestAcyclicGraph_GetParents/No Ancestors, Two Children", selects (OpGetParents "foo") (G [("foo", 1); ("bar", 2); ("baz", 3)] [("bar", ["foo"]); ("baz", ["foo"])] [("foo", ["bar"; "baz"])]) None []);
("TestAcyclicGraph_GetParents/Two Parents, Two Children", selects (OpGetParents "foo") (G [("foo", 1); ("bar", 2); ("baz", 3); ("qux", 4); ("quz", 5)] [("foo", ["bar"; "baz"]); ("qux", ["foo"]); ("quz", ["foo"])] [("bar", ["foo"]); ("baz", ["foo"]); ("foo", ["qux"; "quz"])]) None [("bar", 2); ("baz", 3)]);
("TestAcyclicGraph_GetChildren/Empty ID", selects (OpGetChildren "") (G [("foo", 1); ("bar", 2)] [] []) (Some ErrVertexIDEmpty) []);
("TestAcyclicGraph_GetChildren/Missing ID", selects (OpGetChildren "baz") (G [("foo", 1); ("bar", 2)] [] []) (Some ErrVertexNotFound) []);
("TestAcyclicGraph_GetChildren/Empty graph", selects (OpGetChildren "") (G [] [] []) None []);
("TestAcyclicGraph_GetChildren/No Edges", selects (OpGetChildren "foo") (G [("foo", 1); ("bar", 2); ("baz", 3)] [] []) None []);
("TestAcyclicGraph_GetChildren/Two Ancestors, No descendants", selects (OpGetChildren "foo") (G [("foo", 1); ("bar", 2); ("baz", 3)] [("foo", ["bar"]); ("bar", ["baz"])] [("bar", ["foo"]); ("baz", ["bar"])]) None []);
("TestAcyclicGraph_GetChildren/One Ancestor, One descendant", selects (OpGetChildren "foo") (G [("foo", 1); ("bar", 2); ("baz", 3)] [("foo", ["bar"]); ("baz", ["foo"])] [("bar", ["foo"]); ("foo", ["baz"])]) None [("baz", 3)]);
("TestAcyclicGraph_GetChildren/No Ancestors, Two Descendants", selects (OpGetChildren "foo") (G [("foo", 1); ("bar", 2); ("baz", 3)] [("bar", ["foo"]); ("baz", ["bar"])] [("foo", ["bar"]); ("bar", ["baz"])]) None [("bar", 2)]);
("TestAcyclicGraph_GetChildren/One Ancestor, No descendants", selects (OpGetChildren "foo") (G [("foo", 1); ("bar", 2); ("baz", 3)] [("foo", ["bar"])] [("bar", ["foo"])]) None []);
("TestAcyclicGraph_GetChildren/No Ancestors, One descendant", selects (OpGetChildren "foo") (G [("foo", 1); ("bar", 2); ("baz", 3)] [("bar", ["foo"])] [("foo", ["bar"])]) None [("bar", 2)]);
("TestAcyclicGraph_GetChildren/Two Parents, No descendants", selects (OpGetChildren "foo") (G [("foo", 1); ("bar", 2); ("baz", 3)] [("foo", ["bar"; "baz"])] [("bar", ["foo"]); ("baz", ["foo"])]) None []);
("TestAcyclicGraph_GetChildren/No Ancestors, Two Children", selects (OpGetChildren "foo") (G [("foo", 1); ("bar", 2); ("baz", 3)] [("bar", ["foo"]); ("baz", ["foo"])] [("foo", ["bar"; "baz"])]) None [("bar", 2); ("baz", 3)]);
("TestAcyclicGraph_GetChildren/Two Parents, Two Children", selects (OpGetChildren "foo") (G [("foo", 1); ("bar", 2); ("baz", 3); ("qux", 4); ("quz", 5)] [("foo", ["bar"; "baz"]); ("qux", ["foo"]); ("quz", ["foo"])] [("bar", ["foo"]); ("baz", ["foo"]); ("foo", ["qux"; "quz"])]) None [("qux", 4); ("quz", 5)]);
("TestAcyclicGraph_GetAncestors/Empty ID", selects (OpGetAncestors "") (G [("foo", 1); ("bar", 2)] [] []) (Some ErrVertexIDEmpty) []);
("TestAcyclicGraph_GetAncestors/Missing ID", selects (OpGetAncestors "baz") (G [("foo", 1); ("bar", 2)] [] []) (Some ErrVertexNotFound) []);
("TestAcyclicGraph_GetAncestors/Empty graph", selects (OpGetAncestors "") (G [] [] []) None []);
("TestAcyclicGraph_GetAncestors/No Edges", selects (OpGetAncestors "foo") (G [("foo", 1); ("bar", 2); ("baz", 3)] [] []) None []);
("TestAcyclicGraph_GetAncestors/Two Ancestors, No descendants", selects (OpGetAncestors "foo") (G [("foo", 1); ("bar", 2); ("baz", 3)] [("foo", ["bar"]); ("bar", ["baz"])] [("bar", ["foo"]); ("baz", ["bar"])]) None [("bar", 2); ("baz", 3)]);
("TestAcyclicGraph_GetAncestors/One Ancestor, One descendant", selects (OpGetAncestors "foo") (G [("foo", 1); ("bar", 2); ("baz", 3)] [("foo", ["bar"]); ("baz", ["foo"])] [("bar", ["foo"]); ("foo", ["baz"])]) None [("bar", 2)]);
("TestAcyclicGraph_GetAncestors/No Ancestors, Two Descendants", selects (OpGetAncestors "foo") (G [("foo", 1); ("bar", 2); ("baz", 3)] [("bar", ["foo"]); ("baz", ["bar"])] [("foo", ["bar"]); ("bar", ["baz"])]) None []);
("TestAcyclicGraph_GetAncestors/One Ancestor, No descendants", selects (OpGetAncestors "foo") (G [("foo", 1); ("bar", 2); ("baz", 3)] [("foo", ["bar"])] [("bar", ["foo"])]) None [("bar", 2)]);
("TestAcyclicGraph_GetAncestors/No Ancestors, One descendant", selects (OpGetAncestors "foo") (G [("foo", 1); ("bar", 2); ("baz", 3)] [("bar", ["foo"])] [("foo", ["bar"])]) None []);
("TestAcyclicGraph_GetAncestors/Two Parents, No descendants", selects (OpGetAncestors "foo") (G [("foo", 1); ("bar", 2); ("baz", 3)] [("foo", ["bar"; "baz"])] [("bar", ["foo"]); ("baz", ["foo"])]) None [("bar", 2); ("baz", 3)]);
("TestAcyclicGraph_GetAncestors/No Ancestors, Two Children", selects (OpGetAncestors "foo") (G [("foo", 1); ("bar", 2); ("baz", 3)] [("bar", ["foo"]); ("baz", ["foo"])] [("foo", ["bar"; "baz"])]) None []);
("TestAcyclicGraph_GetAncestors/Two Parents, Two Children", selects (OpGetAncestors "foo") (G [("foo", 1); ("bar", 2); ("baz", 3); ("qux", 4); ("quz", 5)] [("foo", ["bar"; "baz"]); ("qux", ["foo"]); ("quz", ["foo"])] [("bar", ["foo"]); ("baz", ["foo"]); ("foo", ["qux"; "quz"])]) None [("bar", 2); ("baz", 3)]);
("TestAcyclicGraph_GetOrderedAncestors/Empty ID", ordered (OpGetOrderedAncestors "") (G [("foo", 1); ("bar", 2)] [] []) (Some ErrVertexIDEmpty) []);
("TestAcyclicGraph_GetOrderedAncestors/Missing ID", ordered (OpGetOrderedAncestors "baz") (G [("foo", 1); ("bar", 2)] [] []) (Some ErrVertexNotFound) []);
("TestAcyclicGraph_GetOrderedAncestors/Empty graph", ordered (OpGetOrderedAncestors "") (G [] [] []) None []);
("TestAcyclicGraph_GetOrderedAncestors/No Edges", ordered (OpGetOrderedAncestors "foo") (G [("foo", 1); ("bar", 2); ("baz", 3)] [] []) None []);
("TestAcyclicGraph_GetOrderedAncestors/Two Ancestors, No descendants", ordered (OpGetOrderedAncestors "foo") (G [("foo", 1); ("bar", 2); ("baz", 3)] [("foo", ["bar"]); ("bar", ["baz"])] [("bar", ["foo"]); ("baz", ["bar"])]) None [["bar"; "baz"]]);
("TestAcyclicGraph_GetOrderedAncestors/Three Ancestors on two levels, No descendants", ordered (OpGetOrderedAncestors "foo") (G [("foo", 1); ("bar", 2); ("baz", 3); ("qux", 4)] [("foo", ["bar"; "qux"]); ("bar", ["baz"])] [("bar", ["foo"]); ("baz", ["bar"]); ("qux", ["foo"])]) None [["bar"; "qux"]; ["baz"]]);
("TestAcyclicGraph_GetOrderedAncestors/No Ancestors, Three Descendants on two levels", ordered (OpGetOrderedAncestors "foo") (G [("foo", 1); ("bar", 2); ("baz", 3); ("qux", 4)] [("bar", ["foo"]); ("baz", ["foo"]); ("qux", ["bar"])] [("foo", ["bar"; "baz"]); ("bar", ["qux"])]) None []);
("TestAcyclicGraph_GetOrderedAncestors/One Ancestor, One descendant", ordered (OpGetOrderedAncestors "foo") (G [("foo", 1); ("bar", 2); ("baz", 3)] [("foo", ["bar"]); ("baz", ["foo"])] [("bar", ["foo"]); ("foo", ["baz"])]) None [["bar"]]);
("TestAcyclicGraph_GetOrderedAncestors/No Ancestors, Two Descendants", ordered (OpGetOrderedAncestors "foo") (G [("foo", 1); ("bar", 2); ("baz", 3)] [("bar", ["foo"]); ("baz", ["bar"])] [("foo", ["bar"]); ("bar", ["baz"])]) None []);
("TestAcyclicGraph_GetOrderedAncestors/One Ancestor, No descendants", ordered (OpGetOrderedAncestors "foo") (G [("foo", 1); ("bar", 2); ("baz", 3)] [("foo", ["bar"])] [("bar", ["foo"])]) None [["bar"]]);
("TestAcyclicGraph_GetOrderedAncestors/No Ancestors, One descendant", ordered (OpGetOrderedAncestors "foo") (G [("foo", 1); ("bar", 2); ("baz", 3)] [("bar", ["foo"])] [("foo", ["bar"])]) None []);
("TestAcyclicGraph_GetOrderedAncestors/Two Parents, No descendants", ordered (OpGetOrderedAncestors "foo") (G [("foo", 1); ("bar", 2); ("baz", 3)] [("foo", ["bar"; "baz"])] [("bar", ["foo"]); ("baz", ["foo"])]) None [["bar"; "baz"]]);
("TestAcyclicGraph_GetOrderedAncestors/No Ancestors, Two Children", ordered (OpGetOrderedAncestors "foo") (G [("foo", 1); ("bar", 2); ("baz", 3)] [("bar", ["foo"]); ("baz", ["foo"])] [("foo", ["bar"; "baz"])]) None []);
("TestAcyclicGraph_GetOrderedAncestors/Two Parents, Two Children", ordered (OpGetOrderedAncestors "foo") (G [("foo", 1); ("bar", 2); ("baz", 3); ("qux", 4); ("quz", 5)] [("foo", ["bar"; "baz"]); ("qux", ["foo"]); ("quz", ["foo"])] [("bar", ["foo"]); ("baz", ["foo"]); ("foo", ["qux"; "quz"])]) None [["bar"; "baz"]]);
("TestAcyclicGraph_GetDescendants/Empty ID", selects (OpGetDescendants "") (G [("foo", 1); ("bar", 2)] [] []) (Some ErrVertexIDEmpty) []);
("TestAcyclicGraph_GetDescendants/Missing ID", selects (OpGetDescendants "baz") (G [("foo", 1); ("bar", 2)] [] []) (Some ErrVertexNotFound) []);
("TestAcyclicGraph_GetDescendants/Empty graph", selects (OpGetDescendants "") (G [] [] []) None []);
("TestAcyclicGraph_GetDescendants/No Edges", selects (OpGetDescendants "foo") (G [("foo", 1); ("bar", 2); ("baz", 3)] [] []) None []);
("TestAcyclicGraph_GetDescendants/Two Ancestors, No descendants", selects (OpGetDescendants "foo") (G [("foo", 1); ("bar", 2); ("baz", 3)] [("foo", ["bar"]); ("bar", ["baz"])] [("bar", ["foo"]); ("baz", ["bar"])]) None []);
("TestAcyclicGraph_GetDescendants/One Ancestor, One descendant", selects (OpGetDescendants "foo") (G [("foo", 1); ("bar", 2); ("baz", 3)] [("foo", ["bar"]); ("baz", ["foo"])] [("bar", ["foo"]); ("foo", ["baz"])]) None [("baz", 3)]);
("TestAcyclicGraph_GetDescendants/No Ancestors, Two Descendants", selects (OpGetDescendants "foo") (G [("foo", 1); ("bar", 2); ("baz", 3)] [("bar", ["foo"]); ("baz", ["bar"])] [("foo", ["bar"]); ("bar", ["baz"])]) None [("bar", 2); ("baz", 3)]);
("TestAcyclicGraph_GetDescendants/One Ancestor, No descendants", selects (OpGetDescendants "foo") (G [("foo", 1); ("bar", 2); ("baz", 3)] [("foo", ["bar"])] [("bar", ["foo"])]) None []);
("TestAcyclicGraph_GetDescendants/No Ancestors, One descendant", selects (OpGetDescendants "foo") (G [("foo", 1); ("bar", 2); ("baz", 3)] [("bar", ["foo"])] [("foo", ["bar"])]) None [("bar", 2)]);
("TestAcyclicGraph_GetDescendants/Two Parents, No descendants", selects (OpGetDescendants "foo") (G [("foo", 1); ("bar", 2); ("baz", 3)] [("foo", ["bar"; "baz"])] [("bar", ["foo"]); ("baz", ["foo"])]) None []);
("TestAcyclicGraph_GetDescendants/No Ancestors, Two Children", selects (OpGetDescendants "foo") (G [("foo", 1); ("bar", 2); ("baz", 3)] [("bar", ["foo"]); ("baz", ["foo"])] [("foo", ["bar"; "baz"])]) None [("bar", 2); ("baz", 3)]);
("TestAcyclicGraph_GetDescendants/Two Parents, Two Children", selects (OpGetDescendants "foo") (G [("foo", 1); ("bar", 2); ("baz", 3); ("qux", 4); ("quz", 5)] [("foo", ["bar"; "baz"]); ("qux", ["foo"]); ("quz", ["foo"])] [("bar", ["foo"]); ("baz", ["foo"]); ("foo", ["qux"; "quz"])]) None [("qux", 4); ("quz", 5)]);
("TestAcyclicGraph_GetOrderedDescendants/Empty ID", ordered (OpGetOrderedDescendants "") (G [("foo", 1); ("bar", 2)] [] []) (Some ErrVertexIDEmpty) []);
("TestAcyclicGraph_GetOrderedDescendants/Missing ID", ordered (OpGetOrderedDescendants "baz") (G [("foo", 1); ("bar", 2)] [] []) (Some ErrVertexNotFound) []);
("TestAcyclicGraph_GetOrderedDescendants/Empty graph", ordered (OpGetOrderedDescendants "") (G [] [] []) None []);
("TestAcyclicGraph_GetOrderedDescendants/No Edges", ordered (OpGetOrderedDescendants "foo") (G [("foo", 1); ("bar", 2); ("baz", 3)] [] []) None []);
("TestAcyclicGraph_GetOrderedDescendants/Two Ancestors, No descendants", ordered (OpGetOrderedDescendants "foo") (G [("foo", 1); ("bar", 2); ("baz", 3)] [("foo", ["bar"]); ("bar", ["baz"])] [("bar", ["foo"]); ("baz", ["bar"])]) None []);
("TestAcyclicGraph_GetOrderedDescendants/Three Ancestors on two levels, No descendants", ordered (OpGetOrderedDescendants "foo") (G [("foo", 1); ("bar", 2); ("baz", 3); ("qux", 4)] [("foo", ["bar"; "qux"]); ("bar", ["baz"])] [("bar", ["foo"]); ("baz", ["bar"]); ("qux", ["foo"])]) None []);
("TestAcyclicGraph_GetOrderedDescendants/No Ancestors, Three Descendants on two levels", ordered (OpGetOrderedDescendants "foo") (G [("foo", 1); ("bar", 2); ("baz", 3); ("qux", 4)] [("bar", ["foo"]); ("baz", ["foo"]); ("qux", ["bar"])] [("foo", ["bar"; "baz"]); ("bar", ["qux"])]) None [["bar"; "baz"; "qux"]]);
("TestAcyclicGraph_GetOrderedDescendants/One Ancestor, One descendant", ordered (OpGetOrderedDescendants "foo") (G [("foo", 1); ("bar", 2); ("baz", 3)] [("foo", ["bar"]); ("baz", ["foo"])] [("bar", ["foo"]); ("foo", ["baz"])]) None [["baz"]]);
("TestAcyclicGraph_GetOrderedDescendants/No Ancestors, Two Descendants", ordered (OpGetOrderedDescendants "foo") (G [("foo", 1); ("bar", 2); ("baz", 3)] [("bar", ["foo"]); ("baz", ["bar"])] [("foo", ["bar"]); ("bar", ["baz"])]) None [["bar"; "baz"]]);
("TestAcyclicGraph_GetOrderedDescendants/One Ancestor, No descendants", ordered (OpGetOrderedDescendants "foo") (G [("foo", 1); ("bar", 2); ("baz", 3)] [("foo", ["bar"])] [("bar", ["foo"])]) None []);
("TestAcyclicGraph_GetOrderedDescendants/No Ancestors, One descendant", ordered (OpGetOrderedDescendants "foo") (G [("foo", 1); ("bar", 2); ("baz", 3)] [("bar", ["foo"])] [("foo", ["bar"])]) None [["bar"]]);
("TestAcyclicGraph_GetOrderedDescendants/Two Parents, No descendants", ordered (OpGetOrderedDescendants "foo") (G [("foo", 1); ("bar", 2); ("baz", 3)] [("foo", ["bar"; "baz"])] [("bar", ["foo"]); ("baz", ["foo"])]) None []);
("TestAcyclicGraph_GetOrderedDescendants/No Ancestors, Two Children", ordered (OpGetOrderedDescendants "foo") (G [("foo", 1); ("bar", 2); ("baz", 3)] [("bar", ["foo"]); ("baz", ["foo"])] [("foo", ["bar"; "baz"])]) None [["bar"; "baz"]]);
("TestAcyclicGraph_GetOrderedDescendants/Two Parents, Two Children", ordered (OpGetOrderedDescendants "foo") (G [("foo", 1); ("bar", 2); ("baz", 3); ("qux", 4); ("quz", 5)] [("foo", ["bar"; "baz"]); ("qux", ["foo"]); ("quz", ["foo"])] [("bar", ["foo"]); ("baz", ["foo"]); ("foo", ["qux"; "quz"])]) None [["qux"; "quz"]]);
("TestAcyclicGraph_ReduceTransitively/Redundant edge between foo and cor", reduces (G [("foo", 1); ("bar", 2); ("baz", 3); ("qux", 4); ("quz", 5); ("cor", 6)] [("foo", []); ("bar", ["foo"]); ("baz", ["foo"]); ("qux", ["foo"]); ("quz", ["foo"]); ("cor", ["foo"; "bar"; "baz"; "qux"; "quz"])] [("foo", ["bar"; "baz"; "qux"; "quz"; "cor"]); ("bar", ["cor"]); ("baz", ["cor"]); ("qux", ["cor"]); ("quz", ["cor"])]) (G [("foo", 1); ("bar", 2); ("baz", 3); ("qux", 4); ("quz", 5); ("cor", 6)] [("foo", []); ("bar", ["foo"]); ("baz", ["foo"]); ("qux", ["foo"]); ("quz", ["foo"]); ("cor", ["bar"; "baz"; "qux"; "quz"])] [("foo", ["bar"; "baz"; "qux"; "quz"]); ("bar", ["cor"]); ("baz", ["cor"]); ("qux", ["cor"]); ("quz", ["cor"])]));
("TestNewAcyclicGraph", gives OpGetOrder NewAcyclicGraph (RInt 0) && gives OpGetSize NewAcyclicGraph (RInt 0));
("TestAcyclicGraph_String", prints)].
Definition set_cases : list (string * bool) := [
("TestSet_Add1/Empty set", adds "1" (Some []) (Some ["1"]));
("TestSet_Add1/Not Existing", adds "2" (Some ["1"]) (Some ["1"; "2"]));
("TestSet_Add1/Existing", adds "1" (Some ["1"]) (Some ["1"]));
("TestSet_Delete/Empty set", deletes "1" (Some []) (Some []));
("TestSet_Delete/Not Existing", deletes "2" (Some ["1"]) (Some ["1"]));
("TestSet_Delete/Existing", deletes "1" (Some ["1"]) (Some []));
("TestSet_Includes/Empty set", includes "1" (Some []) false);
("TestSet_Includes/Not Existing", includes "2" (Some ["1"]) false);
("TestSet_Includes/Existing", includes "1" (Some ["1"]) true);
("TestSet_Intersection/Nil Source", makes (K:=string) (λ σ a b, Set_Intersection σ a b) None (Some ["1"; "3"]) (Some []));
("TestSet_Intersection/Empty Source", makes (K:=string) (λ σ a b, Set_Intersection σ a b) (Some []) (Some ["1"; "3"]) (Some []));
("TestSet_Intersection/Nil Other", makes (K:=string) (λ σ a b, Set_Intersection σ a b) (Some ["1"; "2"; "3"; "4"]) None (Some []));
("TestSet_Intersection/Empty other", makes (K:=string) (λ σ a b, Set_Intersection σ a b) (Some ["1"; "2"; "3"; "4"]) (Some []) (Some []));
("TestSet_Intersection/Match", makes (K:=string) (λ σ a b, Set_Intersection σ a b) (Some ["1"; "2"; "3"; "4"]) (Some ["1"; "3"]) (Some ["1"; "3"]));
("TestSet_Intersection/No Match", makes (K:=string) (λ σ a b, Set_Intersection σ a b) (Some ["1"; "2"; "3"; "4"]) (Some ["5"; "6"]) (Some []));
("TestSet_Difference/Nil Source", makes (K:=string) (λ σ a b, Set_Difference σ a b) None (Some ["1"; "3"]) (Some []));
("TestSet_Difference/Empty Source", makes (K:=string) (λ σ a b, Set_Difference σ a b) (Some []) (Some ["1"; "3"]) (Some []));
("TestSet_Difference/Nil other", makes (K:=string) (λ σ a b, Set_Difference σ a b) (Some ["1"; "2"; "3"; "4"]) None (Some ["1"; "2"; "3"; "4"]));
("TestSet_Difference/Empty other", makes (K:=string) (λ σ a b, Set_Difference σ a b) (Some ["1"; "2"; "3"; "4"]) (Some []) (Some ["1"; "2"; "3"; "4"]));
("TestSet_Difference/Match", makes (K:=string) (λ σ a b, Set_Difference σ a b) (Some ["1"; "2"; "3"; "4"]) (Some ["1"; "3"]) (Some ["2"; "4"]));
("TestSet_Difference/No Match", makes (K:=string) (λ σ a b, Set_Difference σ a b) (Some ["1"; "2"; "3"; "4"]) (Some ["5"; "6"]) (Some ["1"; "2"; "3"; "4"]));
("TestSet_Filter/Empty Source", makes (K:=nat) (λ σ a _, Set_Filter σ a (λ _, true)) (Some []) None (Some []));
("TestSet_Filter/Always true", makes (K:=nat) (λ σ a _, Set_Filter σ a (λ _, true)) (Some [1; 2; 3; 4]) None (Some [1; 2; 3; 4]));
("TestSet_Filter/Always false", makes (K:=nat) (λ σ a _, Set_Filter σ a (λ _, false)) (Some [1; 2; 3; 4]) None (Some []));
("TestSet_Filter/Even numbers", makes (K:=nat) (λ σ a _, Set_Filter σ a (Nat.even)) (Some [1; 2; 3; 4]) None (Some [2; 4]));
("TestSet_List/Nil  set", lists (K:=string) None None);
("TestSet_List/Empty set", lists (K:=string) (Some []) (Some []));
("TestSet_List/Values", lists (K:=string) (Some ["1"; "2"]) (Some ["1"; "2"]));
("TestSet_Copy/Empty set", makes (K:=string) (λ σ a _, Set_Copy σ a) (Some []) None (Some []));
("TestSet_Copy/Values", makes (K:=string) (λ σ a _, Set_Copy σ a) (Some ["1"; "2"]) None (Some ["1"; "2"]))].

Example dag_tests_agree : length dag_cases = 136 ∧ filter (λ c, c.2 = false) dag_cases = [].
Proof. vm_compute. split; reflexivity. Qed.
Example set_tests_agree : length set_cases = 30 ∧ filter (λ c, c.2 = false) set_cases = [].
Proof. vm_compute. split; reflexivity. Qed.

(** The tests of the walkers, with one order of the range loops: the client receives until the
    end, or until [stop], when it signals. *)
Fixpoint client (fuel : nat) (next : string → goset string) (id : string) (stop : option string)
    (st : wstate string) : option (list string) :=
  match fuel with
  | O => None
  | S fuel =>
      if ids_closed st then Some (received st) else
      match wexec next id st Walk, pc st with
      | Some st', _ => client fuel next id stop st'
      | None, PSend top _ _ =>
          st' ← wexec next id st (Recv top);
          if decide (stop = Some top)
          then st'' ← wexec next id st' Signal; Some (received st'')
          else client fuel next id stop st'
      | None, _ => None
      end
  end.
Definition walk (d : dir) (g : gr) (id : string) (stop : option string) : option (err + list string) :=
  match Walker empty_id d g id with
  | inl e => Some (inl e)
  | inr st => inr <$> client 100 (neighbours d g) id stop st
  end.
(** The received ids are, in this order, those of the groups, each in any order. *)
Fixpoint in_groups (gs : list (list string)) (l : list string) : bool :=
  match gs with
  | [] => bool_decide (l = [])
  | g :: gs => bool_decide (take (length g) l ≡ₚ g) && in_groups gs (drop (length g) l)
  end.
Definition walks (d : dir) (g : gr) (id : string) (stop : option string) (want : err + list (list string)) : bool :=
  match walk d g id stop, want with
  | Some (inl e), inl e' => bool_decide (e = e')
  | Some (inr l), inr gs => in_groups gs l
  | _, _ => false
  end.
Definition two : gr := G [("foo", 1); ("bar", 2)] [] [].
Definition called (vs : list (string * nat)) (es : list (string * string)) : gr :=
  match run empty_id (pair (λ _ l, l) <$> ((λ v, OpAddVertex v.1 v.2) <$> vs) ++ ((λ e, OpAddEdge e.1 e.2) <$> es))
    NewAcyclicGraph with Ok (_, g) => g | _ => NewAcyclicGraph end.
Definition ten : gr := called ((λ s, (s, 1)) <$> ["01"; "02"; "03"; "04"; "05"; "06"; "07"; "08"; "09"; "10"])
  [("01", "02"); ("01", "03"); ("02", "04"); ("02", "05"); ("04", "06"); ("05", "06"); ("06", "07");
   ("07", "08"); ("07", "09"); ("08", "10"); ("09", "10")].
Definition five : gr := called [("foo", 1); ("bar", 2); ("baz", 3); ("qux", 4); ("quz", 5)]
  [("foo", "bar"); ("bar", "baz"); ("bar", "qux"); ("qux", "quz")].
Definition walk_cases : list (string * bool) := [
("TestAcyclicGraph_AncestorsWalker/Empty ID", walks Ancestors two "" None (inl ErrVertexIDEmpty));
("TestAcyclicGraph_AncestorsWalker/Missing ID", walks Ancestors two "baz" None (inl ErrVertexNotFound));
("TestAcyclicGraph_AncestorsWalker/", walks Ancestors ten "10" None
   (inr [["08"; "09"]; ["07"]; ["06"]; ["04"; "05"]; ["02"]; ["01"]]));
("TestAcyclicGraph_AncestorsWalker_Signal/", walks Ancestors five "quz" (Some "bar") (inr [["qux"]; ["bar"]]));
("TestAcyclicGraph_DescendantsWalker/Empty ID", walks Descendants two "" None (inl ErrVertexIDEmpty));
("TestAcyclicGraph_DescendantsWalker/Missing ID", walks Descendants two "baz" None (inl ErrVertexNotFound));
("TestAcyclicGraph_DescendantsWalker/", walks Descendants ten "01" None
   (inr [["02"; "03"]; ["04"; "05"]; ["06"]; ["07"]; ["08"; "09"]; ["10"]]));
("TestAcyclicGraph_DescendantsWalker_Signal/", walks Descendants five "foo" (Some "qux") (inr [["bar"]; ["baz"]; ["qux"]]))].
Example walk_tests_agree : length walk_cases = 8 ∧ filter (λ c, c.2 = false) walk_cases = [].
Proof. vm_compute. split; reflexivity. Qed.
