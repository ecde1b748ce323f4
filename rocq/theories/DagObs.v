(** * Vocabulary for the property statements: what a client of the API observes

    Only API calls are mentioned here, not the fields of a graph. *)
From stdpp Require Import base list gmap relations sorting strings.
From Verif Require Import GoBase SetModel DagModel DagSpec.

Section obs.
Context {K T : Type} `{Countable K} `{Inhabited T} (isz : K → bool).
Notation graph := (graph K T).
Notation history := (list (schedule K * op K T)).

(** Each call may use any iteration orders. *)
Definition legal_history (h : history) : Prop := Forall (λ c, legal c.1) h.

(** The graphs that API calls can build. *)
Definition reachable (g : graph) : Prop :=
  ∃ h outs, legal_history h ∧ run isz h NewAcyclicGraph = Ok (outs, g).

(** Some order; [GetVertex] and [IsEdge] do not iterate over maps. *)
Definition any_order : schedule K := λ _ l, l.

(** [GetVertex(k)] returns [x] without error. *)
Definition has_vertex (g : graph) (k : K) (x : T) : Prop :=
  call isz any_order (OpGetVertex k) g = Ok (RVertex (inr x), g).
Definition known (g : graph) (k : K) : Prop := ∃ x, has_vertex g k x.
(** [IsEdge(s, t)] returns true without error. *)
Definition has_edge (g : graph) (s t : K) : Prop :=
  call isz any_order (OpIsEdge s t) g = Ok (RBool (true, None), g).

(** [r] is the error of the first condition that holds, if any. *)
Inductive first_violated : list (Prop * err) → option err → Prop :=
| fv_none : first_violated [] None
| fv_here (P : Prop) e l : P → first_violated ((P, e) :: l) (Some e)
| fv_next (P : Prop) e l r : ¬ P → first_violated l r → first_violated ((P, e) :: l) r.

(** The documented conditions on ids, in the documented order. *)
Definition vertex_conditions (g : graph) (id : K) : list (Prop * err) :=
  [(isz id = true, ErrVertexIDEmpty); (¬ known g id, ErrVertexNotFound)].
Definition edge_conditions (g : graph) (s t : K) : list (Prop * err) :=
  [(isz s = true, ErrEdgeSourceIDEmpty); (isz t = true, ErrEdgeTargetIDEmpty);
   (s = t, ErrEdgeSourceTargetIdentical);
   (¬ known g s, ErrEdgeSourceIDNotFound); (¬ known g t, ErrEdgeTargetIDNotFound)].
(** The error a call reports. *)
Definition out_err (r : out K T) : option err :=
  match r with
  | RErr e => e
  | RVertex (inl e) | RMapErr (inl e) | RList (inl e) => Some e
  | RBool (_, e) => e
  | _ => None
  end.
(** The calls about one vertex other than AddVertex. *)
Definition vertex_call (o : op K T) : option K :=
  match o with
  | OpGetVertex id | OpDeleteVertex id | OpGetParents id | OpGetChildren id
  | OpGetAncestors id | OpGetDescendants id
  | OpGetOrderedAncestors id | OpGetOrderedDescendants id => Some id
  | _ => None
  end.

(** [m] maps exactly the vertices satisfying [P] to their payloads. *)
Definition exactly (g : graph) (P : K → Prop) (m : gmap K T) : Prop :=
  ∀ k x, m !! k = Some x ↔ P k ∧ has_vertex g k x.

(** Calls that change the graph, and calls that only look at it. *)
Definition mutating (o : op K T) : bool :=
  match o with
  | OpAddVertex _ _ | OpDeleteVertex _ | OpAddEdge _ _ | OpDeleteEdge _ _
  | OpReduceTransitively => true
  | _ => false
  end.

(** Two results of the same call agree: they are equal, except that
    ordered queries may order ids at the same distance differently and String
    may list its lines in a different order. *)
Definition same_out (g : graph) (o : op K T) (r1 r2 : out K T) : Prop :=
  match o with
  | OpGetOrderedAncestors id =>
      r1 = r2 ∨ ∃ l1 l2, r1 = RList (inr l1) ∧ r2 = RList (inr l2) ∧ l1 ≡ₚ l2 ∧
        Forall2 (λ x y, ∀ n, dist (flip (has_edge g)) id x n ↔ dist (flip (has_edge g)) id y n) l1 l2
  | OpGetOrderedDescendants id =>
      r1 = r2 ∨ ∃ l1 l2, r1 = RList (inr l1) ∧ r2 = RList (inr l2) ∧ l1 ≡ₚ l2 ∧
        Forall2 (λ x y, ∀ n, dist (has_edge g) id x n ↔ dist (has_edge g) id y n) l1 l2
  | OpString show =>
      ∃ n m vs1 vs2 es1 es2, vs1 ≡ₚ vs2 ∧ es1 ≡ₚ es2 ∧
        r1 = RText (show_graph show n m vs1 es1) ∧ r2 = RText (show_graph show n m vs2 es2)
  | _ => r1 = r2
  end.

(** The same calls on two graphs, with unrelated iteration orders, all succeed
    and agree. *)
Fixpoint agree (h : list (schedule K * schedule K * op K T)) (g1 g2 : graph) : Prop :=
  match h with
  | [] => True
  | (σ1, σ2, o) :: h =>
      ∃ r1 r2 g1' g2',
        call isz σ1 o g1 = Ok (r1, g1') ∧ call isz σ2 o g2 = Ok (r2, g2') ∧
        same_out g1 o r1 r2 ∧ agree h g1' g2'
  end.
Definition legal_pairs (h : list (schedule K * schedule K * op K T)) : Prop :=
  Forall (λ c, legal c.1.1 ∧ legal c.1.2) h.
End obs.
