(** * Specification of an acyclic graph

    Independent of the implementation model, except for the names of the calls
    ([op]), their results ([out]) and the error values ([err]).  A graph is a finite
    map of vertices and a finite set of edges.  There are no caches and no
    iteration orders here. *)
From stdpp Require Import base list gmap relations sorting strings pretty.
From Verif Require Import GoBase SetModel DagModel.

Record agraph (K T : Type) `{Countable K} : Type := AGraph {
  av : gmap K T;              (* vertices with their payload *)
  ae : gset (K * K)           (* edges (source, target) *)
}.
Global Arguments AGraph {K T _ _} _ _.
Global Arguments av {K T _ _} _.
Global Arguments ae {K T _ _} _.

(** A distance: the length of a shortest non-empty path. *)
Definition dist {A} (R : relation A) (x y : A) (n : nat) : Prop :=
  0 < n ∧ nsteps R n x y ∧ ∀ m, 0 < m → nsteps R m x y → n ≤ m.

(** [l] enumerates what is reachable from [x] by a non-empty path, every element
    once, nearer ones first. *)
Definition bfs_order {A} (R : relation A) (x : A) (l : list A) : Prop :=
  NoDup l ∧ (∀ y, y ∈ l ↔ tc R x y) ∧
  ∃ ds, Forall2 (dist R x) l ds ∧ Sorted le ds.

(** The first violated condition decides the error. *)
Fixpoint first_err (l : list (bool * err)) : option err :=
  match l with
  | [] => None
  | (true, e) :: _ => Some e
  | (false, _) :: l => first_err l
  end.

(** The text printed for a graph. *)
Definition show_line (s : string) : string := ("  " +:+ s +:+ nl)%string.
Definition show_graph {K} (show : K → string) (order size : nat)
    (vs : list K) (es : list (K * K)) : string :=
  (("DAG Vertices: " +:+ pretty order +:+ " - Edges: " +:+ pretty size +:+ nl) +:+
   ("Vertices:" +:+ nl) +:+
   String.concat "" (map (λ k, show_line (show k)) vs) +:+
   ("Edges:" +:+ nl) +:+
   String.concat "" (map (λ e, show_line (show e.1 +:+ " -> " +:+ show e.2)) es))%string.

Section spec.
Context {K T : Type} `{Countable K} (isz : K → bool).
Implicit Types (a : agraph K T).

Definition empty_graph : agraph K T := AGraph ∅ ∅.
Definition edge a (s t : K) : Prop := (s, t) ∈ ae a.
(** a non-empty path *)
Definition path a (s t : K) : Prop := tc (edge a) s t.
Definition acyclic a : Prop := ∀ v, ¬ path a v v.

Definition vertex_err a (id : K) : option err :=
  first_err [(isz id, ErrVertexIDEmpty);
             (bool_decide (id ∉ dom (av a)), ErrVertexNotFound)].
Definition edge_err a (s t : K) : option err :=
  first_err [(isz s, ErrEdgeSourceIDEmpty);
             (isz t, ErrEdgeTargetIDEmpty);
             (bool_decide (s = t), ErrEdgeSourceTargetIdentical);
             (bool_decide (s ∉ dom (av a)), ErrEdgeSourceIDNotFound);
             (bool_decide (t ∉ dom (av a)), ErrEdgeTargetIDNotFound)].

(** [m] holds exactly the vertices satisfying [P], with their payloads. *)
Definition selects a (P : K → Prop) (m : gmap K T) : Prop :=
  ∀ k x, m !! k = Some x ↔ P k ∧ av a !! k = Some x.

(** [a'] is the transitive reduction of [a]: fewer edges, the same
    reachability, and no edge that another path makes redundant. *)
Definition is_reduction a a' : Prop :=
  av a' = av a ∧
  ae a' ⊆ ae a ∧
  (∀ u v, path a' u v ↔ path a u v) ∧
  (∀ u v, edge a' u v → ¬ ∃ c, edge a' u c ∧ path a' c v).

(** One call: [o] on [a] may return [r] and lead to [a']. *)
Definition spec_step a (o : op K T) (r : out K T) a' : Prop :=
  match o with
  | OpAddVertex id v =>
      match first_err [(isz id, ErrVertexIDEmpty);
                       (bool_decide (id ∈ dom (av a)), ErrVertexDuplicate)] with
      | Some e => r = RErr (Some e) ∧ a' = a
      | None => r = RErr None ∧ a' = AGraph (<[id := v]> (av a)) (ae a)
      end
  | OpGetVertex id =>
      a' = a ∧
      match vertex_err a id with
      | Some e => r = RVertex (inl e)
      | None => ∃ x, av a !! id = Some x ∧ r = RVertex (inr x)
      end
  | OpDeleteVertex id =>
      match vertex_err a id with
      | Some e => r = RErr (Some e) ∧ a' = a
      | None => r = RErr None ∧
                a' = AGraph (delete id (av a))
                            (filter (λ e, e.1 ≠ id ∧ e.2 ≠ id) (ae a))
      end
  | OpAddEdge s t =>
      match edge_err a s t with
      | Some e => r = RErr (Some e) ∧ a' = a
      | None =>
          if decide ((s, t) ∈ ae a) then r = RErr (Some ErrEdgeDuplicate) ∧ a' = a
          else (path a t s ∧ r = RErr (Some ErrEdgeLoop) ∧ a' = a) ∨
               (¬ path a t s ∧ r = RErr None ∧ a' = AGraph (av a) ({[(s, t)]} ∪ ae a))
      end
  | OpIsEdge s t =>
      a' = a ∧
      match edge_err a s t with
      | Some e => r = RBool (false, Some e)
      | None => r = RBool (bool_decide ((s, t) ∈ ae a), None)
      end
  | OpDeleteEdge s t =>
      match edge_err a s t with
      | Some e => r = RErr (Some e) ∧ a' = a
      | None =>
          if decide ((s, t) ∈ ae a)
          then r = RErr None ∧ a' = AGraph (av a) (ae a ∖ {[(s, t)]})
          else r = RErr (Some ErrEdgeNotFound) ∧ a' = a
      end
  | OpGetOrder => a' = a ∧ r = RInt (size (av a))
  | OpGetSize => a' = a ∧ r = RInt (size (ae a))
  | OpGetLeaves => a' = a ∧ ∃ m, r = RMap m ∧ selects a (λ k, ∀ t, ¬ edge a k t) m
  | OpGetRoots => a' = a ∧ ∃ m, r = RMap m ∧ selects a (λ k, ∀ s, ¬ edge a s k) m
  | OpGetVertices => a' = a ∧ r = RMap (av a)
  | OpGetParents id =>
      a' = a ∧
      match vertex_err a id with
      | Some e => r = RMapErr (inl e)
      | None => ∃ m, r = RMapErr (inr m) ∧ selects a (λ k, edge a k id) m
      end
  | OpGetChildren id =>
      a' = a ∧
      match vertex_err a id with
      | Some e => r = RMapErr (inl e)
      | None => ∃ m, r = RMapErr (inr m) ∧ selects a (λ k, edge a id k) m
      end
  | OpGetAncestors id =>
      a' = a ∧
      match vertex_err a id with
      | Some e => r = RMapErr (inl e)
      | None => ∃ m, r = RMapErr (inr m) ∧ selects a (λ k, path a k id) m
      end
  | OpGetDescendants id =>
      a' = a ∧
      match vertex_err a id with
      | Some e => r = RMapErr (inl e)
      | None => ∃ m, r = RMapErr (inr m) ∧ selects a (λ k, path a id k) m
      end
  | OpGetOrderedAncestors id =>
      a' = a ∧
      match vertex_err a id with
      | Some e => r = RList (inl e)
      | None => ∃ l, r = RList (inr l) ∧ bfs_order (flip (edge a)) id l
      end
  | OpGetOrderedDescendants id =>
      a' = a ∧
      match vertex_err a id with
      | Some e => r = RList (inl e)
      | None => ∃ l, r = RList (inr l) ∧ bfs_order (edge a) id l
      end
  | OpReduceTransitively => r = RUnit ∧ is_reduction a a'
  | OpString show =>
      a' = a ∧
      ∃ vs es, vs ≡ₚ elements (dom (av a)) ∧ es ≡ₚ elements (ae a) ∧
        r = RText (show_graph show (size (av a)) (size (ae a)) vs es)
  end.

(** A history of calls with their results. *)
Inductive spec_run : agraph K T → list (op K T) → list (out K T) → agraph K T → Prop :=
| spec_run_nil a : spec_run a [] [] a
| spec_run_cons a o r a' os rs a'' :
    spec_step a o r a' → spec_run a' os rs a'' →
    spec_run a (o :: os) (r :: rs) a''.

End spec.
