(** * Model of pkg/dag/dag.go and pkg/dag/errors.go

    One definition per Go function, in the order of the file.

    Modelling decisions, valid for the whole file:
    - Go maps are [gmap]s; [map[K]Set[K]] is [gmap K (goset K)]; a missing entry of
      an outer map reads as a nil set.  Sets are mutated in place in Go; no set is
      ever stored in two places of a graph ([getAncestorsIDs] and
      [getDescendantsIDs] build a fresh set and store it; a cached set is handed to
      internal callers that only read it), so updating the outer map models the
      mutation.
    - [reflect.ValueOf(id).IsZero()] is an arbitrary predicate [isz] on keys.
    - The zero value of the payload type [T] is its [Inhabited] instance.
    - Results [(x, error)] become [err + x] or pairs.
    - The recursion of [getAncestorsIDs]/[getDescendantsIDs] and the loop of the
      walkers run on fuel; running out is the outcome [OutOfFuel]. *)
From stdpp Require Import base list gmap strings pretty.
From Verif Require Import GoBase SetModel.

(** errors.go:7-19. *)
Inductive err : Type :=
| ErrVertexIDEmpty
| ErrVertexDuplicate
| ErrVertexNotFound
| ErrEdgeSourceIDEmpty
| ErrEdgeTargetIDEmpty
| ErrEdgeSourceIDNotFound
| ErrEdgeTargetIDNotFound
| ErrEdgeSourceTargetIdentical
| ErrEdgeDuplicate
| ErrEdgeNotFound
| ErrEdgeLoop.

(** dag.go:10-16. *)
Record graph (K T : Type) `{Countable K} : Type := Graph {
  vertices : gmap K T;
  inboundEdges : gmap K (goset K);
  outboundEdges : gmap K (goset K);
  ancestorsCache : gmap K (goset K);
  descendantsCache : gmap K (goset K)
}.
Global Arguments Graph {K T _ _} _ _ _ _ _.
Global Arguments vertices {K T _ _} _.
Global Arguments inboundEdges {K T _ _} _.
Global Arguments outboundEdges {K T _ _} _.
Global Arguments ancestorsCache {K T _ _} _.
Global Arguments descendantsCache {K T _ _} _.

Section dag.
Context {K T : Type} `{Countable K} `{Inhabited T}.
(** [isz id] is [reflect.ValueOf(id).IsZero()]; [σ] fixes the map iteration
    orders of the call being executed. *)
Context (isz : K → bool) (σ : schedule K).

Notation graph := (graph K T).

(** ** Sequencing of Go statements: state is the graph and the number of map
    loops executed so far. *)
Definition M (A : Type) : Type := graph → nat → res (A * graph * nat).
Definition ret {A} (a : A) : M A := λ g n, Ok (a, g, n).
Definition bind {A B} (m : M A) (f : A → M B) : M B := λ g n,
  match m g n with
  | Ok (a, g', n') => f a g' n'
  | Panic => Panic
  | OutOfFuel => OutOfFuel
  end.
Definition panic {A} : M A := λ _ _, Panic.
Definition out_of_fuel {A} : M A := λ _ _, OutOfFuel.
Definition get : M graph := λ g n, Ok (g, g, n).
Definition modify (f : graph → graph) : M unit := λ g n, Ok (tt, f g, n).
(** Start a new map loop over [m]: the keys in the order of the schedule. *)
Definition range {V} (m : gmap K V) : M (list K) := λ g n,
  Ok (range_keys σ n m, g, S n).
(** [for _, v := range s]. *)
Definition rangev (s : goset K) : M (list K) := λ g n, Ok (range_vals σ n s, g, S n).
(** Run the body of a loop on each element, threading an accumulator. *)
Fixpoint for_each {A B} (l : list B) (body : A → B → M A) (acc : A) : M A :=
  match l with
  | [] => ret acc
  | x :: l => bind (body acc x) (for_each l body)
  end.

Local Notation "x ←' m ; k" := (bind m (λ x, k))
  (at level 20, m at level 100, k at level 200, right associativity).
Local Notation "m ;;' k" := (bind m (λ _, k))
  (at level 100, k at level 200, right associativity).

Definition set_vertices (f : gmap K T → gmap K T) (g : graph) : graph :=
  Graph (f (vertices g)) (inboundEdges g) (outboundEdges g)
        (ancestorsCache g) (descendantsCache g).
Definition set_inbound (f : gmap K (goset K) → gmap K (goset K)) (g : graph) : graph :=
  Graph (vertices g) (f (inboundEdges g)) (outboundEdges g)
        (ancestorsCache g) (descendantsCache g).
Definition set_outbound (f : gmap K (goset K) → gmap K (goset K)) (g : graph) : graph :=
  Graph (vertices g) (inboundEdges g) (f (outboundEdges g))
        (ancestorsCache g) (descendantsCache g).
Definition set_anc (f : gmap K (goset K) → gmap K (goset K)) (g : graph) : graph :=
  Graph (vertices g) (inboundEdges g) (outboundEdges g)
        (f (ancestorsCache g)) (descendantsCache g).
Definition set_desc (f : gmap K (goset K) → gmap K (goset K)) (g : graph) : graph :=
  Graph (vertices g) (inboundEdges g) (outboundEdges g)
        (ancestorsCache g) (f (descendantsCache g)).

(** Reading a set from an outer map; a missing entry is a nil set. *)
Definition read (m : gmap K (goset K)) (k : K) : goset K := default ∅ (m !! k).

(** dag.go:19-27 (NewAcyclicGraph). *)
Definition NewAcyclicGraph : graph := Graph ∅ ∅ ∅ ∅ ∅.

(** dag.go:603-613 (checkVertexID). *)
Definition checkVertexID (g : graph) (id : K) : option err :=
  if isz id then Some ErrVertexIDEmpty else
  match vertices g !! id with
  | None => Some ErrVertexNotFound
  | Some _ => None
  end.

(** dag.go:617-635 (checkEdgeIDs). *)
Definition checkEdgeIDs (g : graph) (s t : K) : option err :=
  if isz s then Some ErrEdgeSourceIDEmpty else
  if isz t then Some ErrEdgeTargetIDEmpty else
  if decide (s = t) then Some ErrEdgeSourceTargetIdentical else
  match vertices g !! s with
  | None => Some ErrEdgeSourceIDNotFound
  | Some _ =>
      match vertices g !! t with
      | None => Some ErrEdgeTargetIDNotFound
      | Some _ => None
      end
  end.

(** dag.go:34-46 (AddVertex). *)
Definition AddVertex (id : K) (v : T) : M (option err) :=
  g ←' get;
  if isz id then ret (Some ErrVertexIDEmpty) else
  match vertices g !! id with
  | Some _ => ret (Some ErrVertexDuplicate)
  | None => modify (set_vertices (<[id := v]>)) ;;' ret None
  end.

(** [g.vertices[id]]: the zero value of [T] if missing. *)
Definition vertex (g : graph) (id : K) : T := default inhabitant (vertices g !! id).

(** dag.go:53-59 (GetVertex). *)
Definition GetVertex (id : K) : M (err + T) :=
  g ←' get;
  match checkVertexID g id with
  | Some e => ret (inl e)
  | None => ret (inr (vertex g id))
  end.

(** dag.go:307-332 (getAncestorsIDs).  Line 321 ignores the error of the recursive
    call: an error comes with a nil set, which reads as the empty set. *)
Fixpoint getAncestorsIDs (fuel : nat) (id : K) : M (err + goset K) :=
  match fuel with
  | O => out_of_fuel
  | S fuel =>
      g ←' get;
      match checkVertexID g id with
      | Some e => ret (inl e)
      | None =>
          match ancestorsCache g !! id with
          | Some cache => ret (inr cache)
          | None =>
              cache ←' match inboundEdges g !! id with
                       | None => ret ∅
                       | Some parents =>
                           ks ←' range parents;
                           for_each ks (λ cache parent,
                             r ←' getAncestorsIDs fuel parent;
                             vs ←' rangev (match r with inl _ => ∅ | inr s => s end);
                             let cache := foldl (λ c ancestor, set_add ancestor c) cache vs in
                             ret (set_add parent cache)) ∅
                       end;
              modify (set_anc (<[id := cache]>)) ;;'
              ret (inr cache)
          end
      end
  end.

(** dag.go:372-398 (getDescendantsIDs). *)
Fixpoint getDescendantsIDs (fuel : nat) (id : K) : M (err + goset K) :=
  match fuel with
  | O => out_of_fuel
  | S fuel =>
      g ←' get;
      match checkVertexID g id with
      | Some e => ret (inl e)
      | None =>
          match descendantsCache g !! id with
          | Some cache => ret (inr cache)
          | None =>
              cache ←' match outboundEdges g !! id with
                       | None => ret ∅
                       | Some children =>
                           ks ←' range children;
                           for_each ks (λ cache child,
                             r ←' getDescendantsIDs fuel child;
                             vs ←' rangev (match r with inl _ => ∅ | inr s => s end);
                             let cache := foldl (λ c descendant, set_add descendant c) cache vs in
                             ret (set_add child cache)) ∅
                       end;
              modify (set_desc (<[id := cache]>)) ;;'
              ret (inr cache)
          end
      end
  end.

(** Fuel given to the two functions above by the API calls: a chain of
    recursive calls visits pairwise different vertices.  [DagFuel] shows that
    more fuel gives the same result, [DagRefine] that this much always suffices. *)
Definition fuel_of (g : graph) : nat := S (size (vertices g)).
Definition ancestorsOf (id : K) : M (err + goset K) :=
  g ←' get; getAncestorsIDs (fuel_of g) id.
Definition descendantsOf (id : K) : M (err + goset K) :=
  g ←' get; getDescendantsIDs (fuel_of g) id.
(** [x, _ := ...] *)
Definition ignore_err (r : err + goset K) : goset K :=
  match r with inl _ => ∅ | inr s => s end.

(** dag.go:64-107 (DeleteVertex).  Lines 92 and 98 range over the values of the
    sets.  [delete(m[k], id)] with a missing [m[k]] is a no-op. *)
Definition DeleteVertex (id : K) : M (option err) :=
  g ←' get;
  match checkVertexID g id with
  | Some e => ret (Some e)
  | None =>
      descendants ←' descendantsOf id;
      ancestors ←' ancestorsOf id;
      let descendants := ignore_err descendants in
      let ancestors := ignore_err ancestors in
      g ←' get;
      match inboundEdges g !! id with
      | None => ret tt
      | Some parents =>
          ks ←' range parents;
          for_each ks (λ _ parent,
            modify (set_outbound (alter (set_delete id) parent))) tt
      end ;;'
      g ←' get;
      match outboundEdges g !! id with
      | None => ret tt
      | Some children =>
          ks ←' range children;
          for_each ks (λ _ child,
            modify (set_inbound (alter (set_delete id) child))) tt
      end ;;'
      modify (set_inbound (delete id)) ;;'
      modify (set_outbound (delete id)) ;;'
      ks ←' rangev descendants;
      for_each ks (λ _ descendant, modify (set_anc (delete descendant))) tt ;;'
      modify (set_anc (delete id)) ;;'
      ks ←' rangev ancestors;
      for_each ks (λ _ ancestor, modify (set_desc (delete ancestor))) tt ;;'
      modify (set_desc (delete id)) ;;'
      modify (set_vertices (delete id)) ;;'
      ret None
  end.

(** dag.go:160-174 (IsEdge). *)
Definition isEdge (g : graph) (s t : K) : bool * option err :=
  match checkEdgeIDs g s t with
  | Some e => (false, Some e)
  | None =>
      match outboundEdges g !! s with
      | None => (false, None)
      | Some children =>
          if set_includes children t then (true, None) else (false, None)
      end
  end.
Definition IsEdge (s t : K) : M (bool * option err) := g ←' get; ret (isEdge g s t).

(** [g.outboundEdges[k].Add(v)]: panics if the entry is missing (nil map). *)
Definition add_outbound (k v : K) : M unit :=
  g ←' get;
  match outboundEdges g !! k with
  | None => panic
  | Some s => modify (set_outbound (<[k := set_add v s]>))
  end.
Definition add_inbound (k v : K) : M unit :=
  g ←' get;
  match inboundEdges g !! k with
  | None => panic
  | Some s => modify (set_inbound (<[k := set_add v s]>))
  end.

(** dag.go:112-155 (AddEdge). *)
Definition AddEdge (s t : K) : M (option err) :=
  g ←' get;
  match checkEdgeIDs g s t with
  | Some e => ret (Some e)
  | None =>
      if (isEdge g s t).1 then ret (Some ErrEdgeDuplicate) else
      descendants ←' descendantsOf t;
      ancestors ←' ancestorsOf s;
      let descendants := ignore_err descendants in
      let ancestors := ignore_err ancestors in
      if set_includes descendants s then ret (Some ErrEdgeLoop) else
      g ←' get;
      match outboundEdges g !! s with
      | None => modify (set_outbound (<[s := ∅]>))
      | Some _ => ret tt
      end ;;'
      add_outbound s t ;;'
      g ←' get;
      match inboundEdges g !! t with
      | None => modify (set_inbound (<[t := ∅]>))
      | Some _ => ret tt
      end ;;'
      add_inbound t s ;;'
      ks ←' range descendants;
      for_each ks (λ _ descendant, modify (set_anc (delete descendant))) tt ;;'
      modify (set_anc (delete t)) ;;'
      ks ←' range ancestors;
      for_each ks (λ _ ancestor, modify (set_desc (delete ancestor))) tt ;;'
      modify (set_desc (delete s)) ;;'
      ret None
  end.

(** dag.go:179-209 (DeleteEdge). *)
Definition DeleteEdge (s t : K) : M (option err) :=
  g ←' get;
  match checkEdgeIDs g s t with
  | Some e => ret (Some e)
  | None =>
      if negb (isEdge g s t).1 then ret (Some ErrEdgeNotFound) else
      descendants ←' descendantsOf s;
      ancestors ←' ancestorsOf t;
      let descendants := ignore_err descendants in
      let ancestors := ignore_err ancestors in
      modify (set_outbound (alter (set_delete t) s)) ;;'
      modify (set_inbound (alter (set_delete s) t)) ;;'
      ks ←' range descendants;
      for_each ks (λ _ descendant, modify (set_anc (delete descendant))) tt ;;'
      modify (set_anc (delete s)) ;;'
      ks ←' range ancestors;
      for_each ks (λ _ ancestor, modify (set_desc (delete ancestor))) tt ;;'
      modify (set_desc (delete t)) ;;'
      ret None
  end.

(** dag.go:212-214 (GetOrder). *)
Definition GetOrder : M nat := g ←' get; ret (size (vertices g)).

(** dag.go:217-224 (GetSize). *)
Definition GetSize : M nat :=
  g ←' get;
  ks ←' range (outboundEdges g);
  for_each ks (λ size_ k, ret (size_ + size (read (outboundEdges g) k))) 0.

(** [res[k] = g.vertices[k]]; reading a missing vertex gives the zero value. *)
Definition store_vertex (g : graph) (m : gmap K T) (k : K) : gmap K T :=
  <[k := vertex g k]> m.

(** dag.go:227-237 (GetLeaves). *)
Definition GetLeaves : M (gmap K T) :=
  g ←' get;
  ks ←' range (vertices g);
  for_each ks (λ leaves k,
    match outboundEdges g !! k with
    | Some targetIDs =>
        if decide (size targetIDs = 0) then ret (store_vertex g leaves k) else ret leaves
    | None => ret (store_vertex g leaves k)
    end) ∅.

(** dag.go:240-250 (GetRoots). *)
Definition GetRoots : M (gmap K T) :=
  g ←' get;
  ks ←' range (vertices g);
  for_each ks (λ roots k,
    match inboundEdges g !! k with
    | Some sourceIDs =>
        if decide (size sourceIDs = 0) then ret (store_vertex g roots k) else ret roots
    | None => ret (store_vertex g roots k)
    end) ∅.

(** dag.go:253-255 (GetVertices) and 651-658 (copyMap). *)
Definition GetVertices : M (gmap K T) :=
  g ←' get;
  ks ←' range (vertices g);
  for_each ks (λ out k, ret (store_vertex g out k)) ∅.

(** dag.go:260-272 (GetParents). *)
Definition GetParents (id : K) : M (err + gmap K T) :=
  g ←' get;
  match checkVertexID g id with
  | Some e => ret (inl e)
  | None =>
      ks ←' range (read (inboundEdges g) id);
      parents ←' for_each ks (λ parents pid, ret (store_vertex g parents pid)) ∅;
      ret (inr parents)
  end.

(** dag.go:277-289 (GetChildren). *)
Definition GetChildren (id : K) : M (err + gmap K T) :=
  g ←' get;
  match checkVertexID g id with
  | Some e => ret (inl e)
  | None =>
      ks ←' range (read (outboundEdges g) id);
      children ←' for_each ks (λ children cid, ret (store_vertex g children cid)) ∅;
      ret (inr children)
  end.

(** dag.go:642-649 (loadFromCache). *)
Definition loadFromCache (cache : goset K) : M (gmap K T) :=
  g ←' get;
  ks ←' range cache;
  for_each ks (λ res k, ret (store_vertex g res k)) ∅.

(** dag.go:298-305 (GetAncestors). *)
Definition GetAncestors (id : K) : M (err + gmap K T) :=
  r ←' ancestorsOf id;
  match r with
  | inl e => ret (inl e)
  | inr ids => m ←' loadFromCache ids; ret (inr m)
  end.

(** dag.go:363-370 (GetDescendants). *)
Definition GetDescendants (id : K) : M (err + gmap K T) :=
  r ←' descendantsOf id;
  match r with
  | inl e => ret (inl e)
  | inr ids => m ←' loadFromCache ids; ret (inr m)
  end.

(** ** Breadth-first walks

    dag.go:446-479 (walkAncestors) and 505-538 (walkDescendants), run to completion
    by a consumer that never signals and receives every id, as in lines 348-351 and
    414-417.  [WalkModel] models the same loops interleaved with an arbitrary
    consumer.  *)

(** Lines 452-455 and 465-470 (511-514 and 524-529): queue the neighbours not
    visited yet. *)
Definition enqueue (st : list K * goset K) (p : K) : list K * goset K :=
  let '(fifo, visited) := st in
  if set_includes visited p then (fifo, visited) else (fifo ++ [p], set_add p visited).
(** Lines 452-455 (511-514) do not look at [visited]. *)
Definition enqueue_first (st : list K * goset K) (p : K) : list K * goset K :=
  let '(fifo, visited) := st in (fifo ++ [p], set_add p visited).

(** Lines 457-478: pop, queue the unvisited parents, send. *)
Fixpoint walkAncestorsLoop (fuel : nat) (fifo : list K) (visited : goset K)
    (sent : list K) : M (list K) :=
  match fuel with
  | O => out_of_fuel
  | S fuel =>
      match fifo with
      | [] => ret sent
      | top :: fifo =>
          g ←' get;
          ks ←' range (read (inboundEdges g) top);
          let '(fifo, visited) := foldl enqueue (fifo, visited) ks in
          walkAncestorsLoop fuel fifo visited (sent ++ [top])
      end
  end.
Definition walkAncestors (id : K) : M (list K) :=
  g ←' get;
  ks ←' range (read (inboundEdges g) id);
  let '(fifo, visited) := foldl enqueue_first ([], ∅) ks in
  walkAncestorsLoop (S (fuel_of g)) fifo visited [].

(** Lines 516-537. *)
Fixpoint walkDescendantsLoop (fuel : nat) (fifo : list K) (visited : goset K)
    (sent : list K) : M (list K) :=
  match fuel with
  | O => out_of_fuel
  | S fuel =>
      match fifo with
      | [] => ret sent
      | top :: fifo =>
          g ←' get;
          ks ←' range (read (outboundEdges g) top);
          let '(fifo, visited) := foldl enqueue (fifo, visited) ks in
          walkDescendantsLoop fuel fifo visited (sent ++ [top])
      end
  end.
Definition walkDescendants (id : K) : M (list K) :=
  g ←' get;
  ks ←' range (read (outboundEdges g) id);
  let '(fifo, visited) := foldl enqueue_first ([], ∅) ks in
  walkDescendantsLoop (S (fuel_of g)) fifo visited [].

(** dag.go:341-354 (GetOrderedAncestors). *)
Definition GetOrderedAncestors (id : K) : M (err + list K) :=
  g ←' get;
  match checkVertexID g id with
  | Some e => ret (inl e)
  | None => l ←' walkAncestors id; ret (inr l)
  end.

(** dag.go:407-420 (GetOrderedDescendants). *)
Definition GetOrderedDescendants (id : K) : M (err + list K) :=
  g ←' get;
  match checkVertexID g id with
  | Some e => ret (inl e)
  | None => l ←' walkDescendants id; ret (inr l)
  end.

(** dag.go:637-640 (flushCaches). *)
Definition flushCaches : M unit :=
  modify (λ g, Graph (vertices g) (inboundEdges g) (outboundEdges g) ∅ ∅).

(** dag.go:546-580 (ReduceTransitively).  Lines 564-573 delete from the map being
    iterated, but only the entry just visited, so every key present at the start
    of the loop is visited. *)
Definition ReduceTransitively : M unit :=
  roots ←' GetRoots;
  ks ←' range roots;
  for_each ks (λ _ root, descendantsOf root ;;' ret tt) tt ;;'
  g ←' get;
  ids ←' range (vertices g);
  graphChanged ←' for_each ids (λ graphChanged id,
    g ←' get;
    ks ←' range (read (outboundEdges g) id);
    childrenDescendants ←' for_each ks (λ acc childID,
      g ←' get;
      ds ←' range (read (descendantsCache g) childID);
      ret (foldl (λ c descendant, set_add descendant c) acc ds)) ∅;
    g ←' get;
    ks ←' range (read (outboundEdges g) id);
    for_each ks (λ graphChanged childID,
      if set_includes childrenDescendants childID then
        modify (set_outbound (alter (set_delete childID) id)) ;;'
        modify (set_inbound (alter (set_delete id) childID)) ;;'
        ret true
      else ret graphChanged) graphChanged) false;
  if graphChanged then flushCaches else ret tt.

(** dag.go:582-600 (String).  [show] is the [%v] formatting of a key. *)
Definition nl : string := String (Ascii.ascii_of_nat 10) EmptyString.
Definition StringOf (show : K → string) : M string :=
  order ←' GetOrder;
  size_ ←' GetSize;
  let sb := ("DAG Vertices: " +:+ pretty order +:+ " - Edges: " +:+ pretty size_ +:+ nl)%string in
  let sb := (sb +:+ "Vertices:" +:+ nl)%string in
  g ←' get;
  ks ←' range (vertices g);
  sb ←' for_each ks (λ sb k, ret (sb +:+ "  " +:+ show k +:+ nl)%string) sb;
  let sb := (sb +:+ "Edges:" +:+ nl)%string in
  vs ←' range (outboundEdges g);
  for_each vs (λ sb v,
    cs ←' range (read (outboundEdges g) v);
    for_each cs (λ sb child,
      ret (sb +:+ "  " +:+ show v +:+ " -> " +:+ show child +:+ nl)%string) sb) sb.

End dag.

(** ** Histories of API calls *)
Inductive op (K T : Type) : Type :=
| OpAddVertex (id : K) (v : T)
| OpGetVertex (id : K)
| OpDeleteVertex (id : K)
| OpAddEdge (s t : K)
| OpIsEdge (s t : K)
| OpDeleteEdge (s t : K)
| OpGetOrder
| OpGetSize
| OpGetLeaves
| OpGetRoots
| OpGetVertices
| OpGetParents (id : K)
| OpGetChildren (id : K)
| OpGetAncestors (id : K)
| OpGetOrderedAncestors (id : K)
| OpGetDescendants (id : K)
| OpGetOrderedDescendants (id : K)
| OpReduceTransitively
| OpString (show : K → string).
Global Arguments OpAddVertex {K T} _ _.
Global Arguments OpGetVertex {K T} _.
Global Arguments OpDeleteVertex {K T} _.
Global Arguments OpAddEdge {K T} _ _.
Global Arguments OpIsEdge {K T} _ _.
Global Arguments OpDeleteEdge {K T} _ _.
Global Arguments OpGetOrder {K T}.
Global Arguments OpGetSize {K T}.
Global Arguments OpGetLeaves {K T}.
Global Arguments OpGetRoots {K T}.
Global Arguments OpGetVertices {K T}.
Global Arguments OpGetParents {K T} _.
Global Arguments OpGetChildren {K T} _.
Global Arguments OpGetAncestors {K T} _.
Global Arguments OpGetOrderedAncestors {K T} _.
Global Arguments OpGetDescendants {K T} _.
Global Arguments OpGetOrderedDescendants {K T} _.
Global Arguments OpReduceTransitively {K T}.
Global Arguments OpString {K T} _.

(** What a call returns. *)
Inductive out (K T : Type) `{Countable K} : Type :=
| RErr (e : option err)                    (* error only *)
| RVertex (r : err + T)                    (* GetVertex *)
| RBool (r : bool * option err)            (* IsEdge *)
| RInt (n : nat)
| RMap (m : gmap K T)
| RMapErr (r : err + gmap K T)
| RList (r : err + list K)
| RUnit
| RText (s : string).
Global Arguments RErr {K T _ _} _.
Global Arguments RVertex {K T _ _} _.
Global Arguments RBool {K T _ _} _.
Global Arguments RInt {K T _ _} _.
Global Arguments RMap {K T _ _} _.
Global Arguments RMapErr {K T _ _} _.
Global Arguments RList {K T _ _} _.
Global Arguments RUnit {K T _ _}.
Global Arguments RText {K T _ _} _.

Section run.
Context {K T : Type} `{Countable K} `{Inhabited T} (isz : K → bool).

Definition mapM {A B} (f : A → B) (m : M (K:=K) (T:=T) A) : M B := bind m (λ a, ret (f a)).

Definition exec (σ : schedule K) (o : op K T) : M (out K T) :=
  match o with
  | OpAddVertex id v => mapM RErr (AddVertex isz id v)
  | OpGetVertex id => mapM RVertex (GetVertex isz id)
  | OpDeleteVertex id => mapM RErr (DeleteVertex isz σ id)
  | OpAddEdge s t => mapM RErr (AddEdge isz σ s t)
  | OpIsEdge s t => mapM RBool (IsEdge isz s t)
  | OpDeleteEdge s t => mapM RErr (DeleteEdge isz σ s t)
  | OpGetOrder => mapM RInt GetOrder
  | OpGetSize => mapM RInt (GetSize σ)
  | OpGetLeaves => mapM RMap (GetLeaves σ)
  | OpGetRoots => mapM RMap (GetRoots σ)
  | OpGetVertices => mapM RMap (GetVertices σ)
  | OpGetParents id => mapM RMapErr (GetParents isz σ id)
  | OpGetChildren id => mapM RMapErr (GetChildren isz σ id)
  | OpGetAncestors id => mapM RMapErr (GetAncestors isz σ id)
  | OpGetOrderedAncestors id => mapM RList (GetOrderedAncestors isz σ id)
  | OpGetDescendants id => mapM RMapErr (GetDescendants isz σ id)
  | OpGetOrderedDescendants id => mapM RList (GetOrderedDescendants isz σ id)
  | OpReduceTransitively => mapM (λ _, RUnit) (ReduceTransitively isz σ)
  | OpString show => mapM RText (StringOf σ show)
  end.

(** One API call: its result and the graph afterwards. *)
Definition call (σ : schedule K) (o : op K T) (g : graph K T) : res (out K T * graph K T) :=
  match exec σ o g 0 with
  | Ok (r, g', _) => Ok (r, g')
  | Panic => Panic
  | OutOfFuel => OutOfFuel
  end.

(** A history: each call with the iteration orders Go happens to use for it. *)
Fixpoint run (h : list (schedule K * op K T)) (g : graph K T)
    : res (list (out K T) * graph K T) :=
  match h with
  | [] => Ok ([], g)
  | (σ, o) :: h =>
      match call σ o g with
      | Ok (r, g') =>
          match run h g' with
          | Ok (rs, g'') => Ok (r :: rs, g'')
          | Panic => Panic
          | OutOfFuel => OutOfFuel
          end
      | Panic => Panic
      | OutOfFuel => OutOfFuel
      end
  end.

End run.
