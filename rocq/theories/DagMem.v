(** * Model of pkg/dag/dag.go with maps as references

    [DagModel] treats the maps and sets of a graph as values.  Here every Go map and
    every returned slice is a cell of memory, and variables hold references, so that two
    variables can refer to the same map.  One definition per Go function that touches
    a map, in the order of the file.  Iteration orders, fuel and outcomes are as in
    [DagModel].

    Not here: the channels of the walkers ([GetOrderedAncestors] receives what its
    walker sends, see [WalkModel]); the local queue [fifo] is a value; a slice is
    one cell, made when it is returned. *)
From stdpp Require Import base list gmap strings pretty.
From Verif Require Import GoBase SetModel DagModel.

(** The contents of a map or slice: [map[K]T], [map[K]Set[K]], [Set[K]] or [[]K]. *)
Inductive cell (K T : Type) `{Countable K} : Type :=
| CVerts (m : gmap K T)
| CSets (m : gmap K loc)
| CSet (s : goset K)
| CSlice (l : list K).
Global Arguments CVerts {K T _ _} _.
Global Arguments CSets {K T _ _} _.
Global Arguments CSet {K T _ _} _.
Global Arguments CSlice {K T _ _} _.

(** dag.go:10-16: the fields of the graph are references. *)
Record gref : Type := GRef {
  rvertices : loc;
  rinbound : loc;
  routbound : loc;
  ranc : loc;
  rdesc : loc
}.

(** The memory, and the graph that is being used. *)
Record mem (K T : Type) `{Countable K} : Type := Mem {
  cells : gmap loc (cell K T);
  this : gref
}.
Global Arguments Mem {K T _ _} _ _.
Global Arguments cells {K T _ _} _.
Global Arguments this {K T _ _} _.

(** Where [make] puts a new map or slice: at any place that is free. *)
Class Alloc : Type := { a_cell : gset loc → loc; a_free X : a_cell X ∉ X }.

Section mem.
Context {K T : Type} `{Countable K} `{Inhabited T} `{A0 : Alloc}.
Context (isz : K → bool) (σ : schedule K).
Notation mem := (mem K T).

(** ** Statements *)
Definition HM (A : Type) : Type := mem → nat → res (A * mem * nat).
Definition hret {A} (a : A) : HM A := λ m n, Ok (a, m, n).
Definition hbind {A B} (x : HM A) (f : A → HM B) : HM B := λ m n,
  match x m n with
  | Ok (a, m', n') => f a m' n'
  | Panic => Panic
  | OutOfFuel => OutOfFuel
  end.
Definition hpanic {A} : HM A := λ _ _, Panic.
Definition hout_of_fuel {A} : HM A := λ _ _, OutOfFuel.
(** Evaluate an expression that does not change the memory. *)
Definition look {A} (f : mem → A) : HM A := λ m n, Ok (f m, m, n).
Definition hloops {V} (s : gmap K V) : HM (list K) := λ m n,
  Ok (range_keys σ n s, m, S n).
Definition hloopsv (s : goset K) : HM (list K) := λ m n,
  Ok (range_vals σ n s, m, S n).
Fixpoint hfor {A B} (l : list B) (body : A → B → HM A) (acc : A) : HM A :=
  match l with
  | [] => hret acc
  | x :: l => hbind (body acc x) (hfor l body)
  end.

Local Notation "x ←' m ; k" := (hbind m (λ x, k))
  (at level 20, m at level 100, k at level 200, right associativity).
Local Notation "m ;;' k" := (hbind m (λ _, k))
  (at level 100, k at level 200, right associativity).

(** ** Maps in memory *)

Definition put (m : mem) (l : loc) (c : cell K T) : mem := Mem (<[l := c]> (cells m)) (this m).
(** [make(...)]: a new cell. *)
Definition new (c : cell K T) : HM loc := λ m n,
  let l := a_cell (dom (cells m)) in Ok (l, put m l c, n).
Definition write (l : loc) (c : cell K T) : HM unit := λ m n, Ok (tt, put m l c, n).

(** The contents of a map, by its type. *)
Definition verts_at (m : mem) (l : loc) : gmap K T :=
  match cells m !! l with Some (CVerts s) => s | _ => ∅ end.
Definition sets_at (m : mem) (l : loc) : gmap K loc :=
  match cells m !! l with Some (CSets s) => s | _ => ∅ end.
Definition set_at (m : mem) (l : loc) : goset K :=
  match cells m !! l with Some (CSet s) => s | _ => ∅ end.
(** A nil set reads as an empty one. *)
Definition set_of (m : mem) (s : setvar) : goset K :=
  match s with None => ∅ | Some l => set_at m l end.

(** [g.vertices[id]] *)
Definition payload (m : mem) (id : K) : option T := verts_at m (rvertices (this m)) !! id.
(** [g.inboundEdges[id]] and so on: the reference stored there. *)
Definition inbound (m : mem) (id : K) : setvar := sets_at m (rinbound (this m)) !! id.
Definition outbound (m : mem) (id : K) : setvar := sets_at m (routbound (this m)) !! id.
Definition anc (m : mem) (id : K) : setvar := sets_at m (ranc (this m)) !! id.
Definition desc (m : mem) (id : K) : setvar := sets_at m (rdesc (this m)) !! id.

(** [delete(g.inboundEdges, id)] and so on, for the map at [l]; [l[id] = s]. *)
Definition unset (l : gref → loc) (id : K) : HM unit :=
  s ←' look (λ m, sets_at m (l (this m)));
  r ←' look (λ m, l (this m));
  write r (CSets (delete id s)).
Definition store (l : gref → loc) (id : K) (s : loc) : HM unit :=
  old ←' look (λ m, sets_at m (l (this m)));
  r ←' look (λ m, l (this m));
  write r (CSets (<[id := s]> old)).

(** set.go:7-9 (Add): a panic on a nil set. *)
Definition Add (s : setvar) (v : K) : HM unit :=
  match s with
  | None => hpanic
  | Some l => old ←' look (λ m, set_at m l); write l (CSet (set_add v old))
  end.
(** set.go:12-14 (Delete) and [delete(s, v)]: a no-op on a nil set. *)
Definition Delete (s : setvar) (v : K) : HM unit :=
  match s with
  | None => hret tt
  | Some l => old ←' look (λ m, set_at m l); write l (CSet (set_delete v old))
  end.
(** set.go:17-21 (Includes). *)
Definition Includes (s : setvar) (v : K) : HM bool := look (λ m, set_includes (set_of m s) v).

(** ** dag.go *)

(** dag.go:19-27 (NewAcyclicGraph). *)
Definition hNewAcyclicGraph : HM unit :=
  v ←' new (CVerts ∅);
  i ←' new (CSets ∅);
  o ←' new (CSets ∅);
  a ←' new (CSets ∅);
  d ←' new (CSets ∅);
  λ m n, Ok (tt, Mem (cells m) (GRef v i o a d), n).

(** dag.go:603-613 (checkVertexID). *)
Definition hcheckVertexID (id : K) : HM (option err) := look (λ m,
  if isz id then Some ErrVertexIDEmpty else
  match payload m id with
  | None => Some ErrVertexNotFound
  | Some _ => None
  end).

(** dag.go:617-635 (checkEdgeIDs). *)
Definition hcheckEdgeIDs (s t : K) : HM (option err) := look (λ m,
  if isz s then Some ErrEdgeSourceIDEmpty else
  if isz t then Some ErrEdgeTargetIDEmpty else
  if decide (s = t) then Some ErrEdgeSourceTargetIdentical else
  match payload m s with
  | None => Some ErrEdgeSourceIDNotFound
  | Some _ =>
      match payload m t with
      | None => Some ErrEdgeTargetIDNotFound
      | Some _ => None
      end
  end).

(** dag.go:34-46 (AddVertex). *)
Definition hAddVertex (id : K) (v : T) : HM (option err) :=
  if isz id then hret (Some ErrVertexIDEmpty) else
  p ←' look (λ m, payload m id);
  match p with
  | Some _ => hret (Some ErrVertexDuplicate)
  | None =>
      vs ←' look (λ m, verts_at m (rvertices (this m)));
      r ←' look (λ m, rvertices (this m));
      write r (CVerts (<[id := v]> vs)) ;;'
      hret None
  end.

(** dag.go:53-59 (GetVertex). *)
Definition hGetVertex (id : K) : HM (err + T) :=
  e ←' hcheckVertexID id;
  match e with
  | Some e => hret (inl e)
  | None => p ←' look (λ m, payload m id); hret (inr (default inhabitant p))
  end.

(** dag.go:307-332 (getAncestorsIDs). *)
Fixpoint hgetAncestorsIDs (fuel : nat) (id : K) : HM (setvar * option err) :=
  match fuel with
  | O => hout_of_fuel
  | S fuel =>
      e ←' hcheckVertexID id;
      match e with
      | Some e => hret (None, Some e)
      | None =>
          cached ←' look (λ m, anc m id);
          match cached with
          | Some cache => hret (Some cache, None)
          | None =>
              cache ←' new (CSet ∅);
              parents ←' look (λ m, inbound m id);
              match parents with
              | None => hret tt
              | Some parents =>
                  ks ←' hbind (look (λ m, set_at m parents)) hloops;
                  hfor ks (λ _ parent,
                    r ←' hgetAncestorsIDs fuel parent;
                    vs ←' hbind (look (λ m, set_of m r.1)) hloopsv;
                    hfor vs (λ _ ancestor, Add (Some cache) ancestor) tt ;;'
                    Add (Some cache) parent) tt
              end ;;'
              store ranc id cache ;;'
              hret (Some cache, None)
          end
      end
  end.

(** dag.go:372-398 (getDescendantsIDs). *)
Fixpoint hgetDescendantsIDs (fuel : nat) (id : K) : HM (setvar * option err) :=
  match fuel with
  | O => hout_of_fuel
  | S fuel =>
      e ←' hcheckVertexID id;
      match e with
      | Some e => hret (None, Some e)
      | None =>
          cached ←' look (λ m, desc m id);
          match cached with
          | Some cache => hret (Some cache, None)
          | None =>
              cache ←' new (CSet ∅);
              children ←' look (λ m, outbound m id);
              match children with
              | None => hret tt
              | Some children =>
                  ks ←' hbind (look (λ m, set_at m children)) hloops;
                  hfor ks (λ _ child,
                    r ←' hgetDescendantsIDs fuel child;
                    vs ←' hbind (look (λ m, set_of m r.1)) hloopsv;
                    hfor vs (λ _ descendant, Add (Some cache) descendant) tt ;;'
                    Add (Some cache) child) tt
              end ;;'
              store rdesc id cache ;;'
              hret (Some cache, None)
          end
      end
  end.

Definition hfuel_of (m : mem) : nat := S (size (verts_at m (rvertices (this m)))).
Definition hancestorsOf (id : K) : HM (setvar * option err) :=
  fuel ←' look hfuel_of; hgetAncestorsIDs fuel id.
Definition hdescendantsOf (id : K) : HM (setvar * option err) :=
  fuel ←' look hfuel_of; hgetDescendantsIDs fuel id.

(** dag.go:64-107 (DeleteVertex). *)
Definition hDeleteVertex (id : K) : HM (option err) :=
  e ←' hcheckVertexID id;
  match e with
  | Some e => hret (Some e)
  | None =>
      descendants ←' hdescendantsOf id;
      ancestors ←' hancestorsOf id;
      parents ←' look (λ m, inbound m id);
      match parents with
      | None => hret tt
      | Some parents =>
          ks ←' hbind (look (λ m, set_at m parents)) hloops;
          hfor ks (λ _ parent,
            o ←' look (λ m, outbound m parent); Delete o id) tt
      end ;;'
      children ←' look (λ m, outbound m id);
      match children with
      | None => hret tt
      | Some children =>
          ks ←' hbind (look (λ m, set_at m children)) hloops;
          hfor ks (λ _ child,
            i ←' look (λ m, inbound m child); Delete i id) tt
      end ;;'
      unset rinbound id ;;'
      unset routbound id ;;'
      ks ←' hbind (look (λ m, set_of m descendants.1)) hloopsv;
      hfor ks (λ _ descendant, unset ranc descendant) tt ;;'
      unset ranc id ;;'
      ks ←' hbind (look (λ m, set_of m ancestors.1)) hloopsv;
      hfor ks (λ _ ancestor, unset rdesc ancestor) tt ;;'
      unset rdesc id ;;'
      vs ←' look (λ m, verts_at m (rvertices (this m)));
      r ←' look (λ m, rvertices (this m));
      write r (CVerts (delete id vs)) ;;'
      hret None
  end.

(** dag.go:160-174 (IsEdge). *)
Definition hIsEdge (s t : K) : HM (bool * option err) :=
  e ←' hcheckEdgeIDs s t;
  match e with
  | Some e => hret (false, Some e)
  | None =>
      o ←' look (λ m, outbound m s);
      match o with
      | None => hret (false, None)
      | Some children =>
          b ←' Includes (Some children) t;
          if b then hret (true, None) else hret (false, None)
      end
  end.

(** dag.go:112-155 (AddEdge). *)
Definition hAddEdge (s t : K) : HM (option err) :=
  e ←' hcheckEdgeIDs s t;
  match e with
  | Some e => hret (Some e)
  | None =>
      b ←' hIsEdge s t;
      if b.1 then hret (Some ErrEdgeDuplicate) else
      descendants ←' hdescendantsOf t;
      ancestors ←' hancestorsOf s;
      b ←' Includes descendants.1 s;
      if b then hret (Some ErrEdgeLoop) else
      o ←' look (λ m, outbound m s);
      match o with
      | None => c ←' new (CSet ∅); store routbound s c
      | Some _ => hret tt
      end ;;'
      o ←' look (λ m, outbound m s);
      Add o t ;;'
      i ←' look (λ m, inbound m t);
      match i with
      | None => c ←' new (CSet ∅); store rinbound t c
      | Some _ => hret tt
      end ;;'
      i ←' look (λ m, inbound m t);
      Add i s ;;'
      ks ←' hbind (look (λ m, set_of m descendants.1)) hloops;
      hfor ks (λ _ descendant, unset ranc descendant) tt ;;'
      unset ranc t ;;'
      ks ←' hbind (look (λ m, set_of m ancestors.1)) hloops;
      hfor ks (λ _ ancestor, unset rdesc ancestor) tt ;;'
      unset rdesc s ;;'
      hret None
  end.

(** dag.go:179-209 (DeleteEdge). *)
Definition hDeleteEdge (s t : K) : HM (option err) :=
  e ←' hcheckEdgeIDs s t;
  match e with
  | Some e => hret (Some e)
  | None =>
      b ←' hIsEdge s t;
      if negb b.1 then hret (Some ErrEdgeNotFound) else
      descendants ←' hdescendantsOf s;
      ancestors ←' hancestorsOf t;
      o ←' look (λ m, outbound m s);
      Delete o t ;;'
      i ←' look (λ m, inbound m t);
      Delete i s ;;'
      ks ←' hbind (look (λ m, set_of m descendants.1)) hloops;
      hfor ks (λ _ descendant, unset ranc descendant) tt ;;'
      unset ranc s ;;'
      ks ←' hbind (look (λ m, set_of m ancestors.1)) hloops;
      hfor ks (λ _ ancestor, unset rdesc ancestor) tt ;;'
      unset rdesc t ;;'
      hret None
  end.

(** dag.go:212-214 (GetOrder). *)
Definition hGetOrder : HM nat := look (λ m, size (verts_at m (rvertices (this m)))).

(** dag.go:217-224 (GetSize). *)
Definition hGetSize : HM nat :=
  ks ←' hbind (look (λ m, sets_at m (routbound (this m)))) hloops;
  hfor ks (λ size_ k,
    s ←' look (λ m, set_of m (outbound m k));
    hret (size_ + size s)) 0.

(** [res[k] = g.vertices[k]], for the map at [l]. *)
Definition copy_vertex (l : loc) (k : K) : HM unit :=
  old ←' look (λ m, verts_at m l);
  p ←' look (λ m, payload m k);
  write l (CVerts (<[k := default inhabitant p]> old)).

(** dag.go:227-237 (GetLeaves). *)
Definition hGetLeaves : HM loc :=
  leaves ←' new (CVerts ∅);
  ks ←' hbind (look (λ m, verts_at m (rvertices (this m)))) hloops;
  hfor ks (λ _ k,
    o ←' look (λ m, outbound m k);
    match o with
    | Some targetIDs =>
        s ←' look (λ m, set_at m targetIDs);
        if decide (size s = 0) then copy_vertex leaves k else hret tt
    | None => copy_vertex leaves k
    end) tt ;;'
  hret leaves.

(** dag.go:240-250 (GetRoots). *)
Definition hGetRoots : HM loc :=
  roots ←' new (CVerts ∅);
  ks ←' hbind (look (λ m, verts_at m (rvertices (this m)))) hloops;
  hfor ks (λ _ k,
    i ←' look (λ m, inbound m k);
    match i with
    | Some sourceIDs =>
        s ←' look (λ m, set_at m sourceIDs);
        if decide (size s = 0) then copy_vertex roots k else hret tt
    | None => copy_vertex roots k
    end) tt ;;'
  hret roots.

(** dag.go:253-255 (GetVertices) and 651-658 (copyMap). *)
Definition hGetVertices : HM loc :=
  out ←' new (CVerts ∅);
  ks ←' hbind (look (λ m, verts_at m (rvertices (this m)))) hloops;
  hfor ks (λ _ k, copy_vertex out k) tt ;;'
  hret out.

(** dag.go:260-272 (GetParents). *)
Definition hGetParents (id : K) : HM (err + loc) :=
  e ←' hcheckVertexID id;
  match e with
  | Some e => hret (inl e)
  | None =>
      parents ←' new (CVerts ∅);
      ks ←' hbind (look (λ m, set_of m (inbound m id))) hloops;
      hfor ks (λ _ pid, copy_vertex parents pid) tt ;;'
      hret (inr parents)
  end.

(** dag.go:277-289 (GetChildren). *)
Definition hGetChildren (id : K) : HM (err + loc) :=
  e ←' hcheckVertexID id;
  match e with
  | Some e => hret (inl e)
  | None =>
      children ←' new (CVerts ∅);
      ks ←' hbind (look (λ m, set_of m (outbound m id))) hloops;
      hfor ks (λ _ cid, copy_vertex children cid) tt ;;'
      hret (inr children)
  end.

(** dag.go:642-649 (loadFromCache). *)
Definition hloadFromCache (cache : setvar) : HM loc :=
  res ←' new (CVerts ∅);
  ks ←' hbind (look (λ m, set_of m cache)) hloops;
  hfor ks (λ _ k, copy_vertex res k) tt ;;'
  hret res.

(** dag.go:298-305 (GetAncestors). *)
Definition hGetAncestors (id : K) : HM (err + loc) :=
  r ←' hancestorsOf id;
  match r.2 with
  | Some e => hret (inl e)
  | None => l ←' hloadFromCache r.1; hret (inr l)
  end.

(** dag.go:363-370 (GetDescendants). *)
Definition hGetDescendants (id : K) : HM (err + loc) :=
  r ←' hdescendantsOf id;
  match r.2 with
  | Some e => hret (inl e)
  | None => l ←' hloadFromCache r.1; hret (inr l)
  end.

(** dag.go:452-455 and 511-514: queue the first neighbours. *)
Definition hqueue_first (visited : loc) (fifo : list K) (p : K) : HM (list K) :=
  Add (Some visited) p ;;' hret (fifo ++ [p]).
(** dag.go:465-470 and 524-529: queue a neighbour unless visited. *)
Definition hqueue (visited : loc) (fifo : list K) (p : K) : HM (list K) :=
  b ←' Includes (Some visited) p;
  if b then hret fifo else Add (Some visited) p ;;' hret (fifo ++ [p]).

(** dag.go:446-479 (walkAncestors), for a consumer that never signals. *)
Fixpoint hwalkAncestorsLoop (fuel : nat) (fifo : list K) (visited : loc)
    (sent : list K) : HM (list K) :=
  match fuel with
  | O => hout_of_fuel
  | S fuel =>
      match fifo with
      | [] => hret sent
      | top :: fifo =>
          ks ←' hbind (look (λ m, set_of m (inbound m top))) hloops;
          fifo ←' hfor ks (hqueue visited) fifo;
          hwalkAncestorsLoop fuel fifo visited (sent ++ [top])
      end
  end.
Definition hwalkAncestors (id : K) : HM (list K) :=
  visited ←' new (CSet ∅);
  ks ←' hbind (look (λ m, set_of m (inbound m id))) hloops;
  fifo ←' hfor ks (hqueue_first visited) [];
  fuel ←' look hfuel_of;
  hwalkAncestorsLoop (S fuel) fifo visited [].

(** dag.go:505-538 (walkDescendants). *)
Fixpoint hwalkDescendantsLoop (fuel : nat) (fifo : list K) (visited : loc)
    (sent : list K) : HM (list K) :=
  match fuel with
  | O => hout_of_fuel
  | S fuel =>
      match fifo with
      | [] => hret sent
      | top :: fifo =>
          ks ←' hbind (look (λ m, set_of m (outbound m top))) hloops;
          fifo ←' hfor ks (hqueue visited) fifo;
          hwalkDescendantsLoop fuel fifo visited (sent ++ [top])
      end
  end.
Definition hwalkDescendants (id : K) : HM (list K) :=
  visited ←' new (CSet ∅);
  ks ←' hbind (look (λ m, set_of m (outbound m id))) hloops;
  fifo ←' hfor ks (hqueue_first visited) [];
  fuel ←' look hfuel_of;
  hwalkDescendantsLoop (S fuel) fifo visited [].

(** dag.go:341-354 (GetOrderedAncestors). *)
Definition hGetOrderedAncestors (id : K) : HM (err + loc) :=
  e ←' hcheckVertexID id;
  match e with
  | Some e => hret (inl e)
  | None => ids ←' hwalkAncestors id; l ←' new (CSlice ids); hret (inr l)
  end.

(** dag.go:407-420 (GetOrderedDescendants). *)
Definition hGetOrderedDescendants (id : K) : HM (err + loc) :=
  e ←' hcheckVertexID id;
  match e with
  | Some e => hret (inl e)
  | None => ids ←' hwalkDescendants id; l ←' new (CSlice ids); hret (inr l)
  end.

(** dag.go:637-640 (flushCaches): two new maps. *)
Definition hflushCaches : HM unit :=
  a ←' new (CSets ∅);
  (λ m n, Ok (tt, Mem (cells m) (GRef (rvertices (this m)) (rinbound (this m))
                                      (routbound (this m)) a (rdesc (this m))), n)) ;;'
  d ←' new (CSets ∅);
  λ m n, Ok (tt, Mem (cells m) (GRef (rvertices (this m)) (rinbound (this m))
                                     (routbound (this m)) (ranc (this m)) d), n).

(** dag.go:546-580 (ReduceTransitively). *)
Definition hReduceTransitively : HM unit :=
  roots ←' hGetRoots;
  ks ←' hbind (look (λ m, verts_at m roots)) hloops;
  hfor ks (λ _ root, hdescendantsOf root ;;' hret tt) tt ;;'
  ids ←' hbind (look (λ m, verts_at m (rvertices (this m)))) hloops;
  graphChanged ←' hfor ids (λ graphChanged id,
    childrenDescendants ←' new (CSet ∅);
    ks ←' hbind (look (λ m, set_of m (outbound m id))) hloops;
    hfor ks (λ _ childID,
      ds ←' hbind (look (λ m, set_of m (desc m childID))) hloops;
      hfor ds (λ _ descendant, Add (Some childrenDescendants) descendant) tt) tt ;;'
    ks ←' hbind (look (λ m, set_of m (outbound m id))) hloops;
    hfor ks (λ graphChanged childID,
      b ←' Includes (Some childrenDescendants) childID;
      if b then
        o ←' look (λ m, outbound m id);
        Delete o childID ;;'
        i ←' look (λ m, inbound m childID);
        Delete i id ;;'
        hret true
      else hret graphChanged) graphChanged) false;
  if graphChanged then hflushCaches else hret tt.

(** dag.go:582-600 (String). *)
Definition hString (show : K → string) : HM string :=
  order ←' hGetOrder;
  size_ ←' hGetSize;
  let sb := ("DAG Vertices: " +:+ pretty order +:+ " - Edges: " +:+ pretty size_ +:+ nl)%string in
  let sb := (sb +:+ "Vertices:" +:+ nl)%string in
  ks ←' hbind (look (λ m, verts_at m (rvertices (this m)))) hloops;
  sb ←' hfor ks (λ sb k, hret (sb +:+ "  " +:+ show k +:+ nl)%string) sb;
  let sb := (sb +:+ "Edges:" +:+ nl)%string in
  vs ←' hbind (look (λ m, sets_at m (routbound (this m)))) hloops;
  hfor vs (λ sb v,
    cs ←' hbind (look (λ m, set_of m (outbound m v))) hloops;
    hfor cs (λ sb child,
      hret (sb +:+ "  " +:+ show v +:+ " -> " +:+ show child +:+ nl)%string) sb) sb.

End mem.

(** ** Clients *)

(** What a call returns: as [out], with a reference for a map or slice. *)
Inductive hout (K T : Type) : Type :=
| HErr (e : option err)
| HVertex (r : err + T)
| HBool (r : bool * option err)
| HInt (n : nat)
| HMap (l : loc)
| HMapErr (r : err + loc)
| HList (r : err + loc)
| HUnit
| HText (s : string).
Global Arguments HErr {K T} _.
Global Arguments HVertex {K T} _.
Global Arguments HBool {K T} _.
Global Arguments HInt {K T} _.
Global Arguments HMap {K T} _.
Global Arguments HMapErr {K T} _.
Global Arguments HList {K T} _.
Global Arguments HUnit {K T}.
Global Arguments HText {K T} _.

Section run.
Context {K T : Type} `{Countable K} `{Inhabited T} `{A0 : Alloc} (isz : K → bool).
Notation mem := (mem K T).

Definition hmapM {A B} (f : A → B) (x : HM (K:=K) (T:=T) A) : HM B := hbind x (λ a, hret (f a)).

Definition hexec (σ : schedule K) (o : op K T) : HM (hout K T) :=
  match o with
  | OpAddVertex id v => hmapM HErr (hAddVertex isz id v)
  | OpGetVertex id => hmapM HVertex (hGetVertex isz id)
  | OpDeleteVertex id => hmapM HErr (hDeleteVertex isz σ id)
  | OpAddEdge s t => hmapM HErr (hAddEdge isz σ s t)
  | OpIsEdge s t => hmapM HBool (hIsEdge isz s t)
  | OpDeleteEdge s t => hmapM HErr (hDeleteEdge isz σ s t)
  | OpGetOrder => hmapM HInt hGetOrder
  | OpGetSize => hmapM HInt (hGetSize σ)
  | OpGetLeaves => hmapM HMap (hGetLeaves σ)
  | OpGetRoots => hmapM HMap (hGetRoots σ)
  | OpGetVertices => hmapM HMap (hGetVertices σ)
  | OpGetParents id => hmapM HMapErr (hGetParents isz σ id)
  | OpGetChildren id => hmapM HMapErr (hGetChildren isz σ id)
  | OpGetAncestors id => hmapM HMapErr (hGetAncestors isz σ id)
  | OpGetOrderedAncestors id => hmapM HList (hGetOrderedAncestors isz σ id)
  | OpGetDescendants id => hmapM HMapErr (hGetDescendants isz σ id)
  | OpGetOrderedDescendants id => hmapM HList (hGetOrderedDescendants isz σ id)
  | OpReduceTransitively => hmapM (λ _, HUnit) (hReduceTransitively isz σ)
  | OpString show => hmapM HText (hString σ show)
  end.

(** What the client reads in the result when the call returns. *)
Definition slice_at (m : mem) (l : loc) : list K :=
  match cells m !! l with Some (CSlice s) => s | _ => [] end.
Definition read_out (m : mem) (r : hout K T) : out K T :=
  match r with
  | HErr e => RErr e
  | HVertex r => RVertex r
  | HBool r => RBool r
  | HInt n => RInt n
  | HMap l => RMap (verts_at m l)
  | HMapErr (inl e) => RMapErr (inl e)
  | HMapErr (inr l) => RMapErr (inr (verts_at m l))
  | HList (inl e) => RList (inl e)
  | HList (inr l) => RList (inr (slice_at m l))
  | HUnit => RUnit
  | HText s => RText s
  end.
(** The references in a result. *)
Definition refs (r : hout K T) : list loc :=
  match r with
  | HMap l | HMapErr (inr l) | HList (inr l) => [l]
  | _ => []
  end.

(** A client calls the API and writes into the maps and slices it was given: [Write i c]
    gives the [i]-th reference returned so far the contents [c]. *)
Inductive step : Type :=
| Call (σ : schedule K) (o : op K T)
| Write (i : nat) (c : cell K T).

(** [given] are the references that calls have returned so far.  The result has what
    the client reads in the result of each call when it returns, and all references
    that it was given. *)
Fixpoint hrun (p : list step) (given : list loc) (m : mem)
    : res (list (out K T) * list loc * mem) :=
  match p with
  | [] => Ok ([], given, m)
  | Call σ o :: p =>
      match hexec σ o m 0 with
      | Ok (r, m, _) =>
          match hrun p (given ++ refs r) m with
          | Ok (outs, given', m') => Ok (read_out m r :: outs, given', m')
          | Panic => Panic
          | OutOfFuel => OutOfFuel
          end
      | Panic => Panic
      | OutOfFuel => OutOfFuel
      end
  | Write i c :: p =>
      hrun p given (match given !! i with Some l => put m l c | None => m end)
  end.

(** The calls of a client. *)
Fixpoint calls (p : list step) : list (schedule K * op K T) :=
  match p with
  | [] => []
  | Call σ o :: p => (σ, o) :: calls p
  | Write _ _ :: p => calls p
  end.

(** A client that starts with a new graph, in any memory. *)
Definition start (m : mem) : mem :=
  match hNewAcyclicGraph m 0 with Ok (_, m, _) => m | _ => m end.

End run.
Global Arguments step K T {_ _}.
Global Arguments calls {K T _ _} _.
