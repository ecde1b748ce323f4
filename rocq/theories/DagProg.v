(** * Model of pkg/dag/dag.go as programs of memory accesses

    [DagMem] gives the effect of a call as a whole.  Here a call is a program whose steps are
    the single accesses to memory: to a map and to the fields of the graph.  So the steps of
    calls in several goroutines can be interleaved ([DagRaceSpec]).  [DagProgProofs] proves
    that a program that runs alone does what [DagMem] says.

    A range loop reads the map when it starts and before every iteration. *)
From stdpp Require Import base list gmap strings pretty.
From Verif Require Import GoBase SetModel DagModel DagMem.

Inductive prog (K T : Type) `{Countable K} (A : Type) : Type :=
| Ret (a : A)
| Stop                                           (* a panic *)
| NoFuel
| Read (l : loc) (k : option (cell K T) → prog K T A)      (* a map or set is read *)
| Put (l : loc) (c : cell K T) (k : prog K T A)           (* ... is changed *)
| New (c : cell K T) (k : loc → prog K T A)                (* make(...) *)
| Self (k : gref → prog K T A)                            (* the fields of the graph are read *)
| SetSelf (u : gref → gref) (k : prog K T A)              (* a field is set *)
| Order (ks : list K) (k : list K → prog K T A)            (* the order of a range loop *)
| Fuel (k : nat → prog K T A).                             (* fuel for a recursion; no access *)
Global Arguments Ret {K T _ _ A} _.
Global Arguments Stop {K T _ _ A}.
Global Arguments NoFuel {K T _ _ A}.
Global Arguments Read {K T _ _ A} _ _.
Global Arguments Put {K T _ _ A} _ _ _.
Global Arguments New {K T _ _ A} _ _.
Global Arguments Self {K T _ _ A} _.
Global Arguments SetSelf {K T _ _ A} _ _.
Global Arguments Order {K T _ _ A} _ _.
Global Arguments Fuel {K T _ _ A} _.

Section prog.
Context {K T : Type} `{Countable K} `{Inhabited T} `{A0 : Alloc}.
Context (isz : K → bool).
Notation prog := (prog K T).

Fixpoint pbind {A B} (p : prog A) (f : A → prog B) : prog B :=
  match p with
  | Ret a => f a
  | Stop => Stop
  | NoFuel => NoFuel
  | Read l k => Read l (λ c, pbind (k c) f)
  | Put l c k => Put l c (pbind k f)
  | New c k => New c (λ l, pbind (k l) f)
  | Self k => Self (λ g, pbind (k g) f)
  | SetSelf u k => SetSelf u (pbind k f)
  | Order ks k => Order ks (λ ks, pbind (k ks) f)
  | Fuel k => Fuel (λ n, pbind (k n) f)
  end.
Fixpoint pfor {A B} (l : list B) (body : A → B → prog A) (acc : A) : prog A :=
  match l with
  | [] => Ret acc
  | x :: l => pbind (body acc x) (pfor l body)
  end.
Local Notation "x ←' m ; k" := (pbind m (λ x, k))
  (at level 20, m at level 100, k at level 200, right associativity).
Local Notation "m ;;' k" := (pbind m (λ _, k))
  (at level 100, k at level 200, right associativity).

(** ** Accesses *)
Definition pnew (c : cell K T) : prog loc := New c Ret.
Definition pput (l : loc) (c : cell K T) : prog unit := Put l c (Ret tt).
Definition as_verts (c : option (cell K T)) : gmap K T := match c with Some (CVerts s) => s | _ => ∅ end.
Definition as_sets (c : option (cell K T)) : gmap K loc := match c with Some (CSets s) => s | _ => ∅ end.
Definition as_set (c : option (cell K T)) : goset K := match c with Some (CSet s) => s | _ => ∅ end.
Definition pverts_at (l : loc) : prog (gmap K T) := Read l (λ c, Ret (as_verts c)).
Definition pset_of (s : setvar) : prog (goset K) :=
  match s with None => Ret ∅ | Some l => Read l (λ c, Ret (as_set c)) end.
(** [g.vertices], [g.inboundEdges] and so on *)
Definition pverts : prog (gmap K T) := Self (λ g, pverts_at (rvertices g)).
Definition psets (f : gref → loc) : prog (gmap K loc) := Self (λ g, Read (f g) (λ c, Ret (as_sets c))).
Definition ppayload (id : K) : prog (option T) := vs ←' pverts; Ret (vs !! id).
Definition pinner (f : gref → loc) (id : K) : prog setvar := ss ←' psets f; Ret (ss !! id).
Definition punset (f : gref → loc) (id : K) : prog unit :=
  Self (λ g, Read (f g) (λ c, pput (f g) (CSets (delete id (as_sets c))))).
Definition pstore (f : gref → loc) (id : K) (s : loc) : prog unit :=
  Self (λ g, Read (f g) (λ c, pput (f g) (CSets (<[id := s]> (as_sets c))))).
Definition pAdd (s : setvar) (v : K) : prog unit :=
  match s with
  | None => Stop
  | Some l => Read l (λ c, pput l (CSet (set_add v (as_set c))))
  end.
Definition pDelete (s : setvar) (v : K) : prog unit :=
  match s with
  | None => Ret tt
  | Some l => Read l (λ c, pput l (CSet (set_delete v (as_set c))))
  end.
Definition pIncludes (s : setvar) (v : K) : prog bool := st ←' pset_of s; Ret (set_includes st v).

(** ** Range loops *)
Definition again {A} (s : setvar) (p : prog A) : prog A :=
  match s with None => p | Some l => Read l (λ _, p) end.
(** [for k := range s] *)
Definition prange {A} (s : setvar) (body : A → K → prog A) (acc : A) : prog A :=
  st ←' pset_of s; Order (map_to_list st).*1 (λ ks, pfor ks (λ a k, again s (body a k)) acc).
(** [for _, v := range s] *)
Definition prangev {A} (s : setvar) (body : A → K → prog A) (acc : A) : prog A :=
  st ←' pset_of s; Order (map_to_list st).*1 (λ ks, pfor (omap (λ k, st !! k) ks) (λ a k, again s (body a k)) acc).
(** [for k := range g.inboundEdges[id]] *)
Definition prange_in {A} (f : gref → loc) (id : K) (body : A → K → prog A) (acc : A) : prog A :=
  s ←' pinner f id; prange s body acc.
(** [for k := range m], for a [map[K]T] *)
Definition prange_verts {A} (l : loc) (body : A → K → prog A) (acc : A) : prog A :=
  vs ←' pverts_at l; Order (map_to_list vs).*1 (λ ks, pfor ks (λ a k, again (Some l) (body a k)) acc).
Definition prange_vertices {A} (body : A → K → prog A) (acc : A) : prog A :=
  Self (λ g, prange_verts (rvertices g) body acc).
(** [for k := range g.outboundEdges] *)
Definition prange_sets {A} (f : gref → loc) (body : A → K → prog A) (acc : A) : prog A :=
  Self (λ g, Read (f g) (λ c, Order (map_to_list (as_sets c)).*1 (λ ks, pfor ks (λ a k, again (Some (f g)) (body a k)) acc))).

(** ** dag.go *)
(** dag.go:603-613 (checkVertexID). *)
Definition pcheckVertexID (id : K) : prog (option err) :=
  if isz id then Ret (Some ErrVertexIDEmpty) else
  p ←' ppayload id;
  Ret (match p with None => Some ErrVertexNotFound | Some _ => None end).
(** dag.go:617-635 (checkEdgeIDs). *)
Definition pcheckEdgeIDs (s t : K) : prog (option err) :=
  if isz s then Ret (Some ErrEdgeSourceIDEmpty) else
  if isz t then Ret (Some ErrEdgeTargetIDEmpty) else
  if decide (s = t) then Ret (Some ErrEdgeSourceTargetIdentical) else
  p ←' ppayload s;
  match p with
  | None => Ret (Some ErrEdgeSourceIDNotFound)
  | Some _ =>
      p ←' ppayload t;
      Ret (match p with None => Some ErrEdgeTargetIDNotFound | Some _ => None end)
  end.
(** dag.go:34-46 (AddVertex). *)
Definition pAddVertex (id : K) (v : T) : prog (option err) :=
  if isz id then Ret (Some ErrVertexIDEmpty) else
  p ←' ppayload id;
  match p with
  | Some _ => Ret (Some ErrVertexDuplicate)
  | None => Self (λ g, Read (rvertices g) (λ c, pput (rvertices g) (CVerts (<[id := v]> (as_verts c))))) ;;' Ret None
  end.
(** dag.go:53-59 (GetVertex). *)
Definition pGetVertex (id : K) : prog (err + T) :=
  e ←' pcheckVertexID id;
  match e with
  | Some e => Ret (inl e)
  | None => p ←' ppayload id; Ret (inr (default inhabitant p))
  end.
(** dag.go:307-332 (getAncestorsIDs), 372-398 (getDescendantsIDs): [edges] and [cache] are
    inboundEdges and ancestorsCache, or outboundEdges and descendantsCache. *)
Fixpoint pgetIDs (edges cache : gref → loc) (fuel : nat) (id : K) : prog (setvar * option err) :=
  match fuel with
  | O => NoFuel
  | S fuel =>
      e ←' pcheckVertexID id;
      match e with
      | Some e => Ret (None, Some e)
      | None =>
          cached ←' pinner cache id;
          match cached with
          | Some c => Ret (Some c, None)
          | None =>
              c ←' pnew (CSet ∅);
              next ←' pinner edges id;
              match next with
              | None => Ret tt
              | Some next =>
                  prange (Some next) (λ _ x,
                    r ←' pgetIDs edges cache fuel x;
                    prangev r.1 (λ _ y, pAdd (Some c) y) tt ;;'
                    pAdd (Some c) x) tt
              end ;;'
              pstore cache id c ;;'
              Ret (Some c, None)
          end
      end
  end.
Definition pancestorsOf (id : K) : prog (setvar * option err) := Fuel (λ fuel, pgetIDs rinbound ranc fuel id).
Definition pdescendantsOf (id : K) : prog (setvar * option err) := Fuel (λ fuel, pgetIDs routbound rdesc fuel id).
(** dag.go:64-107 (DeleteVertex). *)
Definition pDeleteVertex (id : K) : prog (option err) :=
  e ←' pcheckVertexID id;
  match e with
  | Some e => Ret (Some e)
  | None =>
      descendants ←' pdescendantsOf id;
      ancestors ←' pancestorsOf id;
      parents ←' pinner rinbound id;
      match parents with
      | None => Ret tt
      | Some parents => prange (Some parents) (λ _ parent, o ←' pinner routbound parent; pDelete o id) tt
      end ;;'
      children ←' pinner routbound id;
      match children with
      | None => Ret tt
      | Some children => prange (Some children) (λ _ child, i ←' pinner rinbound child; pDelete i id) tt
      end ;;'
      punset rinbound id ;;'
      punset routbound id ;;'
      prangev descendants.1 (λ _ descendant, punset ranc descendant) tt ;;'
      punset ranc id ;;'
      prangev ancestors.1 (λ _ ancestor, punset rdesc ancestor) tt ;;'
      punset rdesc id ;;'
      Self (λ g, Read (rvertices g) (λ c, pput (rvertices g) (CVerts (delete id (as_verts c))))) ;;'
      Ret None
  end.
(** dag.go:160-174 (IsEdge). *)
Definition pIsEdge (s t : K) : prog (bool * option err) :=
  e ←' pcheckEdgeIDs s t;
  match e with
  | Some e => Ret (false, Some e)
  | None =>
      o ←' pinner routbound s;
      match o with
      | None => Ret (false, None)
      | Some children => b ←' pIncludes (Some children) t; if b then Ret (true, None) else Ret (false, None)
      end
  end.
(** dag.go:112-155 (AddEdge). *)
Definition pAddEdge (s t : K) : prog (option err) :=
  e ←' pcheckEdgeIDs s t;
  match e with
  | Some e => Ret (Some e)
  | None =>
      b ←' pIsEdge s t;
      if b.1 then Ret (Some ErrEdgeDuplicate) else
      descendants ←' pdescendantsOf t;
      ancestors ←' pancestorsOf s;
      b ←' pIncludes descendants.1 s;
      if b then Ret (Some ErrEdgeLoop) else
      o ←' pinner routbound s;
      match o with
      | None => c ←' pnew (CSet ∅); pstore routbound s c
      | Some _ => Ret tt
      end ;;'
      o ←' pinner routbound s;
      pAdd o t ;;'
      i ←' pinner rinbound t;
      match i with
      | None => c ←' pnew (CSet ∅); pstore rinbound t c
      | Some _ => Ret tt
      end ;;'
      i ←' pinner rinbound t;
      pAdd i s ;;'
      prange descendants.1 (λ _ descendant, punset ranc descendant) tt ;;'
      punset ranc t ;;'
      prange ancestors.1 (λ _ ancestor, punset rdesc ancestor) tt ;;'
      punset rdesc s ;;'
      Ret None
  end.
(** dag.go:179-209 (DeleteEdge). *)
Definition pDeleteEdge (s t : K) : prog (option err) :=
  e ←' pcheckEdgeIDs s t;
  match e with
  | Some e => Ret (Some e)
  | None =>
      b ←' pIsEdge s t;
      if negb b.1 then Ret (Some ErrEdgeNotFound) else
      descendants ←' pdescendantsOf s;
      ancestors ←' pancestorsOf t;
      o ←' pinner routbound s;
      pDelete o t ;;'
      i ←' pinner rinbound t;
      pDelete i s ;;'
      prange descendants.1 (λ _ descendant, punset ranc descendant) tt ;;'
      punset ranc s ;;'
      prange ancestors.1 (λ _ ancestor, punset rdesc ancestor) tt ;;'
      punset rdesc t ;;'
      Ret None
  end.
(** dag.go:212-214 (GetOrder). *)
Definition pGetOrder : prog nat := vs ←' pverts; Ret (size vs).
(** dag.go:217-224 (GetSize). *)
Definition pGetSize : prog nat :=
  prange_sets routbound (λ n k, s ←' pinner routbound k; st ←' pset_of s; Ret (n + size st)) 0.
Definition pcopy_vertex (l : loc) (k : K) : prog unit :=
  old ←' pverts_at l; p ←' ppayload k; pput l (CVerts (<[k := default inhabitant p]> old)).
(** dag.go:227-237 (GetLeaves). *)
Definition pGetLeaves : prog loc :=
  leaves ←' pnew (CVerts ∅);
  prange_vertices (λ _ k,
    o ←' pinner routbound k;
    match o with
    | Some targetIDs => s ←' pset_of (Some targetIDs); if decide (size s = 0) then pcopy_vertex leaves k else Ret tt
    | None => pcopy_vertex leaves k
    end) tt ;;'
  Ret leaves.
(** dag.go:240-250 (GetRoots). *)
Definition pGetRoots : prog loc :=
  roots ←' pnew (CVerts ∅);
  prange_vertices (λ _ k,
    i ←' pinner rinbound k;
    match i with
    | Some sourceIDs => s ←' pset_of (Some sourceIDs); if decide (size s = 0) then pcopy_vertex roots k else Ret tt
    | None => pcopy_vertex roots k
    end) tt ;;'
  Ret roots.
(** dag.go:253-255 (GetVertices) and 651-658 (copyMap). *)
Definition pGetVertices : prog loc :=
  out ←' pnew (CVerts ∅);
  prange_vertices (λ _ k, pcopy_vertex out k) tt ;;'
  Ret out.
(** dag.go:260-272 (GetParents), 277-289 (GetChildren). *)
Definition pneighbours (f : gref → loc) (id : K) : prog (err + loc) :=
  e ←' pcheckVertexID id;
  match e with
  | Some e => Ret (inl e)
  | None =>
      out ←' pnew (CVerts ∅);
      prange_in f id (λ _ x, pcopy_vertex out x) tt ;;'
      Ret (inr out)
  end.
Definition pGetParents (id : K) : prog (err + loc) := pneighbours rinbound id.
Definition pGetChildren (id : K) : prog (err + loc) := pneighbours routbound id.
(** dag.go:642-649 (loadFromCache). *)
Definition ploadFromCache (cache : setvar) : prog loc :=
  out ←' pnew (CVerts ∅);
  prange cache (λ _ k, pcopy_vertex out k) tt ;;'
  Ret out.
(** dag.go:298-305 (GetAncestors). *)
Definition pGetAncestors (id : K) : prog (err + loc) :=
  r ←' pancestorsOf id;
  match r.2 with
  | Some e => Ret (inl e)
  | None => l ←' ploadFromCache r.1; Ret (inr l)
  end.
(** dag.go:363-370 (GetDescendants). *)
Definition pGetDescendants (id : K) : prog (err + loc) :=
  r ←' pdescendantsOf id;
  match r.2 with
  | Some e => Ret (inl e)
  | None => l ←' ploadFromCache r.1; Ret (inr l)
  end.
(** dag.go:446-479 (walkAncestors), 505-538 (walkDescendants). *)
Definition pqueue_first (visited : loc) (fifo : list K) (p : K) : prog (list K) :=
  pAdd (Some visited) p ;;' Ret (fifo ++ [p]).
Definition pqueue (visited : loc) (fifo : list K) (p : K) : prog (list K) :=
  b ←' pIncludes (Some visited) p;
  if b then Ret fifo else pAdd (Some visited) p ;;' Ret (fifo ++ [p]).
Fixpoint pwalkLoop (f : gref → loc) (fuel : nat) (fifo : list K) (visited : loc) (sent : list K) : prog (list K) :=
  match fuel with
  | O => NoFuel
  | S fuel =>
      match fifo with
      | [] => Ret sent
      | top :: fifo =>
          fifo ←' prange_in f top (pqueue visited) fifo;
          pwalkLoop f fuel fifo visited (sent ++ [top])
      end
  end.
Definition pwalk (f : gref → loc) (id : K) : prog (list K) :=
  visited ←' pnew (CSet ∅);
  fifo ←' prange_in f id (pqueue_first visited) [];
  Fuel (λ fuel, pwalkLoop f (S fuel) fifo visited []).
(** dag.go:341-354 (GetOrderedAncestors), 407-420 (GetOrderedDescendants). *)
Definition pordered (f : gref → loc) (id : K) : prog (err + loc) :=
  e ←' pcheckVertexID id;
  match e with
  | Some e => Ret (inl e)
  | None => ids ←' pwalk f id; l ←' pnew (CSlice ids); Ret (inr l)
  end.
Definition pGetOrderedAncestors (id : K) : prog (err + loc) := pordered rinbound id.
Definition pGetOrderedDescendants (id : K) : prog (err + loc) := pordered routbound id.
(** dag.go:637-640 (flushCaches). *)
Definition pflushCaches : prog unit :=
  a ←' pnew (CSets ∅);
  SetSelf (λ g, GRef (rvertices g) (rinbound g) (routbound g) a (rdesc g)) (Ret tt) ;;'
  d ←' pnew (CSets ∅);
  SetSelf (λ g, GRef (rvertices g) (rinbound g) (routbound g) (ranc g) d) (Ret tt).
(** dag.go:546-580 (ReduceTransitively). *)
Definition pReduceTransitively : prog unit :=
  roots ←' pGetRoots;
  prange_verts roots (λ _ root, pdescendantsOf root ;;' Ret tt) tt ;;'
  graphChanged ←' prange_vertices (λ graphChanged id,
    childrenDescendants ←' pnew (CSet ∅);
    prange_in routbound id (λ _ childID,
      prange_in rdesc childID (λ _ descendant, pAdd (Some childrenDescendants) descendant) tt) tt ;;'
    prange_in routbound id (λ graphChanged childID,
      b ←' pIncludes (Some childrenDescendants) childID;
      if b then
        o ←' pinner routbound id;
        pDelete o childID ;;'
        i ←' pinner rinbound childID;
        pDelete i id ;;'
        Ret true
      else Ret graphChanged) graphChanged) false;
  if graphChanged then pflushCaches else Ret tt.
(** dag.go:582-600 (String). *)
Definition pString (show : K → string) : prog string :=
  order ←' pGetOrder;
  size_ ←' pGetSize;
  let sb := ("DAG Vertices: " +:+ pretty order +:+ " - Edges: " +:+ pretty size_ +:+ nl)%string in
  let sb := (sb +:+ "Vertices:" +:+ nl)%string in
  sb ←' prange_vertices (λ sb k, Ret (sb +:+ "  " +:+ show k +:+ nl)%string) sb;
  let sb := (sb +:+ "Edges:" +:+ nl)%string in
  prange_sets routbound (λ sb v,
    prange_in routbound v (λ sb child,
      Ret (sb +:+ "  " +:+ show v +:+ " -> " +:+ show child +:+ nl)%string) sb) sb.

Definition pmap {A B} (f : A → B) (p : prog A) : prog B := a ←' p; Ret (f a).
Definition pcall (o : op K T) : prog (hout K T) :=
  match o with
  | OpAddVertex id v => pmap HErr (pAddVertex id v)
  | OpGetVertex id => pmap HVertex (pGetVertex id)
  | OpDeleteVertex id => pmap HErr (pDeleteVertex id)
  | OpAddEdge s t => pmap HErr (pAddEdge s t)
  | OpIsEdge s t => pmap HBool (pIsEdge s t)
  | OpDeleteEdge s t => pmap HErr (pDeleteEdge s t)
  | OpGetOrder => pmap HInt pGetOrder
  | OpGetSize => pmap HInt pGetSize
  | OpGetLeaves => pmap HMap pGetLeaves
  | OpGetRoots => pmap HMap pGetRoots
  | OpGetVertices => pmap HMap pGetVertices
  | OpGetParents id => pmap HMapErr (pGetParents id)
  | OpGetChildren id => pmap HMapErr (pGetChildren id)
  | OpGetAncestors id => pmap HMapErr (pGetAncestors id)
  | OpGetOrderedAncestors id => pmap HList (pGetOrderedAncestors id)
  | OpGetDescendants id => pmap HMapErr (pGetDescendants id)
  | OpGetOrderedDescendants id => pmap HList (pGetOrderedDescendants id)
  | OpReduceTransitively => pmap (λ _, HUnit) pReduceTransitively
  | OpString show => pmap HText (pString show)
  end.

(** ** Running alone *)
(** The order of loops comes from the schedule, a new cell is the first free one. *)
Fixpoint alone {A} (σ : schedule K) (p : prog A) (m : mem K T) (n : nat) : res (A * mem K T * nat) :=
  match p with
  | Ret a => Ok (a, m, n)
  | Stop => Panic
  | NoFuel => OutOfFuel
  | Read l k => alone σ (k (cells m !! l)) m n
  | Put l c k => alone σ k (put m l c) n
  | New c k => let l := a_cell (dom (cells m)) in alone σ (k l) (put m l c) n
  | Self k => alone σ (k (this m)) m n
  | SetSelf u k => alone σ k (Mem (cells m) (u (this m))) n
  | Order ks k => alone σ (k (σ n ks)) m (S n)
  | Fuel k => alone σ (k (hfuel_of m)) m n
  end.
End prog.
