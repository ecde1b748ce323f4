(** * A graph keeps nothing of what has been deleted *)
From stdpp Require Import base list gmap relations sorting strings.
From Verif Require Import GoBase SetModel DagModel DagSpec DagObs DagExample DagKeepProofs.

(** The maps of a graph have entries for its vertices only, and these entries hold
    its vertices only. *)
Theorem C95_nothing_deleted_remains {K T : Type} `{Countable K} `{Inhabited T} (isz : K → bool)
    (g : graph K T) k (s : goset K) :
  reachable isz g →
  inboundEdges g !! k = Some s ∨ outboundEdges g !! k = Some s ∨
    ancestorsCache g !! k = Some s ∨ descendantsCache g !! k = Some s →
  is_Some (vertices g !! k) ∧ ∀ w, is_Some (s !! w) → is_Some (vertices g !! w).
Proof. exact (nothing_deleted_remains isz g k s). Qed.
(** The keys of the maps before and after a vertex is deleted.  Entries of vertices that
    remain are kept even if they are empty: that of 5 was [{3}]. *)
Definition entries (m : gmap nat (goset nat)) : list nat := merge_sort le (elements (dom m)).
Definition four (g : graph nat nat) : list (list nat) :=
  [entries (inboundEdges g); entries (outboundEdges g); entries (ancestorsCache g); entries (descendantsCache g)].
Example C95_example :
  reachable nz ex ∧
  four (after (OpGetAncestors 5) ex) = [[2; 3; 4; 5]; [1; 2; 3; 4]; [1; 2; 3; 4; 5]; [5]] ∧
  four (after (OpDeleteVertex 3) (after (OpGetAncestors 5) ex)) = [[2; 4; 5]; [1; 2; 4]; [1; 2; 4]; [5]].
Proof. by_computing. Qed.
Print Assumptions C95_nothing_deleted_remains.

(** A graph without vertices is a new graph, whatever has been in it. *)
Theorem C95_no_vertices_no_trace {K T : Type} `{Countable K} `{Inhabited T} (isz : K → bool)
    σ (g : graph K T) (g1 : graph K T) :
  reachable isz g → call isz σ OpGetOrder g = Ok (RInt 0, g1) → g = NewAcyclicGraph.
Proof. exact (no_vertices_no_trace isz σ g g1). Qed.
Example C95_no_trace_example :
  reachable nz ex ∧
  (let g := foldr after ex (map OpDeleteVertex [4; 5; 2; 6; 3]) in
   reply OpGetOrder g = Some (RInt 1) ∧ four g = [[]; [1]; [1]; []]) ∧
  (let g := foldr after ex (map OpDeleteVertex [1; 4; 5; 2; 6; 3]) in
   reply OpGetOrder g = Some (RInt 0) ∧ four g = [[]; []; []; []]).
Proof. split; [exact ex_reachable|]. split; split; vm_compute; reflexivity. Qed.
Print Assumptions C95_no_vertices_no_trace.
