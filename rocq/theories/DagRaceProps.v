(** * The properties of calls in several goroutines

    [hrun isz p [] (start m0) = Ok (outs, given, m)]: a client has made the graph with the
    calls and writes [p], and [m] is the memory afterwards.  Then the goroutines [ts] run;
    [reaches isz m ts s]: in some interleaving of their accesses to memory they get to the
    state [s], which has the memory and what is left of each goroutine. *)
From stdpp Require Import base list gmap strings pretty.
From Verif Require Import GoBase SetModel DagModel DagSpec DagObs DagExample DagMem
  DagMemFacts DagMemExample DagProg DagRaceSpec DagRaceProofs DagRaceRefute.

(** Some client has built a graph with the calls and writes [p].  Then goroutines make any
    queries and any walkers run, in any interleaving.  For each cache: it has every vertex, or
    only one of the goroutines makes the calls that use it.  No two goroutines are ever about
    to access the same memory, one of them to change it, and none panics. *)
Theorem C83_no_race {K T : Type} `{Countable K} `{Inhabited T} `{A0 : Alloc} (isz : K → bool)
    (p : list (step K T)) (m0 : mem K T) outs given (m : mem K T) (ts : list (task K T)) s :
  legal_history (calls p) →
  hrun isz p [] (start m0) = Ok (outs, given, m) →
  Forall queries ts →
  complete m ranc ∨ in_one asks_ancestors ts →
  complete m rdesc ∨ in_one asks_descendants ts →
  reaches isz m ts s →
  ¬ race s.2 ∧ ¬ panics s.2.
Proof. exact (p83_safe isz p m0 outs given m ts s). Qed.
(** In the graph of [ex_client] the first goroutine alone asks for ancestors and the second
    alone for descendants; a third makes other queries, and there are two walkers. *)
Definition ex_tasks : list (task nat nat) :=
  [Calls [OpGetAncestors 3; OpGetChildren 1; OpGetAncestors 4]; Calls [OpGetDescendants 6; OpGetOrder];
   Calls [OpGetRoots; OpString pretty; OpGetOrderedAncestors 4]; Walk true 4; Walk false 6].
Example C83_tasks_example :
  legal_history (calls ex_client) ∧
  hrun nz ex_client [] (start ex_before) = Ok (ex_outs, ex_given, ex_mem) ∧
  Forall queries ex_tasks ∧ in_one asks_ancestors ex_tasks ∧ in_one asks_descendants ex_tasks ∧
  sets_at ex_mem (ranc (this ex_mem)) !! 3 = None.
Proof.
  split; [exact ex_client_legal|]. split; [exact ex_client_run|].
  split; [apply queries_check; vm_compute; reflexivity|].
  split; [apply in_one_check; vm_compute; lia|]. split; [apply in_one_check; vm_compute; lia|]. vm_compute. reflexivity.
Qed.
Print Assumptions C83_no_race.

(** A client that ends with GetAncestors, or GetDescendants, of all vertices has a cache with
    every vertex. *)
Theorem C83_fill_cache {K T : Type} `{Countable K} `{Inhabited T} `{A0 : Alloc} (isz : K → bool)
    (p : list (step K T)) (m0 : mem K T) outs given (m : mem K T) (up : bool) (l : list (schedule K * K)) :
  legal_history (calls p) →
  Forall (λ x, legal x.1) l →
  hrun isz (p ++ map (λ x, Call x.1 (if up then OpGetAncestors x.2 else OpGetDescendants x.2)) l) [] (start m0) = Ok (outs, given, m) →
  (∀ k, is_Some (verts_at m (rvertices (this m)) !! k) → ∃ x, x ∈ l ∧ x.2 = k) →
  complete m (if up then ranc else rdesc).
Proof. exact (p83_fill isz p m0 outs given m up l). Qed.
Example C83_fill_example :
  legal_history (calls pair_client) ∧
  match hrun nz (pair_client ++ map (λ x, Call x.1 (if true then OpGetAncestors x.2 else OpGetDescendants x.2)) [(zigzag, 2); (zigzag, 1)]) [] (start ex_before) with
  | Ok (_, _, m) => elements (dom (verts_at m (rvertices (this m)))) = [1; 2] ∧ elements (dom (sets_at m (ranc (this m)))) = [1; 2]
  | _ => False
  end.
Proof. split; [exact pair_legal|]. vm_compute. split; reflexivity. Qed.
Print Assumptions C83_fill_cache.

(** Otherwise there are races: two goroutines that begin with GetAncestors, or both with
    GetDescendants, of vertices that are not in the cache, get to a state where both are about
    to change it. *)
Theorem C83_else_race {K T : Type} `{Countable K} `{Inhabited T} `{A0 : Alloc} (isz : K → bool)
    (p : list (step K T)) (m0 : mem K T) outs given (m : mem K T) (ts : list (task K T)) (up : bool) i j id id' os os' :
  legal_history (calls p) →
  hrun isz p [] (start m0) = Ok (outs, given, m) →
  i ≠ j →
  ts !! i = Some (Calls ((if up then OpGetAncestors id else OpGetDescendants id) :: os)) →
  ts !! j = Some (Calls ((if up then OpGetAncestors id' else OpGetDescendants id') :: os')) →
  is_Some (verts_at m (rvertices (this m)) !! id) →
  is_Some (verts_at m (rvertices (this m)) !! id') →
  sets_at m (if up then ranc (this m) else rdesc (this m)) !! id = None →
  sets_at m (if up then ranc (this m) else rdesc (this m)) !! id' = None →
  ∃ s, reaches isz m ts s ∧ race s.2.
Proof. exact (p83_meet isz p m0 outs given m ts up i j id id' os os'). Qed.
Example C83_else_example :
  legal_history (calls ex_client) ∧
  hrun nz ex_client [] (start ex_before) = Ok (ex_outs, ex_given, ex_mem) ∧
  is_Some (verts_at ex_mem (rvertices (this ex_mem)) !! 3) ∧ is_Some (verts_at ex_mem (rvertices (this ex_mem)) !! 4) ∧
  sets_at ex_mem (ranc (this ex_mem)) !! 3 = None ∧ sets_at ex_mem (ranc (this ex_mem)) !! 4 = None.
Proof. split; [exact ex_client_legal|]. split; [exact ex_client_run|]. split; [eexists|split; [eexists|split]]; vm_compute; reflexivity. Qed.
Print Assumptions C83_else_race.

(** The programs of single accesses that the goroutines run are those of the model: a call
    that runs alone does what it does there. *)
Theorem C83_programs_agree {K T : Type} `{Countable K} `{Inhabited T} `{A0 : Alloc} (isz : K → bool)
    σ (o : op K T) (m : mem K T) n :
  alone σ (pcall isz o) m n = hexec isz σ o m n.
Proof. exact (p83_agree isz σ o m n). Qed.
Example C83_agree_example :
  match alone zigzag (pcall nz (OpGetDescendants 6)) ex_mem 0 with
  | Ok (HMapErr (inr l), m, _) => elements (dom (verts_at m l)) = [1; 3; 5; 2; 4]
  | _ => False
  end.
Proof. vm_compute. reflexivity. Qed.
Print Assumptions C83_programs_agree.

(** When such a goroutine has ended, it has read what it would have read had it made its
    calls [os] right after those of the client, with no other goroutine running. *)
Theorem C84_same_answers {K T : Type} `{Countable K} `{Inhabited T} `{A0 : Alloc} (isz : K → bool)
    (p : list (step K T)) (m0 : mem K T) outs given (m : mem K T) (ts : list (task K T)) s i os outs' :
  legal_history (calls p) →
  hrun isz p [] (start m0) = Ok (outs, given, m) →
  Forall queries ts →
  complete m ranc ∨ in_one asks_ancestors ts →
  complete m rdesc ∨ in_one asks_descendants ts →
  reaches isz m ts s →
  ts !! i = Some (Calls os) →
  s.2 !! i = Some (Ret outs') →
  ∃ σs g', length σs = length os ∧ Forall legal σs ∧
    run isz (calls p ++ zip σs os) NewAcyclicGraph = Ok (outs ++ outs', g').
Proof. exact (p84_serial isz p m0 outs given m ts s i os outs'). Qed.
(** The goroutines of [ex_tasks] take turns until all have ended. *)
Example C84_answers_example :
  ∃ s, reaches nz ex_mem ex_tasks s ∧
    map (λ p, match p with Ret outs => length outs | _ => 10 end) s.2 = [3; 2; 3; 0; 0] ∧
    (∃ g, s.2 !! 1 = Some (Ret [RMapErr (inr g); RInt 6]) ∧ elements (dom g) = [1; 3; 5; 2; 4]) ∧
    size (cells ex_mem) = 41 ∧ size (cells s.1) = 55.
Proof.
  exists (turns 250 (ex_mem, map (task_prog nz) ex_tasks)). split; [apply turns_reach|].
  split; [vm_compute; reflexivity|]. split; [eexists; split; vm_compute; reflexivity|]. split; vm_compute; reflexivity.
Qed.
Print Assumptions C84_same_answers.

(** The graph has the vertices 1 and 2 and the edge from 1 to 2.  Two goroutines ask for the
    ancestors of 2 and get to a point where both are about to write the cache. *)
Theorem C82_parallel_queries_refuted :
  ∃ (p : list (step nat nat)) m0 outs given m (ts : list (task nat nat)) s,
    legal_history (calls p) ∧ hrun nz p [] (start m0) = Ok (outs, given, m) ∧
    Forall queries ts ∧ reaches nz m ts s ∧ race s.2.
Proof. exact (p82_refuted). Qed.
Example C82_graph_example :
  elements (dom (vertices (view pair_mem))) = [1; 2] ∧
  elements (dom (ancestorsCache (view pair_mem))) = [1] ∧
  verts_at pair_mem (rvertices (this pair_mem)) !! 2 = Some 20.
Proof. vm_compute. repeat split; reflexivity. Qed.
Print Assumptions C82_parallel_queries_refuted.

(** In that graph a walker starts at 1, and the only goroutine of the client deletes the edge:
    the walker is about to read the set that the client is about to change. *)
Theorem C85_change_during_walk_refuted :
  ∃ (p : list (step nat nat)) m0 outs given m up id (o : op nat nat) s,
    legal_history (calls p) ∧ hrun nz p [] (start m0) = Ok (outs, given, m) ∧
    reaches nz m [Walk up id; Calls [o]] s ∧ race s.2.
Proof. exact (p85_refuted). Qed.
Example C85_graph_example :
  map (λ l, match steps l pair_mem (map (task_prog nz) [Walk false 1; Calls [OpDeleteEdge 1 2]]) with Some s => map access s.2 | None => [] end)
    [replicate 3 0; replicate 58 1; replicate 3 0 ++ replicate 58 1] =
    [[Some (Some 12, false); Some (None, false)]; [None; Some (Some 12, true)]; [Some (Some 12, false); Some (Some 12, true)]].
Proof. vm_compute. reflexivity. Qed.
Print Assumptions C85_change_during_walk_refuted.
