(** * The properties of graphs in memory

    [hrun isz p [] (start m0)] runs the client [p] on a new graph made in the memory
    [m0]: the results of its calls, the references to maps and slices that it was
    given, and the memory afterwards.  [view m] is the graph in [m] as a value: the
    contents of the five maps of the graph, with the contents of the sets in them.
    New maps and slices may be put at any free place ([Alloc]). *)
From stdpp Require Import base list gmap strings pretty.
From Verif Require Import GoBase SetModel DagModel DagSpec DagObs DagExample DagMem
  DagMemFacts DagMemPropProofs DagMemExample.

(** The client [p] calls the API and overwrites collections that it was given, as it
    likes.  The client that does the calls only gets the same results and ends with
    the same graph. *)
Theorem C47_writes_have_no_effect {K T : Type} `{Countable K} `{Inhabited T} `{A0 : Alloc} (isz : K → bool)
    (p : list (step K T)) (m0 : mem K T) :
  legal_history (calls p) →
  ∃ outs given m given' m',
    hrun isz p [] (start m0) = Ok (outs, given, m) ∧
    hrun isz (map (λ '(σ, o), Call σ o) (calls p)) [] (start m0) = Ok (outs, given', m') ∧
    view m = view m'.
Proof. exact (p47_client isz p m0). Qed.
(** The client really overwrites what it was given: the 0th and 2nd map are empty, the
    3rd has keys 1 and 7. *)
Example C47_client_example :
  legal_history (calls ex_client) ∧ length ex_client = 22 ∧ length (calls ex_client) = 19 ∧
  length ex_given = 6 ∧
  map (λ l, elements (dom (verts_at ex_mem l))) ex_given = [[]; [1; 2; 4]; []; [1; 7]; [3; 5; 2; 4]; [6]] ∧
  elements (dom (vertices (view ex_mem))) = [1; 3; 5; 2; 4; 6].
Proof. split; [exact ex_client_legal|]. vm_compute. repeat split; reflexivity. Qed.
Print Assumptions C47_writes_have_no_effect.

(** Whatever a client writes into a collection it was given, at any time, the graph
    stays as it is. *)
Theorem C47_write_keeps_graph {K T : Type} `{Countable K} `{Inhabited T} `{A0 : Alloc} (isz : K → bool)
    (p : list (step K T)) (m0 : mem K T) outs given (m : mem K T) (l : loc) c :
  legal_history (calls p) →
  hrun isz p [] (start m0) = Ok (outs, given, m) →
  l ∈ given →
  view (put m l c) = view m.
Proof. exact (p47_write isz p m0 outs given m l c). Qed.
Example C47_write_example :
  legal_history (calls ex_client) ∧
  hrun nz ex_client [] (start ex_before) = Ok (ex_outs, ex_given, ex_mem) ∧
  last ex_given = Some 40 ∧ 40 ∈ ex_given.
Proof.
  split; [exact ex_client_legal|]. split; [exact ex_client_run|].
  split; [vm_compute; reflexivity|]. apply (elem_of_list_lookup_2 _ 5). vm_compute. reflexivity.
Qed.
Print Assumptions C47_write_keeps_graph.

(** With maps as references, every client gets the results that the model with maps as
    values gives for its calls, and the maps end with the contents of that model. *)
Theorem C64_memory_model_agrees {K T : Type} `{Countable K} `{Inhabited T} `{A0 : Alloc} (isz : K → bool)
    (p : list (step K T)) (m0 : mem K T) :
  legal_history (calls p) →
  ∃ outs given m,
    hrun isz p [] (start m0) = Ok (outs, given, m) ∧
    run isz (calls p) NewAcyclicGraph = Ok (outs, view m).
Proof. exact (p64_agrees isz p m0). Qed.
Example C64_agrees_example : legal_history (calls ex_client) ∧ length ex_outs = 19 ∧
  size (cells ex_before) = 5 ∧ size (cells ex_mem) = 41.
Proof. split; [exact ex_client_legal|]. vm_compute. repeat split; reflexivity. Qed.
Print Assumptions C64_memory_model_agrees.

(** No set is stored in two places of a graph. *)
Theorem C64_no_shared_set {K T : Type} `{Countable K} `{Inhabited T} `{A0 : Alloc} (isz : K → bool)
    (p : list (step K T)) (m0 : mem K T) outs given (m : mem K T) f k f' k' (l : loc) :
  legal_history (calls p) →
  hrun isz p [] (start m0) = Ok (outs, given, m) →
  sets_at m (outer (this m) f) !! k = Some l →
  sets_at m (outer (this m) f') !! k' = Some l →
  f = f' ∧ k = k'.
Proof. exact (p64_separate isz p m0 outs given m f k f' k' l). Qed.
Example C64_separate_example :
  hrun nz ex_client [] (start ex_before) = Ok (ex_outs, ex_given, ex_mem) ∧
  is_Some (sets_at ex_mem (outer (this ex_mem) FO) !! 1) ∧
  is_Some (sets_at ex_mem (outer (this ex_mem) FI) !! 3).
Proof. split; [exact ex_client_run|]. split; eexists; vm_compute; reflexivity. Qed.
Print Assumptions C64_no_shared_set.

(** Cells that were there before the graph was made keep their contents. *)
Theorem C64_other_memory_untouched {K T : Type} `{Countable K} `{Inhabited T} `{A0 : Alloc} (isz : K → bool)
    (p : list (step K T)) (m0 : mem K T) outs given (m : mem K T) (l : loc) c :
  legal_history (calls p) →
  hrun isz p [] (start m0) = Ok (outs, given, m) →
  cells m0 !! l = Some c →
  cells m !! l = Some c.
Proof. exact (p64_others isz p m0 outs given m l c). Qed.
Example C64_others_example :
  hrun nz ex_client [] (start ex_before) = Ok (ex_outs, ex_given, ex_mem) ∧
  cells ex_before !! 0 = Some (CVerts ∅) ∧ cells ex_before !! 4 = Some (CSets ∅).
Proof. split; [exact ex_client_run|]. split; vm_compute; reflexivity. Qed.
Print Assumptions C64_other_memory_untouched.

(** Later calls do not change a collection that was returned before. *)
Theorem C65_results_are_snapshots {K T : Type} `{Countable K} `{Inhabited T} `{A0 : Alloc} (isz : K → bool)
    (p : list (step K T)) (m0 : mem K T) outs given (m : mem K T) (h : list (schedule K * op K T)) outs' given' (m' : mem K T) (l : loc) :
  legal_history (calls p) → legal_history h →
  hrun isz p [] (start m0) = Ok (outs, given, m) →
  hrun isz (map (λ '(σ, o), Call σ o) h) given m = Ok (outs', given', m') →
  l ∈ given →
  cells m' !! l = cells m !! l.
Proof. exact (p65_snapshot isz p m0 outs given m h outs' given' m' l). Qed.
(** The roots were [6]; the calls delete vertex 6. *)
Example C65_snapshot_example :
  legal_history [(zigzag, OpDeleteVertex (T:=nat) 6)] ∧
  is_Ok (hrun nz [Call zigzag (OpDeleteVertex 6)] ex_given ex_mem) ∧
  elements (dom (verts_at ex_mem 40)) = [6].
Proof.
  split; [apply Forall_singleton, zigzag_legal|]. split; [vm_compute; exact I|vm_compute; reflexivity].
Qed.
Print Assumptions C65_results_are_snapshots.

(** Every collection that a call returns is a new one: no two results are the same
    map or slice, and none is one that was there before the graph was made. *)
Theorem C65_results_are_new {K T : Type} `{Countable K} `{Inhabited T} `{A0 : Alloc} (isz : K → bool)
    (p : list (step K T)) (m0 : mem K T) outs given (m : mem K T) :
  legal_history (calls p) →
  hrun isz p [] (start m0) = Ok (outs, given, m) →
  NoDup given ∧ ∀ l, l ∈ given → is_Some (cells m !! l) ∧ cells m0 !! l = None.
Proof. exact (p65_new isz p m0 outs given m). Qed.
Example C65_new_example : length ex_given = 6 ∧ elements (dom (cells ex_before)) = [0; 1; 3; 2; 4].
Proof. split; vm_compute; reflexivity. Qed.
Print Assumptions C65_results_are_new.
