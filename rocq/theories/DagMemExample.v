(** * A client for the examples beside the theorems on graphs in memory *)
From stdpp Require Import base list gmap strings pretty.
From Verif Require Import GoBase SetModel DagModel DagSpec DagObs DagExample DagMem
  DagMemFacts.

(** A new map or slice gets the first free place. *)
#[export] Instance first_place : Alloc := {| a_cell := fresh; a_free := is_fresh |}.

(** The client builds the graph of [DagExample], empties the descendants of 1 that it got
    on the way, asks for all vertices, replaces them by others, and goes on. *)
Definition ex_calls (l : list (op nat nat)) : list (step nat nat) := map (Call zigzag) l.
Definition ex_client : list (step nat nat) :=
  ex_calls ex_ops ++ [Write 0 (CVerts ∅)] ++ ex_calls [OpGetDescendants 1; OpGetVertices] ++
  [Write 3 (CVerts {[ 7 := 70; 1 := 0 ]}); Write 2 (CVerts ∅)] ++
  ex_calls [OpGetDescendants 1; OpAddEdge 6 1; OpGetRoots].
(** Another graph is in memory already. *)
Definition ex_before : mem nat nat :=
  Mem (cells (start (K:=nat) (T:=nat) (Mem ∅ (GRef 0 0 0 0 0)))) (GRef 0 0 0 0 0).
Definition ex_mem : mem nat nat :=
  match hrun nz ex_client [] (start ex_before) with Ok (_, _, m) => m | _ => ex_before end.
Definition ex_given : list loc :=
  match hrun nz ex_client [] (start ex_before) with Ok (_, given, _) => given | _ => [] end.
Definition ex_outs : list (out nat nat) :=
  match hrun nz ex_client [] (start ex_before) with Ok (outs, _, _) => outs | _ => [] end.
Lemma ex_client_legal : legal_history (calls ex_client).
Proof.
  cbv [ex_client ex_calls ex_ops map app calls]. unfold legal_history.
  repeat (apply Forall_cons; split; [apply zigzag_legal|]). apply Forall_nil. exact I.
Qed.
Lemma of_ok {A B C} (r : res (A * B * C)) a b c :
  is_Ok r →
  r = Ok (match r with Ok (x, _, _) => x | _ => a end,
          match r with Ok (_, x, _) => x | _ => b end,
          match r with Ok (_, _, x) => x | _ => c end).
Proof. by destruct r as [[[??]?]| |]. Qed.
Lemma ex_client_run : hrun nz ex_client [] (start ex_before) = Ok (ex_outs, ex_given, ex_mem).
Proof. unfold ex_outs, ex_given, ex_mem. apply of_ok. vm_compute. exact I. Qed.
