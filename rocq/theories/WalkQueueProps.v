(** * Exactly what a walker can deliver *)
From stdpp Require Import base list gmap relations sorting.
From Verif Require Import GoBase SetModel DagModel DagSpec DagObs DagExample DagTopo DagQueue DagQueueProps
  WalkModel WalkObs WalkQueue.

Definition listed (r : res (out nat nat * graph nat nat)) : option (list nat) :=
  match r with Ok (RList (inr l), _) => Some l | _ => None end.
Lemma listed_some r l : listed r = Some l → ∃ g', r = Ok (RList (inr l), g').
Proof.
  destruct r as [[o g']| |]; [|done..]. destruct o as [| | | | | |[|l']| |]; try done.
  intros [= ->]. by exists g'.
Qed.

(** What the client of a walker can have received are the beginnings of the orders of a queue;
    a client that never signals can receive each of them. *)
Theorem C101_what_a_walker_delivers {K T : Type} `{Countable K} `{Inhabited T} (isz : K → bool)
    (g : graph K T) d id m :
  reachable isz g → known isz g id →
  ((∃ es st, runs isz g d id es st ∧ got es = m) ↔
     ∃ rest, queue_order (follows isz g d) id (m ++ rest)) ∧
  ((∃ es st, runs isz g d id es st ∧ silent es ∧ got es = m) ↔
     ∃ rest, queue_order (follows isz g d) id (m ++ rest)).
Proof. exact (what_a_walker_delivers isz g d id m). Qed.
(** The graph of [C100_example]: 4, 2, 6 can be received, but 2, 4, 6 can not. *)
Example C101_example :
  reachable nz fork ∧ known nz fork 1 ∧
  (∃ es st, runs nz fork Descendants 1 es st ∧ silent es ∧ got es = [4; 2; 6]) ∧
  ¬ (∃ es st, runs nz fork Descendants 1 es st ∧ got es = [2; 4; 6]).
Proof.
  assert (known nz fork 1) as Hk by by_computing.
  split_and!; [exact fork_reachable|exact Hk| |].
  - apply C101_what_a_walker_delivers; [exact fork_reachable|exact Hk|]. exists [3; 5].
    apply C100_which_descendant_lists; [exact fork_reachable|exact Hk|].
    destruct (listed_some (call nz (follow [4; 2; 6; 3; 5]) (OpGetOrderedDescendants 1) fork) [4; 2; 6; 3; 5]) as [g' Hg'].
    { vm_compute. reflexivity. }
    exists (follow [4; 2; 6; 3; 5]), g'. split; [|exact Hg'].
    apply follow_legal, (bool_decide_unpack _). vm_compute. exact I.
  - intros Hw. apply C101_what_a_walker_delivers in Hw as (rest&_&Hel&Hq); [|exact fork_reachable|exact Hk].
    assert (has_edge nz fork 1 2 ∧ has_edge nz fork 2 3) as [H12 H23].
    { split; apply an_edge; vm_compute; reflexivity. }
    assert (3 ∈ [2; 4; 6] ++ rest) as [j Hj]%elem_of_list_lookup.
    { apply Hel. apply tc_l with 2; [exact H12|]. apply tc_once. exact H23. }
    destruct (Hq 2 j 1 2 6 3) as (q&x'&Hle&Hx'&He); [|done..|].
    { destruct j as [|[|j]]; [done..|lia]. }
    revert He. destruct q as [|[|q]]; [| |lia]; simpl in Hx'; injection Hx' as <-;
      apply no_edge; vm_compute; reflexivity.
Qed.
Print Assumptions C101_what_a_walker_delivers.

(** They are the beginnings of what the ordered query can return. *)
Theorem C101_walkers_and_ordered_queries {K T : Type} `{Countable K} `{Inhabited T} (isz : K → bool)
    (g : graph K T) d id m :
  reachable isz g → known isz g id →
  (∃ es st, runs isz g d id es st ∧ got es = m) ↔
  ∃ rest σ g', legal σ ∧
    call isz σ (match d with Ancestors => OpGetOrderedAncestors id | Descendants => OpGetOrderedDescendants id end) g =
      Ok (RList (inr (m ++ rest)), g').
Proof. exact (walker_vs_query isz g d id m). Qed.
Example C101_query_example :
  reachable nz fork ∧ known nz fork 1 ∧
  (∃ es st, runs nz fork Descendants 1 es st ∧ got es = [2; 4; 3; 6]) ∧
  ids (call nz (follow [2; 4; 3; 6; 5]) (OpGetOrderedDescendants 1) fork) = Some [2; 4; 3; 6; 5].
Proof.
  assert (known nz fork 1) as Hk by by_computing.
  split_and!; [exact fork_reachable|exact Hk| |vm_compute; reflexivity].
  apply C101_walkers_and_ordered_queries; [exact fork_reachable|exact Hk|].
  destruct (listed_some (call nz (follow [2; 4; 3; 6; 5]) (OpGetOrderedDescendants 1) fork) [2; 4; 3; 6; 5]) as [g' Hg'].
  { vm_compute. reflexivity. }
  exists [5], (follow [2; 4; 3; 6; 5]), g'. split; [|exact Hg'].
  apply follow_legal, (bool_decide_unpack _). vm_compute. exact I.
Qed.
Print Assumptions C101_walkers_and_ordered_queries.

(** What a client that never signals has received when the goroutine has ended are these
    orders, and each of them is possible. *)
Theorem C101_what_a_patient_client_gets {K T : Type} `{Countable K} `{Inhabited T} (isz : K → bool)
    (g : graph K T) d id l :
  reachable isz g → known isz g id →
  (∃ es st, runs isz g d id es st ∧ silent es ∧ pc st = PDone ∧ got es = l) ↔
  queue_order (follows isz g d) id l.
Proof. exact (patient_client isz g d id l). Qed.
Example C101_patient_example :
  reachable nz fork ∧ known nz fork 1 ∧
  (∃ es st, runs nz fork Descendants 1 es st ∧ silent es ∧ pc st = PDone ∧ got es = [4; 2; 6; 3; 5]) ∧
  ¬ (∃ es st, runs nz fork Descendants 1 es st ∧ silent es ∧ pc st = PDone ∧ got es = [4; 2; 6; 3]).
Proof.
  assert (known nz fork 1) as Hk by by_computing.
  assert (queue_order (has_edge nz fork) 1 [4; 2; 6; 3; 5]) as Hq.
  { apply C100_which_descendant_lists; [exact fork_reachable|exact Hk|].
    destruct (listed_some (call nz (follow [4; 2; 6; 3; 5]) (OpGetOrderedDescendants 1) fork) [4; 2; 6; 3; 5]) as [g' Hg'].
    { vm_compute. reflexivity. }
    exists (follow [4; 2; 6; 3; 5]), g'. split; [|exact Hg'].
    apply follow_legal, (bool_decide_unpack _). vm_compute. exact I. }
  split_and!; [exact fork_reachable|exact Hk| |].
  - apply C101_what_a_patient_client_gets; [exact fork_reachable|exact Hk|exact Hq].
  - intros Hw. apply C101_what_a_patient_client_gets in Hw as (_&Hel&_); [|exact fork_reachable|exact Hk].
    assert (5 ∈ [4; 2; 6; 3]) as H5.
    { apply Hel. destruct Hq as (_&Hel'&_). apply Hel'. by do 4 right; left. }
    revert H5. apply (bool_decide_unpack _). vm_compute. exact I.
Qed.
Print Assumptions C101_what_a_patient_client_gets.
