(** * Model of the walker goroutines, dag.go:421-538

    AncestorsWalker and DescendantsWalker start a goroutine that sends ids on the
    unbuffered channel [ids] and looks at the channel [signal] (capacity 1) before
    each send.  The model is a machine with one transition per atomic action of the
    goroutine or of the client; transitions interleave arbitrarily.

    Map iteration orders are transitions' free choices.  The graph does not change
    while a walker runs (a change would be a data race in Go).  The client may
    receive from [ids], send to [signal], and close [signal]; it does not send to
    or close [ids], and does not receive from [signal]. *)
From stdpp Require Import base list gmap.
From Verif Require Import GoBase SetModel DagModel.

Section walk.
Context {K : Type} `{Countable K}.

(** Where the goroutine is. *)
Inductive wpc : Type :=
| PInit                                              (* before line 452 (511) *)
| PLoop (fifo : list K) (visited : goset K)          (* line 457 (516) *)
| PSelect (top : K) (fifo : list K) (visited : goset K)  (* line 472 (531) *)
| PSend (top : K) (fifo : list K) (visited : goset K)    (* line 476 (535): blocked in ids <- top *)
| PCloseIds                                          (* line 439 (498) *)
| PCloseSignal                                       (* line 440 (499) *)
| PDone.                                             (* the goroutine has ended *)

Record wstate : Type := W {
  pc : wpc;
  ids_closed : bool;
  sig_full : bool;       (* the buffer of [signal] holds its one value *)
  sig_closed : bool;
  crashed : bool;        (* a panic has ended the program *)
  received : list K      (* what the client has received, in order *)
}.

Definition set_pc (p : wpc) (st : wstate) : wstate :=
  W p (ids_closed st) (sig_full st) (sig_closed st) (crashed st) (received st).
Definition start : wstate := W PInit false false false false [].

Inductive event : Type :=
| Walk                 (* an internal step of the goroutine *)
| Recv (k : K)         (* the client receives [k] *)
| SeeEnd               (* the client receives from the closed [ids] *)
| Signal               (* the client sends to [signal] *)
| CloseSignal.         (* the client closes [signal] *)

(** [next k]: the set iterated for [k], [inboundEdges[k]] or [outboundEdges[k]];
    [id]: the vertex the walk starts from. *)
Context (next : K → goset K) (id : K).
(** The keys of a map in some iteration order. *)
Definition some_order (ks : list K) (s : goset K) : Prop := ks ≡ₚ (map_to_list s).*1.

Inductive step (st : wstate) : event → wstate → Prop :=
(** Lines 447-455 (506-514). *)
| step_init ks fifo visited :
    crashed st = false → pc st = PInit → some_order ks (next id) →
    foldl enqueue_first ([], ∅) ks = (fifo, visited) →
    step st Walk (set_pc (PLoop fifo visited) st)
(** Lines 458-460 (517-519): the queue is empty. *)
| step_empty visited :
    crashed st = false → pc st = PLoop [] visited →
    step st Walk (set_pc PCloseIds st)
(** Lines 462-470 (521-529): pop and queue the unvisited neighbours. *)
| step_pop top fifo visited ks fifo' visited' :
    crashed st = false → pc st = PLoop (top :: fifo) visited → some_order ks (next top) →
    foldl enqueue (fifo, visited) ks = (fifo', visited') →
    step st Walk (set_pc (PSelect top fifo' visited') st)
(** Lines 473-474 (532-533): a receive from [signal] is possible. *)
| step_stop top fifo visited :
    crashed st = false → pc st = PSelect top fifo visited →
    sig_full st = true ∨ sig_closed st = true →
    step st Walk (W PCloseIds (ids_closed st) false (sig_closed st) false (received st))
(** Lines 475-476 (534-535): it is not; now blocked until the client receives. *)
| step_default top fifo visited :
    crashed st = false → pc st = PSelect top fifo visited →
    sig_full st = false → sig_closed st = false →
    step st Walk (set_pc (PSend top fifo visited) st)
| step_recv top fifo visited :
    crashed st = false → pc st = PSend top fifo visited →
    step st (Recv top)
      (W (PLoop fifo visited) (ids_closed st) (sig_full st) (sig_closed st) false
         (received st ++ [top]))
(** Line 439 (498). *)
| step_close_ids :
    crashed st = false → pc st = PCloseIds →
    step st Walk (W PCloseSignal true (sig_full st) (sig_closed st) false (received st))
(** Line 440 (499): closing a closed channel panics. *)
| step_close_signal :
    crashed st = false → pc st = PCloseSignal →
    step st Walk (W PDone (ids_closed st) (sig_full st) true (sig_closed st) (received st))
(** Actions of the client. *)
| step_see_end :
    crashed st = false → ids_closed st = true → step st SeeEnd st
| step_signal :
    crashed st = false → sig_closed st = false → sig_full st = false →
    step st Signal (W (pc st) (ids_closed st) true (sig_closed st) false (received st))
(** Sending to a closed channel panics; sending to a full one blocks. *)
| step_signal_panic :
    crashed st = false → sig_closed st = true →
    step st Signal (W (pc st) (ids_closed st) (sig_full st) true true (received st))
| step_client_close :
    crashed st = false →
    step st CloseSignal (W (pc st) (ids_closed st) (sig_full st) true (sig_closed st) (received st)).

Inductive steps : wstate → list event → wstate → Prop :=
| steps_nil st : steps st [] st
| steps_snoc st es st1 e st2 : steps st es st1 → step st1 e st2 → steps st (es ++ [e]) st2.

End walk.
Arguments wpc K {_ _}.
Arguments wstate K {_ _}.
Arguments event K : clear implicits.

Section api.
Context {K T : Type} `{Countable K} `{Inhabited T} (isz : K → bool).

(** Which walker. *)
Inductive dir : Type := Ancestors | Descendants.
Definition neighbours (d : dir) (g : graph K T) (k : K) : goset K :=
  match d with
  | Ancestors => read (inboundEdges g) k
  | Descendants => read (outboundEdges g) k
  end.
(** dag.go:429-444 (AncestorsWalker) and 488-503 (DescendantsWalker): an error, or
    a goroutine about to start. *)
Definition Walker (d : dir) (g : graph K T) (id : K) : err + wstate K :=
  match checkVertexID isz g id with
  | Some e => inl e
  | None => inr start
  end.
End api.
