(** * The properties of the walkers of pkg/dag

    An execution is any interleaving of the steps of the goroutine and of the client,
    with any map iteration orders ([runs], WalkObs.v). *)
From stdpp Require Import base list gmap relations sorting.
From Verif Require Import GoBase SetModel DagModel DagSpec DagObs DagExample
  WalkModel WalkObs WalkPropProofs WalkExample.

Theorem C17_walker_errors {K T : Type} `{Countable K} `{Inhabited T} (isz : K → bool)
    d (g : graph K T) id :
  reachable isz g →
  match Walker isz d g id with
  | inl e => first_violated (vertex_conditions isz g id) (Some e)
  | inr st => first_violated (vertex_conditions isz g id) None ∧ st = start
  end.
Proof. exact (p17e isz d g id). Qed.
Example C17_errors_example :
  reachable nz ex ∧ Walker nz Ancestors ex 0 = inl ErrVertexIDEmpty ∧
  Walker nz Ancestors ex 9 = inl ErrVertexNotFound ∧ Walker nz Descendants ex 4 = inr start.
Proof. by_computing. Qed.
Print Assumptions C17_walker_errors.

Theorem C17_prefix_of_breadth_first_order {K T : Type} `{Countable K} `{Inhabited T} (isz : K → bool)
    (g : graph K T) d id es st :
  reachable isz g → runs isz g d id es st →
  ∃ rest, bfs_order (follows isz g d) id (got es ++ rest).
Proof. exact (p17a isz g d id es st). Qed.
Example C17_prefix_example :
  reachable nz ex ∧ runs nz ex Descendants 4 (take 6 whole_walk) (trace Descendants 4 (take 6 whole_walk)) ∧
  got (take 6 whole_walk) = [3].
Proof. by_walking. Qed.
Print Assumptions C17_prefix_of_breadth_first_order.

(** The goroutine takes at most [3 * order + 6] steps, it is never stuck as long as
    the client keeps receiving, and when it has ended everything has been delivered
    and the client sees the end of the channel. *)
Theorem C17_silent_client_gets_everything {K T : Type} `{Countable K} `{Inhabited T} (isz : K → bool)
    (g : graph K T) d id es st σ order (g' : graph K T) :
  reachable isz g → runs isz g d id es st → silent es →
  call isz σ OpGetOrder g = Ok (RInt order, g') →
  crashed st = false ∧
  length (filter (λ e, goroutine_step e = true) es) ≤ 3 * order + 6 ∧
  ((∃ e st', goroutine_step e = true ∧ wstep g d id st e st') ∨
   (pc st = PDone ∧ bfs_order (follows isz g d) id (got es) ∧ wstep g d id st SeeEnd st)).
Proof. exact (p17b isz g d id es st σ order g'). Qed.
Example C17_whole_example :
  reachable nz ex ∧ runs nz ex Descendants 4 whole_walk (trace Descendants 4 whole_walk) ∧
  silent whole_walk ∧ got whole_walk = [3; 5] ∧ pc (trace Descendants 4 whole_walk) = PDone.
Proof. by_walking. Qed.
Print Assumptions C17_silent_client_gets_everything.

Theorem C18_at_most_one_id_after_the_signal {K T : Type} `{Countable K} `{Inhabited T} (isz : K → bool)
    (g : graph K T) d id es1 es2 st :
  runs isz g d id (es1 ++ Signal :: es2) st → length (got es2) ≤ 1.
Proof. exact (p18a isz g d id es1 es2 st). Qed.
Example C18_one_example :
  runs nz ex Descendants 4 (late_signal ++ [Recv 3; Walk; Walk; Walk; Walk; SeeEnd])
    (trace Descendants 4 (late_signal ++ [Recv 3; Walk; Walk; Walk; Walk; SeeEnd])).
Proof. by_walking. Qed.
Print Assumptions C18_at_most_one_id_after_the_signal.

(** Whenever the client signals: as long as it goes on receiving, the goroutine
    moves on, a bounded number of times, until [ids] is closed. *)
Theorem C18_receiving_client_sees_the_end {K T : Type} `{Countable K} `{Inhabited T} (isz : K → bool)
    (g : graph K T) d id es st σ order (g' : graph K T) :
  reachable isz g → runs isz g d id es st → CloseSignal ∉ es →
  call isz σ OpGetOrder g = Ok (RInt order, g') →
  length (filter (λ e, goroutine_step e = true) es) ≤ 3 * order + 6 ∧
  ((∃ e st', goroutine_step e = true ∧ wstep g d id st e st') ∨ ids_closed st = true).
Proof. exact (p18b isz g d id es st σ order g'). Qed.
Example C18_end_example :
  reachable nz ex ∧
  runs nz ex Ancestors 3 (early_signal ++ [SeeEnd]) (trace Ancestors 3 (early_signal ++ [SeeEnd])) ∧
  reply OpGetOrder ex = Some (RInt 6).
Proof. by_walking. Qed.
Print Assumptions C18_receiving_client_sees_the_end.

(** A signal sent while the goroutine is not blocked in its send: with no receive at
    all, it goes on by itself until it has ended. *)
Theorem C49_signal_while_not_sending_ends_the_walker {K T : Type} `{Countable K} `{Inhabited T} (isz : K → bool)
    (g : graph K T) d id es1 st1 st2 es st3 :
  runs isz g d id es1 st1 → wstep g d id st1 Signal st2 → (∀ k fifo v, pc st1 ≠ PSend k fifo v) →
  steps (neighbours d g) id st2 es st3 → crashed st3 = false →
  (∃ st4, wstep g d id st3 Walk st4) ∨ pc st3 = PDone.
Proof. exact (p49 isz g d id es1 st1 st2 es st3). Qed.
Example C49_example :
  runs nz ex Descendants 4 early_signal (trace Descendants 4 early_signal) ∧
  pc (trace Descendants 4 (take 1 early_signal)) = PLoop [3] {[ 3 := 3 ]} ∧
  pc (trace Descendants 4 early_signal) = PDone.
Proof. by_walking. Qed.
Print Assumptions C49_signal_while_not_sending_ends_the_walker.

(** The true part: before it has received the last id, a client that has not
    signalled yet can signal without panic and without blocking. *)
Theorem C19_signal_is_safe_before_the_end_partial {K T : Type} `{Countable K} `{Inhabited T} (isz : K → bool)
    (g : graph K T) d id es st :
  reachable isz g → runs isz g d id es st → silent es →
  ¬ bfs_order (follows isz g d) id (got es) →
  (∃ st', wstep g d id st Signal st') ∧ (∀ st', wstep g d id st Signal st' → crashed st' = false).
Proof. exact (p19p isz g d id es st). Qed.
Example C19_example :
  reachable nz ex ∧ runs nz ex Descendants 4 (take 6 whole_walk) (trace Descendants 4 (take 6 whole_walk)) ∧
  silent (take 6 whole_walk) ∧ ¬ bfs_order (follows nz ex Descendants) 4 (got (take 6 whole_walk)).
Proof.
  split; [by_walking|]. split; [by_walking|]. split; [by_walking|]. exact not_yet.
Qed.
Print Assumptions C19_signal_is_safe_before_the_end_partial.

(** Once the client has closed [signal] of a goroutine that has not ended, the
    goroutine cannot end without a panic. *)
Theorem C50_closing_the_signal_channel_crashes {K T : Type} `{Countable K} `{Inhabited T} (isz : K → bool)
    (g : graph K T) d id es1 es2 st :
  reachable isz g → runs isz g d id (es1 ++ CloseSignal :: es2) st → silent es1 →
  ¬ bfs_order (follows isz g d) id (got es1) → pc st = PDone → crashed st = true.
Proof. exact (p50 isz g d id es1 es2 st). Qed.
Example C50_example :
  reachable nz ex ∧
  runs nz ex Descendants 4 (take 6 whole_walk ++ CloseSignal :: [Recv 5; Walk; Walk; Walk])
    (trace Descendants 4 (take 6 whole_walk ++ CloseSignal :: [Recv 5; Walk; Walk; Walk])) ∧
  pc (trace Descendants 4 (take 6 whole_walk ++ CloseSignal :: [Recv 5; Walk; Walk; Walk])) = PDone.
Proof. by_walking. Qed.
Print Assumptions C50_closing_the_signal_channel_crashes.

(** The part of C18 that fails: the client signals once and receives nothing more;
    whatever happens next, the goroutine neither ends nor closes [ids]. *)
Theorem C18_no_goroutine_left_behind_refuted :
  ∃ (g : graph nat nat) d id es st,
    reachable nz g ∧ runs nz g d id (es ++ [Signal]) st ∧ silent es ∧
    ∀ es' st', steps (neighbours d g) id st es' st' → got es' = [] →
      pc st' ≠ PDone ∧ ids_closed st' = false.
Proof. exact (p18r). Qed.
Print Assumptions C18_no_goroutine_left_behind_refuted.

(** A client that never signalled before, and signals after the goroutine has
    delivered everything, panics. *)
Theorem C19_signal_never_panics_refuted :
  ∃ (g : graph nat nat) d id es st st',
    reachable nz g ∧ runs nz g d id es st ∧ silent es ∧
    wstep g d id st Signal st' ∧ crashed st' = true.
Proof. exact (p19r). Qed.
Print Assumptions C19_signal_never_panics_refuted.
