(** * Vocabulary for the properties of the walkers *)
From stdpp Require Import base list gmap.
From Verif Require Import GoBase SetModel DagModel DagSpec DagObs WalkModel.

Section obs.
Context {K T : Type} `{Countable K} `{Inhabited T} (isz : K → bool).
Notation graph := (graph K T).

(** The relation a walker follows. *)
Definition follows (g : graph) (d : dir) : relation K :=
  match d with
  | Descendants => has_edge isz g
  | Ancestors => flip (has_edge isz g)
  end.
(** One transition of a walker on [g] from [id]. *)
Definition wstep (g : graph) (d : dir) (id : K) : wstate K → event K → wstate K → Prop :=
  step (neighbours d g) id.
(** [es] is an execution of the walker: the calls were made on [g], and the
    goroutine and the client have done [es] so far. *)
Definition runs (g : graph) (d : dir) (id : K) (es : list (event K)) (st : wstate K) : Prop :=
  ∃ st0, Walker isz d g id = inr st0 ∧ steps (neighbours d g) id st0 es st.
End obs.

(** What the client received. *)
Definition got {K} (es : list (event K)) : list K :=
  omap (λ e, match e with Recv k => Some k | _ => None end) es.
(** The goroutine moves, alone or by handing an id to the client. *)
Definition goroutine_step {K} (e : event K) : bool :=
  match e with Walk | Recv _ => true | _ => false end.
(** The client neither sends to nor closes [signal]. *)
Definition silent {K} (es : list (event K)) : Prop := Signal ∉ es ∧ CloseSignal ∉ es.
