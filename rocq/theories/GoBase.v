(** * Go outcomes, and the iteration order of Go maps

    Shared by all models of [pkg/dag]. *)
From stdpp Require Import base list gmap.

(** The outcome of running a piece of Go code: a value, a run-time panic, or a
    recursion that did not finish within the fuel given to the model.  The last
    one never stands for a normal result: every theorem excludes it. *)
Inductive res (A : Type) : Type :=
| Ok (a : A)
| Panic
| OutOfFuel.
Arguments Ok {A} a.
Arguments Panic {A}.
Arguments OutOfFuel {A}.

(** The order in which [for k := range m] visits the keys of a Go map is
    unspecified and differs from loop to loop (Go spec, "For statements with
    range clause").  A schedule decides it: the [n]-th map loop executed by a call
    visits the keys [l] in the order [s n l].  Nothing is assumed about a
    schedule except that it visits each key exactly once. *)
Definition schedule (K : Type) : Type := nat → list K → list K.
Definition legal {K} (s : schedule K) : Prop := ∀ n l, s n l ≡ₚ l.
Definition is_Ok {A} (r : res A) : Prop := match r with Ok _ => True | _ => False end.
