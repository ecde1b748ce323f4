(** * Specification of sets

    A set variable holds a mathematical set of its own, or nil. *)
From stdpp Require Import base list gmap.
From Verif Require Import GoBase SetModel.

Section spec.
Context {K : Type} `{Countable K}.
Notation vars := (list (option (gset K))).
Implicit Types vs : vars.

(** The elements of variable [i]; a nil set has none. *)
Definition elems vs (i : nat) : gset K :=
  match vs !! i with Some (Some X) => X | _ => ∅ end.
Definition is_nil vs (i : nat) : Prop := ∀ X, vs !! i ≠ Some (Some X).

(** [o] on [vs] returns [r] and changes the variables to [vs']. *)
Definition set_spec vs (o : sop) (r : sout (K:=K)) vs' : Prop :=
  match o with
  | SMake => r = SDone ∧ vs' = vs ++ [Some ∅]
  | SAdd i v => ¬ is_nil vs i ∧ r = SDone ∧ vs' = <[i := Some ({[v]} ∪ elems vs i)]> vs
  | SDelete i v =>
      r = SDone ∧ (is_nil vs i → vs' = vs) ∧
      (¬ is_nil vs i → vs' = <[i := Some (elems vs i ∖ {[v]})]> vs)
  | SIncludes i v => r = SBool (bool_decide (v ∈ elems vs i)) ∧ vs' = vs
  | SIntersection i j => r = SDone ∧ vs' = vs ++ [Some (elems vs i ∩ elems vs j)]
  | SDifference i j => r = SDone ∧ vs' = vs ++ [Some (elems vs i ∖ elems vs j)]
  | SFilter i cb => r = SDone ∧ vs' = vs ++ [Some (filter (λ v, cb v = true) (elems vs i))]
  | SList i =>
      vs' = vs ∧
      ∃ l, r = SSlice l ∧ (is_nil vs i → l = None) ∧
           (¬ is_nil vs i → ∃ l', l = Some l' ∧ NoDup l' ∧ ∀ v, v ∈ l' ↔ v ∈ elems vs i)
  | SCopy i => r = SDone ∧ vs' = vs ++ [Some (elems vs i)]
  end.
(** The only panic: adding to a nil set. *)
Definition set_panics vs (o : sop (K:=K)) : Prop :=
  match o with SAdd i _ => is_nil vs i | _ => False end.

Inductive set_spec_run : vars → list sop → list sout → vars → Prop :=
| ssr_nil vs : set_spec_run vs [] [] vs
| ssr_cons vs o r vs' os rs vs'' :
    set_spec vs o r vs' → set_spec_run vs' os rs vs'' →
    set_spec_run vs (o :: os) (r :: rs) vs''.
End spec.
