(** * Vocabulary: rounding to a number of decimal digits *)
From stdpp Require Import base list option.
From Coq Require Import QArith Qabs.
From Verif Require Import GoBase.
Local Open Scope Q_scope.

(** [m * 10^e] *)
Definition scaled (m : N) (e : Z) : Q := inject_Z (Z.of_N m) * 10 ^ e.
(** The numbers of [p] decimal digits: *)
Definition short (p : N) (v : Q) : Prop := ∃ m e, (m < 10 ^ p)%N ∧ v == scaled m e.
(** whose last digit is even. *)
Definition last_digit_even (p : N) (v : Q) : Prop :=
  ∃ m e, (10 ^ (p - 1) <= m < 10 ^ p)%N ∧ N.even m = true ∧ v == scaled m e.
(** [v] is the number of [p] digits that is nearest to [x]; if two are, the one whose last digit is even. *)
Definition rounded (p : N) (x v : Q) : Prop :=
  short p v ∧
  ∀ y, short p y → y == v ∨ Qabs (x - v) < Qabs (x - y) ∨ (Qabs (x - v) == Qabs (x - y) ∧ last_digit_even p v).
