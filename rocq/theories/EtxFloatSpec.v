(** * Vocabulary: rounding to a number of bits *)
From stdpp Require Import base list option.
From Coq Require Import Ascii QArith Qabs.
From Verif Require Import GoBase EtxText EtxUtil EtxFloat.
Local Open Scope Q_scope.

(** [m * 2^e] *)
Definition dyadic (m : N) (e : Z) : Q := inject_Z (Z.of_N m) * 2 ^ e.
(** What a literal (EtxUtilSpec.v) denotes; only decimal literals have a fraction or an
    exponent. *)
Definition denoted (n : number) : Q := inject_Z (Z.of_N (mantissa n)) * 10 ^ (exponent n - Z.of_nat (fraction n)).
(** The numbers of [p] bits: *)
Definition representable (p : N) (v : Q) : Prop := ∃ m e, (m < 2 ^ p)%N ∧ v == dyadic m e.
(** whose last bit is 0. *)
Definition last_bit_0 (p : N) (v : Q) : Prop :=
  ∃ m e, (2 ^ (p - 1) <= m < 2 ^ p)%N ∧ N.even m = true ∧ v == dyadic m e.
(** [v] is the number of [p] bits that is nearest to [x]; if two are, the one whose last bit is 0. *)
Definition nearest (p : N) (x v : Q) : Prop :=
  representable p v ∧
  ∀ y, representable p y → y == v ∨ Qabs (x - v) < Qabs (x - y) ∨ (Qabs (x - v) == Qabs (x - y) ∧ last_bit_0 p v).
Definition finite_value (x : float) : option Q :=
  match x with FZero => Some 0 | FFin m e => Some (dyadic m e) | FInf => None end.
(** [v] is off from [x] by at most the part [d] of it. *)
Definition off_by (d x v : Q) : Prop := Qabs (v - x) <= d * x.
