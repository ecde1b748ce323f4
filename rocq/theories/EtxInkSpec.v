(** * Vocabulary: text without line feeds and tabs *)
From stdpp Require Import base list.
From Coq Require Import Ascii.
From Verif Require Import GoBase EtxText.

Definition ink (u : text) : text := filter (λ c, c ≠ lf ∧ c ≠ tab) u.
