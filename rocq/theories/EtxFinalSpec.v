(** * Files that a newline at the end changes

    re_heredoc (lexer.go:82) needs a newline after the delimiter.  So a << with a word
    behind it that ends the file is an operator and an operand, and with a newline at the
    end of the file it is the start of a heredoc. *)
From stdpp Require Import base list strings.
From Coq Require Import Ascii.
From Verif Require Import GoBase EtxHeap EtxText EtxLex EtxLexSpec.

(** Only a word, perhaps with a dash in front. *)
Definition open_tail (v : text) : Prop :=
  ∃ (dash : bool) u, word u ∧ v = (if dash then chars "-" else []) ++ u.
(** The tokens of a file that ends with << and such a text. *)
Definition ends_open (ts : list token) : Prop :=
  ∃ us t vs, ts = us ++ t :: vs ∧ kind_of_token t = TOpBitwiseShiftLeft ∧ open_tail (text_of vs).
