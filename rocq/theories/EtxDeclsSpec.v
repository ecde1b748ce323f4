(** * Vocabulary: files of declarations *)
From stdpp Require Import base list option strings.
From Verif Require Import GoBase EtxAst EtxHeap EtxHeapSpec EtxText EtxLex EtxGram EtxParse EtxFormat.

(** Every item of the file is a declaration or an empty line. *)
Definition only_declarations (r : ast) : Prop :=
  ∀ o, o ∈ list_of FItems r → ∃ i, o = Some i ∧ (ptr_of FDecl i ≠ None ∨ str_of FEmptyLine i ≠ []).
(** The declarations of a file, in order. *)
Definition declarations (r : ast) : list ast := omap (λ o : option ast, o ≫= ptr_of FDecl) (list_of FItems r).
(** The text [u] is what formatting the text [s] gives. *)
Definition formats_to (s u : text) : Prop := ∃ r, parse s = Ok (Some r) ∧ format r = Ok u.
