(** * Vocabulary: trees that are printed as they were written *)
From stdpp Require Import base list option strings.
From Coq Require Import Ascii.
From Verif Require Import GoBase EtxAst EtxHeap EtxHeapSpec EtxText EtxLex EtxUtil EtxGram EtxParse EtxFormat.

(** A number literal, possibly indexed or with a member selected. *)
Definition number_value (m : ast) : bool := negb (is_nil (ptr_of FNumber m)).
Definition number_primary (m : ast) : bool :=
  match ptr_of FValue m with Some v => number_value v | None => false end.
Definition numeric (m : ast) : bool :=
  match kind_of m with
  | KValue => number_value m
  | KExprPrimary => number_primary m
  | KExprPostfix => match emb_of FValue m with Some v => number_primary v | None => false end
  | _ => false
  end.
(** The nodes with which printing has no trouble: no if, no switch, no parentheses, no
    heredoc, list or map; strings are of plain text without the double quote; and a
    number does not stand beside the dot of a selection. *)
Definition plain_node (m : ast) : Prop :=
  match kind_of m with
  | KExpr => ptr_of FIf m = None ∧ ptr_of FSwitch m = None
  | KValue => ptr_of FHeredoc m = None ∧ ptr_of FList m = None ∧ ptr_of FMap m = None
  | KStringFragment => str_of FText m ≠ [] ∧ quote ∉ str_of FText m
  | KExprPrimary =>
      ptr_of FSubExpression m = None ∧ ∀ c, ptr_of FPost m = Some c → numeric c = false
  | KExprPostfix =>
      ∀ c, ptr_of FPost m = Some c → numeric c = false ∧ (ptr_of FIndex m = None → numeric m = false)
  | _ => True
  end.
Definition plain (t : ast) : Prop := ∀ m, m ∈ nodes t → plain_node m.
(** A file with one declaration. *)
Definition one_declaration (t : ast) : Prop :=
  ∃ i d, list_of FItems t = [Some i] ∧ ptr_of FDecl i = Some d.
