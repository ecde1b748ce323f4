(** * Vocabulary: ordinary source files

    Source files that use none of a list of constructs.  The list is about the tree of the
    file: what the text contains, not how it is laid out. *)
From stdpp Require Import base list option strings.
From Coq Require Import Ascii.
From Verif Require Import GoBase EtxAst EtxHeap EtxHeapSpec EtxText EtxLex EtxUtil EtxGram EtxParse EtxFormat
  EtxReprintSpec EtxWriteSpec.

Definition ordinary_node (m : ast) : Prop :=
  (* empty lines end with line feeds *)
  cr ∉ str_of FEmptyLine m ∧
  match kind_of m with
  (* no blocks and attributes, heredocs, maps *)
  | KBlock | KBlockItem | KAttribute | KLambda | KLambdaParameter
  | KHeredoc | KHeredocFragment | KValueMap | KMapItem | KMapKey => False
  (* a single result is no function *)
  | KFunc => ∀ r, list_of FReturn m = [Some r] → has FIdent r = true
  (* no comments and empty lines in enums and objects *)
  | KTypeEnumItem | KTypeObjectItem => str_of FLabel m ≠ []
  (* no comments of several lines *)
  | KComment => str_of FMultiline m = []
  (* nothing is called null, true, false, const or val *)
  | KIdent => ∀ v, head (strs_of FParts m) = Some v → v ∉ map chars reserved
  (* in strings no escapes, interpolations, double quotes and line feeds *)
  | KStringFragment => str_of FText m ≠ [] ∧ quote ∉ str_of FText m ∧ lf ∉ str_of FText m
  (* no comments in lists *)
  | KListItem => has FComment m = false
  (* no if with an else that has nothing before the else *)
  | KExprIf => has FLeft m = true ∨ has FRight m = false
  (* no parentheses around expressions, no member access beside a number, directly after
     a name, or after an index *)
  | KExprPostfix =>
      (∀ c, ptr_of FPost m = Some c → numeric c = false ∧ (has FIndex m = false → numeric m = false ∧ named m = false)) ∧
      (has FIndex m = true → ∀ v, emb_of FValue m = Some v → has FPost v = false)
  | KExprPrimary =>
      has FSubExpression m = false ∧ ∀ c, ptr_of FPost m = Some c → numeric c = false ∧ list_of FMonads m ≠ []
  | _ => True
  end.
Definition ordinary (t : ast) : Prop := ∀ m, m ∈ nodes t → ordinary_node m.
