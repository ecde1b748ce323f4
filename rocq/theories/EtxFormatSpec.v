(** * Vocabulary for the properties of FormattedString *)
From stdpp Require Import base list option strings.
From Coq Require Import Ascii.
From Verif Require Import GoBase EtxAst EtxHeap EtxHeapSpec EtxText EtxLex EtxUtil EtxGram EtxParse EtxFormat.

(** ** Nodes that are printed *)
(** All, but the else branch of a conditional without a then branch. *)
Definition unprinted (m : ast) (f : fld) : Prop := kind_of m = KExprIf ∧ f = FRight ∧ get FLeft m = Some (VPtr None).
Inductive printed (t : ast) : ast → Prop :=
| printed_self : printed t t
| printed_below m f v c : printed t m → (f, v) ∈ fields m → c ∈ val_subs v → ¬ unprinted m f → printed t c.
(** The entry of an enum, an object or a map that is an empty line or a comment. *)
Definition blank_entry (m : ast) : Prop :=
  kind_of m ∈ [KTypeEnumItem; KTypeObjectItem; KMapItem] ∧
  (get FEmptyLine m ≠ Some (VStr "") ∨ get FComment m ≠ Some (VPtr None)).

(** ** Positions *)
Definition unplaced (t : ast) : ast := tmap (λ _, no_pos) id t.
