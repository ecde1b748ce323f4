(** * What it means that an expression is one operand *)
From stdpp Require Import base list option strings.
From Verif Require Import EtxAst.

(** The field of a level of expressions that its first operand is in. *)
Definition operand_field (k : kind) (f : fld) : bool :=
  match k with
  | KExpr | KExprLogicalOr | KExprLogicalAnd | KExprBitwiseOr | KExprBitwiseXor | KExprBitwiseAnd
  | KExprEquality | KExprRelational | KExprShift | KExprAdditive | KExprMultiplicative => bool_decide (f = FLeft)
  | KExprConditional => bool_decide (f = FCondition)
  | KExprUnary => bool_decide (f = FRight)
  | KExprPostfix => bool_decide (f = FValue)
  | KExprPrimary => bool_decide (f = FValue) || bool_decide (f = FIdent)
  | _ => false
  end.
Section spec.
Context {A B : Type}.
(** A field that is not set. *)
Inductive unset : val A B → Prop :=
| unset_str : unset (VStr "")
| unset_bool : unset (VBool false)
| unset_strs : unset (VStrs None)
| unset_float : unset (VFloat None)
| unset_ptr : unset (VPtr None)
| unset_list : unset (VList None).
(** [t'] consists of its operand [t]: no other field is set, and it is in the same place. *)
Definition consists_of (t' t : tree A B) : Prop :=
  ann t' = ann t ∧
  ∃ f, operand_field (kind_of t') f = true ∧
    (get f t' = Some (VPtr (Some t)) ∨ get f t' = Some (VEmb t)) ∧
    ∀ f' x, f' ≠ f → get f' t' = Some x → unset x.
(** [t] is the operand [v] at some level. *)
Inductive wraps (v : tree A B) : tree A B → Prop :=
| wraps_itself : wraps v v
| wraps_level t t' : wraps v t → typed t' = true → consists_of t' t → wraps v t'.
End spec.
