(** * What is claimed about operators

    The table of /repo/pkg/etx/README.md:789-805. *)
From stdpp Require Import base list option strings.
From Coq Require Import Ascii.
From Verif Require Import GoBase EtxAst EtxHeap EtxHeapSpec EtxText EtxLex EtxUtil EtxGram EtxParse EtxParseSpec.

(** How tight a binary operator binds. *)
Definition strength (o : string) : nat :=
  if decide (o ∈ ["*"; "/"; "%"]) then 10
  else if decide (o ∈ ["+"; "-"]) then 9
  else if decide (o ∈ ["<<"; ">>"]) then 8
  else if decide (o ∈ ["<"; "<="; ">"; ">="]) then 7
  else if decide (o ∈ ["=="; "!="]) then 6
  else if decide (o = "&") then 5
  else if decide (o = "^") then 4
  else if decide (o = "|") then 3
  else if decide (o = "&&") then 2
  else if decide (o = "||") then 1
  else 0.

(** An expression as operands and binary operators; an operand is the node of a unary
    expression, such as -a.b or (a + b). *)
Inductive reading : Type :=
| Operand (t : ast)
| Binary (a : reading) (o : string) (b : reading).
Definition binary_levels : list kind :=
  [KExprLogicalOr; KExprLogicalAnd; KExprBitwiseOr; KExprBitwiseXor; KExprBitwiseAnd; KExprEquality;
   KExprRelational; KExprShift; KExprAdditive; KExprMultiplicative].
(** What a node of the ten levels of binary expressions means: a node without operator
    means what its left side means. *)
Inductive reads : ast → reading → Prop :=
| reads_operand t : kind_of t = KExprUnary → reads t (Operand t)
| reads_single t l a :
    kind_of t ∈ binary_levels → get FLeft t = Some (VEmb l) → get FOp t = Some (VStr "") → get FRight t = Some (VPtr None) →
    reads l a → reads t a
| reads_binary t l o m a b :
    kind_of t ∈ binary_levels → get FLeft t = Some (VEmb l) → get FOp t = Some (VStr o) → get FRight t = Some (VPtr (Some m)) →
    reads l a → reads m b → reads t (Binary a o b).

Fixpoint operators_of (r : reading) : list string :=
  match r with Operand _ => [] | Binary a o b => operators_of a ++ o :: operators_of b end.
Fixpoint operands_of (r : reading) : list ast :=
  match r with Operand t => [t] | Binary a o b => operands_of a ++ operands_of b end.
(** An operator further down does not bind less tight. *)
Fixpoint follows_precedence (r : reading) : Prop :=
  match r with
  | Operand _ => True
  | Binary a o b =>
      (∀ o', o' ∈ operators_of a ++ operators_of b → strength o ≤ strength o') ∧
      follows_precedence a ∧ follows_precedence b
  end.
(** Operators of the same level: a - b - c as (a - b) - c or as a - (b - c). *)
Fixpoint left_to_right (r : reading) : Prop :=
  match r with
  | Operand _ => True
  | Binary a o b => (∀ o', o' ∈ operators_of b → strength o ≠ strength o') ∧ left_to_right a ∧ left_to_right b
  end.
Fixpoint right_to_left (r : reading) : Prop :=
  match r with
  | Operand _ => True
  | Binary a o b => (∀ o', o' ∈ operators_of a → strength o ≠ strength o') ∧ right_to_left a ∧ right_to_left b
  end.
(** The reading in the order of the tokens. *)
Inductive spells : reading → list token → Prop :=
| spells_operand p us t : builds p KExprUnary us t → spells (Operand t) us
| spells_binary a o b us u vs :
    spells a us → value u = chars o → 0 < strength o → spells b vs → spells (Binary a o b) (us ++ u :: vs).

(** ** Written expressions
    A sequence of operands and operators.  An operand is a name or number, an expression
    in parentheses, or one of these with a sign. *)
Inductive written : Type :=
| Last (a : written_operand)
| Then (a : written_operand) (u : token) (e : written)
with written_operand : Type :=
| Name (u : token)
| Number (u : token)
| Parens (l : token) (e : written) (r : token)
| Signed (u : token) (a : written_operand).
Fixpoint tokens_of_written (e : written) : list token :=
  match e with
  | Last a => tokens_of_operand a
  | Then a u e => tokens_of_operand a ++ u :: tokens_of_written e
  end
with tokens_of_operand (a : written_operand) : list token :=
  match a with
  | Name u | Number u => [u]
  | Parens l e r => l :: tokens_of_written e ++ [r]
  | Signed u a => u :: tokens_of_operand a
  end.
Fixpoint written_operands (e : written) : list (list token) :=
  match e with Last a => [tokens_of_operand a] | Then a _ e => tokens_of_operand a :: written_operands e end.
Fixpoint written_operators (e : written) : list string :=
  match e with Last _ => [] | Then _ u e => str (value u) :: written_operators e end.
Definition is_operator (u : token) : Prop :=
  kind_of_token u ∈
    [TOpLogicalOr; TOpLogicalAnd; TOpBitwiseOr; TOpBitwiseXOr; TOpBitwiseAnd; TOpNotEqual; TOpEqual; TOpMore; TOpMoreOrEqual;
     TOpLess; TOpLessOrEqual; TOpBitwiseShiftLeft; TOpBitwiseShiftRight; TOpMinus; TOpPlus; TOpDivision; TOpMultiplication; TOpModulo].
Definition is_sign (u : token) : Prop := kind_of_token u ∈ [TOpBitwiseNot; TOpLogicalNot; TOpMinus; TOpPlus].
Definition unsigned (a : written_operand) : Prop := match a with Signed _ _ => False | _ => True end.
(** No token of the lexer is an identifier and reads like a bracket. *)
Fixpoint correct (e : written) : Prop :=
  match e with
  | Last a => correct_operand a
  | Then a u e => correct_operand a ∧ is_operator u ∧ correct e
  end
with correct_operand (a : written_operand) : Prop :=
  match a with
  | Name u => kind_of_token u = TIdent ∧ value u ∉ map chars ["null"; "true"; "false"; "("; "["; "{"]
  | Number u => kind_of_token u = TNumber ∧ is_Some (capture_number (value u))
  | Parens l e r => value l = chars "(" ∧ correct e ∧ value r = chars ")"
  | Signed u a => is_sign u ∧ correct_operand a ∧ unsigned a
  end.
(** The reading of a written expression: the operators and operands in the same order. *)
Definition reading_of (e : written) (r : reading) : Prop :=
  operators_of r = written_operators e ∧
  Forall2 (λ us t, ∃ p, builds p KExprUnary us t) (written_operands e) (operands_of r).
(** What the expression of an attribute is, if there is no other item: the node of the
    weakest binary level. *)
Definition attribute_reading (t : ast) (r : reading) : Prop :=
  ∃ i a v c m,
    get FItems t = Some (VList (Some (tt, [Some i]))) ∧ get FAttribute i = Some (VPtr (Some a)) ∧
    get FValue a = Some (VPtr (Some v)) ∧ get FLeft v = Some (VPtr (Some c)) ∧
    get FCondition c = Some (VEmb m) ∧ get FConditionOp c = Some (VBool false) ∧ reads m r.
