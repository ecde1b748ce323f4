(** * The AST of pkg/etx

    One Go struct type is one [kind]; its fields and their Go types are listed by
    [schema].  An AST node is a tree: a kind and a value for each field.  The type of
    trees has parameters for what else is attached to a node ([A]) and to a slice
    ([B]): positions, addresses, formatted text. *)
From stdpp Require Import base list option strings.

(** The struct types.  AST (ast.go:42) is the only one without an embedded ASTNode. *)
Inductive kind : Type :=
(* ast.go:42, 89, 161, 205 *)
| KAST | KRootItem | KParameterType | KFuncSignature
(* decl.go:11 *)
| KDecl
(* func.go:8, 87, 124, 180 *)
| KFunc | KFuncParameter | KFuncStatement | KFuncDecl
(* lambda.go:8, 62 *)
| KLambda | KLambdaParameter
(* type.go:10, 64, 109, 155, 202 *)
| KType | KTypeEnum | KTypeEnumItem | KTypeObject | KTypeObjectItem
(* block.go:8, 68 *)
| KBlock | KBlockItem
(* attribute.go:8, comment.go:6, ident.go:7 *)
| KAttribute | KComment | KIdent
(* value.go:20, 119, 155, 212, 293, 341, 380, 436, 478, 526, 570, 623 *)
| KValue | KValueBool | KValueNumber | KHeredoc | KHeredocFragment | KValueString
| KStringFragment | KValueList | KListItem | KValueMap | KMapItem | KMapKey
(* expr.go:8, 58, 107, 154, 212 *)
| KExpr | KExprIf | KExprSwitch | KExprCase | KExprConditional
(* expr.go:268, 313, 358, 403, 448, 493, 538, 583, 628, 673 *)
| KExprLogicalOr | KExprLogicalAnd | KExprBitwiseOr | KExprBitwiseXor | KExprBitwiseAnd
| KExprEquality | KExprRelational | KExprShift | KExprAdditive | KExprMultiplicative
(* expr.go:718, 749, 797, 881 *)
| KExprUnary | KExprPostfix | KExprPrimary | KExprInvocationParams.

(** The field names.  HeredocDelimiter (value.go:254) is a struct of two scalars that
    is no node; its fields are fields of Heredoc here. *)
Inductive fld : Type :=
| FItems | FEmptyLine | FDecl | FFunc | FType | FBlock | FAttribute | FComment | FIdent
| FParameters | FReturn | FDeclType | FLabel | FValue | FBody | FExpr | FEnum | FObject
| FName | FLabels | FKey | FSingleLine | FMultiline | FParts | FNull | FBool | FNumber
| FStr | FHeredoc | FList | FMap | FSource | FLeadingTabs | FDelimiter | FFragments
| FDirective | FText | FFragment | FEscaped | FUnicode | FLeft | FIf | FSwitch
| FCondition | FRight | FSelector | FCases | FConditions | FDefault | FConditionOp
| FTrueExpr | FFalseExpr | FOp | FIndex | FPost | FSubExpression | FMonads | FValues.

Global Instance kind_eq_dec : EqDecision kind.
Proof. solve_decision. Defined.
Global Instance fld_eq_dec : EqDecision fld.
Proof. solve_decision. Defined.

(** The Go types of fields: string, bool, []string, *big.Float, *K, K, []*K. *)
Inductive ftype : Type :=
| TStr | TBool | TStrs | TFloat | TPtr (k : kind) | TEmb (k : kind) | TList (k : kind).
Global Instance ftype_eq_dec : EqDecision ftype.
Proof. solve_decision. Defined.

(** The two operand fields of the ten binary operator levels, expr.go:268-679. *)
Definition binary (left right : kind) : list (fld * ftype) :=
  [(FLeft, TEmb left); (FOp, TStr); (FRight, TPtr right)].

Definition schema (k : kind) : list (fld * ftype) :=
  match k with
  | KAST => [(FItems, TList KRootItem)]
  | KRootItem => [(FEmptyLine, TStr); (FDecl, TPtr KDecl); (FFunc, TPtr KFunc);
                  (FType, TPtr KType); (FBlock, TPtr KBlock); (FAttribute, TPtr KAttribute);
                  (FComment, TPtr KComment)]
  | KParameterType => [(FIdent, TPtr KIdent); (FFunc, TPtr KFuncSignature)]
  | KFuncSignature => [(FParameters, TList KParameterType); (FReturn, TEmb KParameterType)]
  | KDecl => [(FDeclType, TStr); (FLabel, TStr); (FType, TPtr KParameterType);
              (FValue, TPtr KExpr)]
  | KFunc => [(FLabel, TStr); (FParameters, TList KFuncParameter);
              (FReturn, TList KParameterType); (FBody, TList KFuncStatement)]
  | KFuncParameter => [(FLabel, TStr); (FType, TPtr KParameterType)]
  | KFuncStatement => [(FEmptyLine, TStr); (FComment, TPtr KComment); (FDecl, TPtr KFuncDecl);
                       (FExpr, TPtr KExpr)]
  | KFuncDecl => [(FDeclType, TStr); (FLabel, TStr); (FType, TPtr KParameterType);
                  (FValue, TPtr KExpr)]
  | KLambda => [(FComment, TPtr KComment); (FParameters, TList KLambdaParameter);
                (FExpr, TEmb KExpr)]
  | KLambdaParameter => [(FLabel, TStr); (FType, TPtr KParameterType)]
  | KType => [(FLabel, TStr); (FEnum, TPtr KTypeEnum); (FObject, TPtr KTypeObject)]
  | KTypeEnum => [(FItems, TList KTypeEnumItem)]
  | KTypeEnumItem => [(FEmptyLine, TStr); (FComment, TPtr KComment); (FLabel, TStr);
                      (FValue, TEmb KExpr)]
  | KTypeObject => [(FItems, TList KTypeObjectItem)]
  | KTypeObjectItem => [(FEmptyLine, TStr); (FComment, TPtr KComment); (FLabel, TStr);
                        (FType, TEmb KParameterType)]
  | KBlock => [(FName, TStr); (FLabels, TStrs); (FBody, TList KBlockItem)]
  | KBlockItem => [(FEmptyLine, TStr); (FBlock, TPtr KBlock); (FAttribute, TPtr KAttribute);
                   (FComment, TPtr KComment)]
  | KAttribute => [(FKey, TStr); (FValue, TPtr KExpr)]
  | KComment => [(FSingleLine, TStrs); (FMultiline, TStr)]
  | KIdent => [(FParts, TStrs)]
  | KValue => [(FNull, TBool); (FBool, TPtr KValueBool); (FNumber, TPtr KValueNumber);
               (FStr, TPtr KValueString); (FHeredoc, TPtr KHeredoc); (FList, TPtr KValueList);
               (FMap, TPtr KValueMap)]
  | KValueBool => [(FValue, TBool)]
  | KValueNumber => [(FValue, TFloat); (FSource, TStr)]
  | KHeredoc => [(FLeadingTabs, TBool); (FDelimiter, TStr); (FFragments, TList KHeredocFragment)]
  | KHeredocFragment => [(FExpr, TPtr KExpr); (FDirective, TPtr KExpr); (FText, TStr)]
  | KValueString => [(FFragment, TList KStringFragment)]
  | KStringFragment => [(FEscaped, TStr); (FUnicode, TStr); (FExpr, TPtr KExpr);
                        (FDirective, TPtr KExpr); (FText, TStr)]
  | KValueList => [(FItems, TList KListItem)]
  | KListItem => [(FEmptyLine, TStr); (FValue, TPtr KExpr); (FComment, TPtr KComment)]
  | KValueMap => [(FItems, TList KMapItem)]
  | KMapItem => [(FEmptyLine, TStr); (FKey, TPtr KMapKey); (FValue, TPtr KExpr);
                 (FComment, TPtr KComment)]
  | KMapKey => [(FIdent, TPtr KIdent); (FStr, TPtr KValueString)]
  | KExpr => [(FLeft, TPtr KExprConditional); (FIf, TPtr KExprIf); (FSwitch, TPtr KExprSwitch)]
  | KExprIf => [(FCondition, TEmb KExprLogicalOr); (FLeft, TPtr KExpr); (FRight, TPtr KExpr)]
  | KExprSwitch => [(FSelector, TEmb KExprLogicalOr); (FCases, TList KExprCase)]
  | KExprCase => [(FConditions, TList KExprLogicalOr); (FDefault, TBool); (FExpr, TPtr KExpr)]
  | KExprConditional => [(FCondition, TEmb KExprLogicalOr); (FConditionOp, TBool);
                         (FTrueExpr, TPtr KExpr); (FFalseExpr, TPtr KExpr)]
  | KExprLogicalOr => binary KExprLogicalAnd KExprLogicalOr
  | KExprLogicalAnd => binary KExprBitwiseOr KExprLogicalAnd
  | KExprBitwiseOr => binary KExprBitwiseXor KExprBitwiseOr
  | KExprBitwiseXor => binary KExprBitwiseAnd KExprBitwiseXor
  | KExprBitwiseAnd => binary KExprEquality KExprBitwiseAnd
  | KExprEquality => binary KExprRelational KExprEquality
  | KExprRelational => binary KExprShift KExprRelational
  | KExprShift => binary KExprAdditive KExprShift
  | KExprAdditive => binary KExprMultiplicative KExprAdditive
  | KExprMultiplicative => binary KExprUnary KExprMultiplicative
  | KExprUnary => [(FOp, TStr); (FRight, TEmb KExprPostfix)]
  | KExprPostfix => [(FValue, TEmb KExprPrimary); (FIndex, TPtr KExpr); (FPost, TPtr KExprPostfix)]
  | KExprPrimary => [(FSubExpression, TPtr KExpr); (FValue, TPtr KValue); (FIdent, TPtr KIdent);
                     (FMonads, TList KExprInvocationParams); (FPost, TPtr KExprPostfix)]
  | KExprInvocationParams => [(FValues, TList KExpr)]
  end.

(** ** Trees *)
Section tree.
Context {A B : Type}.

Inductive tree : Type :=
| T (a : A) (k : kind) (fs : list (fld * val))
with val : Type :=
| VStr (s : string)
| VBool (b : bool)
| VStrs (o : option (B * list string))              (* nil or a slice *)
| VFloat (o : option (B * string))                  (* nil or a number, see EtxNum.v *)
| VPtr (o : option tree)
| VEmb (t : tree)
| VList (o : option (B * list (option tree))).      (* nil or a slice of pointers *)

Definition ann (t : tree) : A := match t with T a _ _ => a end.
Definition kind_of (t : tree) : kind := match t with T _ k _ => k end.
Definition fields (t : tree) : list (fld * val) := match t with T _ _ fs => fs end.

(** The value of a field. *)
Fixpoint assoc {X} (f : fld) (fs : list (fld * X)) : option X :=
  match fs with
  | [] => None
  | (f', x) :: fs => if decide (f = f') then Some x else assoc f fs
  end.
Definition get (f : fld) (t : tree) : option val := assoc f (fields t).

(** The sub-nodes held by a field. *)
Definition val_subs (v : val) : list tree :=
  match v with
  | VPtr (Some t) => [t]
  | VEmb t => [t]
  | VList (Some (_, l)) => omap id l
  | _ => []
  end.
(** The direct sub-nodes, in the order of the fields. *)
Definition subs (t : tree) : list tree := flat_map (val_subs ∘ snd) (fields t).

Definition opt_prop (P : tree → Prop) (o : option tree) : Prop :=
  match o with Some t => P t | None => True end.

Section induction.
Context (P : tree → Prop) (Q : val → Prop).
Context (HT : ∀ a k fs, Forall (λ p, Q p.2) fs → P (T a k fs)).
Context (HStr : ∀ s, Q (VStr s)) (HBool : ∀ b, Q (VBool b)) (HStrs : ∀ o, Q (VStrs o))
  (HFloat : ∀ o, Q (VFloat o)).
Context (HNil : Q (VPtr None)) (HPtr : ∀ t, P t → Q (VPtr (Some t))) (HEmb : ∀ t, P t → Q (VEmb t)).
Context (HLNil : Q (VList None))
  (HList : ∀ b l, Forall (opt_prop P) l → Q (VList (Some (b, l)))).
Fixpoint tree_ind2 (t : tree) : P t :=
  match t with
  | T a k fs => HT a k fs
      ((fix go fs : Forall (λ p, Q p.2) fs :=
         match fs with
         | [] => List.Forall_nil _
         | p :: fs => List.Forall_cons _ _ _ (val_ind2 p.2) (go fs)
         end) fs)
  end
with val_ind2 (v : val) : Q v :=
  match v with
  | VStr s => HStr s
  | VBool b => HBool b
  | VStrs o => HStrs o
  | VFloat o => HFloat o
  | VPtr None => HNil
  | VPtr (Some t) => HPtr t (tree_ind2 t)
  | VEmb t => HEmb t (tree_ind2 t)
  | VList None => HLNil
  | VList (Some (b, l)) => HList b l
      ((fix go l : Forall (opt_prop P) l :=
         match l with
         | [] => List.Forall_nil _
         | o :: l => List.Forall_cons (opt_prop P) o l
             (match o as o return opt_prop P o with
              | Some t => tree_ind2 t | None => I end) (go l)
         end) l)
  end.
Lemma tree_val_ind : (∀ t, P t) ∧ (∀ v, Q v).
Proof. split; [exact tree_ind2|exact val_ind2]. Qed.
End induction.

(** The values of the fields have the types the schema gives. *)
Fixpoint typed (t : tree) : bool :=
  match t with
  | T _ k fs =>
      (fix go (sc : list (fld * ftype)) (fs : list (fld * val)) {struct fs} : bool :=
         match sc, fs with
         | [], [] => true
         | (f, ty) :: sc, (f', v) :: fs => bool_decide (f = f') && typed_val ty v && go sc fs
         | _, _ => false
         end) (schema k) fs
  end
with typed_val (ty : ftype) (v : val) : bool :=
  match ty, v with
  | TStr, VStr _ => true
  | TBool, VBool _ => true
  | TStrs, VStrs _ => true
  | TFloat, VFloat _ => true
  | TPtr k, VPtr None => true
  | TPtr k, VPtr (Some t) => bool_decide (kind_of t = k) && typed t
  | TEmb k, VEmb t => bool_decide (kind_of t = k) && typed t
  | TList k, VList None => true
  | TList k, VList (Some (_, l)) =>
      forallb (λ o, match o with Some t => bool_decide (kind_of t = k) && typed t | None => true end) l
  | _, _ => false
  end.
End tree.
Arguments tree : clear implicits.
Arguments val : clear implicits.

(** ** Struct literals

    A node whose fields are zero except for those given.  [n] bounds the nesting of
    structs embedded by value, which is at most 13 (an ExprLogicalOr in an ExprIf). *)
Section literal.
Context {A B : Type} (a : A).
Fixpoint zero_fields (n : nat) (k : kind) : list (fld * val A B) :=
  match n with
  | 0 => []
  | S n =>
      map (λ p : fld * ftype, (p.1,
        match p.2 with
        | TStr => VStr ""
        | TBool => VBool false
        | TStrs => VStrs None
        | TFloat => VFloat None
        | TPtr _ => VPtr None
        | TEmb k => VEmb (T a k (zero_fields n k))
        | TList _ => VList None
        end)) (schema k)
  end.
Definition zero (k : kind) : tree A B := T a k (zero_fields 16 k).
End literal.
Fixpoint set_field {X} (f : fld) (x : X) (fs : list (fld * X)) : list (fld * X) :=
  match fs with
  | [] => []
  | (f', y) :: fs => if decide (f = f') then (f', x) :: fs else (f', y) :: set_field f x fs
  end.
Definition node {A B} (a : A) (k : kind) (gs : list (fld * val A B)) : tree A B :=
  T a k (foldl (λ fs g, set_field g.1 g.2 fs) (fields (zero a k)) gs).
