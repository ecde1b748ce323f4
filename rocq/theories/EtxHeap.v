(** * The AST in memory: Clone, Children and UpdateParentRefs

    Nodes, the arrays behind slices and big.Float values live at addresses of a heap.
    A struct embedded by value has an address of its own, which only the containing
    struct refers to.  Addresses are never reused. *)
From stdpp Require Import base list option strings gmap.
From Verif Require Import GoBase EtxAst.

Notation loc := positive (only parsing).

(** lexer.Position *)
Record pos : Type := Pos { filename : string; offset : nat; line : nat; column : nat }.
Definition no_pos : pos := Pos "" 0 0 0.

(** What a field of a struct in memory holds. *)
Inductive cval : Type :=
| CStr (s : string)
| CBool (b : bool)
| CStrs (o : option loc)     (* nil or the array of strings *)
| CFloat (o : option loc)    (* nil or the big.Float *)
| CPtr (o : option loc)      (* nil or the node *)
| CEmb (l : loc)             (* the address of the embedded struct *)
| CList (o : option loc).    (* nil or the array of pointers *)
(** [CNode] of AST has no position and no parent; they are [no_pos] and [None]. *)
Inductive cell : Type :=
| CNode (k : kind) (p : pos) (parent : option loc) (fs : list (fld * cval))
| CArrS (l : list string)
| CArrP (l : list (option loc))
| CBig (s : string).
Notation heap := (gmap positive cell).

(** ** Programs that use the heap *)
Definition H (A : Type) : Type := heap → res (A * heap).
Definition hret {A} (a : A) : H A := λ h, Ok (a, h).
Definition hbind {A B} (m : H A) (f : A → H B) : H B :=
  λ h, match m h with Ok (a, h') => f a h' | Panic => Panic | OutOfFuel => OutOfFuel end.
Notation "x ←ₕ m ; f" := (hbind m (λ x, f)) (at level 100, m at level 90, f at level 200, right associativity).
Definition hpanic {A} : H A := λ h, Panic.
(** Reading memory that holds no node of the expected shape does not happen in Go. *)
Definition hload (l : loc) : H cell := λ h, match h !! l with Some c => Ok (c, h) | None => Panic end.
Definition hstore (l : loc) (c : cell) : H unit := λ h, Ok (tt, <[l := c]> h).
Definition halloc (c : cell) : H loc := λ h, let l := fresh (dom h) in Ok (l, <[l := c]> h).
Fixpoint hmap {A B} (f : A → H B) (l : list A) : H (list B) :=
  match l with
  | [] => hret []
  | a :: l => b ←ₕ f a; bs ←ₕ hmap f l; hret (b :: bs)
  end.

(** ** Clone

    A Clone method is a struct literal; a line [F: e] of it is [(F, e)]. *)
Inductive cexp : Type :=
| ECopy      (* n.F: a scalar or a pointer *)
| EClone     (* n.F.Clone() *)
| EDeref     (* *n.F.Clone() *)
| EColl      (* cloneCollection(n.F), utils.go:22 *)
| EStrings   (* cloneStrings(n.F), utils.go:35 *)
| EFloat     (* value.go:190-193: nil, or a copy of the number *)
| EShallow.  (* value.go:43, 48-51: n.F.Clone(), then overwritten with a shallow copy *)

Definition clone_binary : list (fld * cexp) := [(FLeft, EDeref); (FOp, ECopy); (FRight, EClone)].
Definition clone_body (k : kind) : list (fld * cexp) :=
  match k with
  (* ast.go:51-53 *)
  | KAST => [(FItems, EColl)]
  (* ast.go:106-115 *)
  | KRootItem => [(FDecl, EClone); (FFunc, EClone); (FType, EClone); (FBlock, EClone);
                  (FAttribute, EClone); (FComment, EClone); (FEmptyLine, ECopy)]
  (* ast.go:173-177 *)
  | KParameterType => [(FIdent, EClone); (FFunc, EClone)]
  (* ast.go:217-221 *)
  | KFuncSignature => [(FParameters, EColl); (FReturn, EDeref)]
  (* decl.go:25-31 *)
  | KDecl => [(FDeclType, ECopy); (FLabel, ECopy); (FType, EClone); (FValue, EClone)]
  (* func.go:22-28 *)
  | KFunc => [(FLabel, ECopy); (FParameters, EColl); (FReturn, EColl); (FBody, EColl)]
  (* func.go:99-103 *)
  | KFuncParameter => [(FLabel, ECopy); (FType, EClone)]
  (* func.go:138-144 *)
  | KFuncStatement => [(FComment, EClone); (FDecl, EClone); (FExpr, EClone); (FEmptyLine, ECopy)]
  (* func.go:194-200 *)
  | KFuncDecl => [(FDeclType, ECopy); (FLabel, ECopy); (FType, ECopy); (FValue, EClone)]
  (* lambda.go:21-26 *)
  | KLambda => [(FComment, EClone); (FParameters, EColl); (FExpr, EDeref)]
  (* lambda.go:74-78 *)
  | KLambdaParameter => [(FLabel, ECopy); (FType, EClone)]
  (* type.go:23-28 *)
  | KType => [(FLabel, ECopy); (FEnum, EClone); (FObject, EClone)]
  (* type.go:75-78 *)
  | KTypeEnum => [(FItems, EColl)]
  (* type.go:123-129 *)
  | KTypeEnumItem => [(FComment, EClone); (FLabel, ECopy); (FValue, EDeref); (FEmptyLine, ECopy)]
  (* type.go:166-169 *)
  | KTypeObject => [(FItems, EColl)]
  (* type.go:216-222 *)
  | KTypeObjectItem => [(FComment, EClone); (FLabel, ECopy); (FType, EDeref); (FEmptyLine, ECopy)]
  (* block.go:21-26 *)
  | KBlock => [(FName, ECopy); (FLabels, EStrings); (FBody, EColl)]
  (* block.go:82-88 *)
  | KBlockItem => [(FBlock, EClone); (FAttribute, EClone); (FComment, EClone); (FEmptyLine, ECopy)]
  (* attribute.go:20-24 *)
  | KAttribute => [(FKey, ECopy); (FValue, EClone)]
  (* comment.go:18-22 *)
  | KComment => [(FSingleLine, EStrings); (FMultiline, ECopy)]
  (* ident.go:19-22 *)
  | KIdent => [(FParts, EStrings)]
  (* value.go:37-53 *)
  | KValue => [(FNull, ECopy); (FBool, EClone); (FNumber, EClone); (FStr, EClone);
               (FHeredoc, EShallow); (FList, EClone); (FMap, EClone)]
  (* value.go:136-139 *)
  | KValueBool => [(FValue, ECopy)]
  (* value.go:185-193 *)
  | KValueNumber => [(FSource, ECopy); (FValue, EFloat)]
  (* value.go:224-228, 275-278 *)
  | KHeredoc => [(FLeadingTabs, ECopy); (FDelimiter, ECopy); (FFragments, EColl)]
  (* value.go:306-311 *)
  | KHeredocFragment => [(FExpr, EClone); (FDirective, EClone); (FText, ECopy)]
  (* value.go:352-355 *)
  | KValueString => [(FFragment, EColl)]
  (* value.go:395-402 *)
  | KStringFragment => [(FEscaped, ECopy); (FUnicode, ECopy); (FExpr, EClone);
                        (FDirective, EClone); (FText, ECopy)]
  (* value.go:447-450 *)
  | KValueList => [(FItems, EColl)]
  (* value.go:491-496 *)
  | KListItem => [(FEmptyLine, ECopy); (FValue, EClone); (FComment, EClone)]
  (* value.go:537-540 *)
  | KValueMap => [(FItems, EColl)]
  (* value.go:584-590 *)
  | KMapItem => [(FEmptyLine, ECopy); (FKey, EClone); (FValue, EClone); (FComment, EClone)]
  (* value.go:635-639 *)
  | KMapKey => [(FIdent, EClone); (FStr, EClone)]
  (* expr.go:21-26 *)
  | KExpr => [(FLeft, EClone); (FIf, EClone); (FSwitch, EClone)]
  (* expr.go:71-76 *)
  | KExprIf => [(FCondition, EDeref); (FLeft, EClone); (FRight, EClone)]
  (* expr.go:119-123 *)
  | KExprSwitch => [(FSelector, EDeref); (FCases, EColl)]
  (* expr.go:167-172 *)
  | KExprCase => [(FConditions, EColl); (FDefault, ECopy); (FExpr, EClone)]
  (* expr.go:226-232 *)
  | KExprConditional => [(FCondition, EDeref); (FConditionOp, ECopy); (FTrueExpr, EClone);
                         (FFalseExpr, EClone)]
  (* expr.go:281-286, 326-331, 371-376, 416-421, 461-466 *)
  | KExprLogicalOr | KExprLogicalAnd | KExprBitwiseOr | KExprBitwiseXor | KExprBitwiseAnd
  (* expr.go:506-511, 551-556, 596-601, 641-646, 686-691 *)
  | KExprEquality | KExprRelational | KExprShift | KExprAdditive | KExprMultiplicative => clone_binary
  (* expr.go:730-734 *)
  | KExprUnary => [(FOp, ECopy); (FRight, EDeref)]
  (* expr.go:762-767 *)
  | KExprPostfix => [(FValue, EDeref); (FIndex, EClone); (FPost, EClone)]
  (* expr.go:812-819 *)
  | KExprPrimary => [(FSubExpression, EClone); (FIdent, EClone); (FMonads, EColl); (FPost, EClone);
                     (FValue, EClone)]
  (* expr.go:892-895 *)
  | KExprInvocationParams => [(FValues, EColl)]
  end.

(** The zero value of a field a struct literal leaves out.  (An embedded struct that is
    left out does not occur.) *)
Definition zero_val (ty : ftype) : H cval :=
  match ty with
  | TStr => hret (CStr "")
  | TBool => hret (CBool false)
  | TStrs => hret (CStrs None)
  | TFloat => hret (CFloat None)
  | TPtr _ => hret (CPtr None)
  | TEmb _ => hpanic
  | TList _ => hret (CList None)
  end.

Section clone.
Context (clone : loc → H loc).
(** A call [p.Clone()]: nil for nil. *)
Definition clone_ptr (o : option loc) : H (option loc) :=
  match o with
  | None => hret None
  | Some l => l' ←ₕ clone l; hret (Some l')
  end.
(** The value of a line of the struct literal, [v] being the field of the source. *)
Definition eval_clone (e : cexp) (v : cval) : H cval :=
  match e, v with
  | ECopy, v => hret v
  | EClone, CPtr o => o' ←ₕ clone_ptr o; hret (CPtr o')
  | EDeref, CEmb l => l' ←ₕ clone l; hret (CEmb l')
  (* utils.go:22-33 *)
  | EColl, CList None => hret (CList None)
  | EColl, CList (Some a) =>
      c ←ₕ hload a;
      match c with
      | CArrP l => l' ←ₕ hmap clone_ptr l; a' ←ₕ halloc (CArrP l'); hret (CList (Some a'))
      | _ => hpanic
      end
  (* utils.go:35-43 *)
  | EStrings, CStrs None => hret (CStrs None)
  | EStrings, CStrs (Some a) =>
      c ←ₕ hload a;
      match c with
      | CArrS l => a' ←ₕ halloc (CArrS l); hret (CStrs (Some a'))
      | _ => hpanic
      end
  | EFloat, CFloat None => hret (CFloat None)
  | EFloat, CFloat (Some a) =>
      c ←ₕ hload a;
      match c with
      | CBig s => a' ←ₕ halloc (CBig s); hret (CFloat (Some a'))
      | _ => hpanic
      end
  | EShallow, CPtr o =>
      o' ←ₕ clone_ptr o;
      match o with
      | None => hret (CPtr o')
      | Some l => c ←ₕ hload l; l' ←ₕ halloc c; hret (CPtr (Some l'))
      end
  | _, _ => hpanic
  end.
(** The field [f] of the struct literal. *)
Definition clone_field (k : kind) (fs : list (fld * cval)) (p : fld * ftype) : H (fld * cval) :=
  let '(f, ty) := p in
  match assoc f (clone_body k) with
  | None => v ←ₕ zero_val ty; hret (f, v)
  | Some e =>
      match assoc f fs with
      | Some v => v' ←ₕ eval_clone e v; hret (f, v')
      | None => hpanic
      end
  end.
(** A Clone method on a non-nil node.  ASTNode.Clone (ast.go:27-33) keeps the position
    and drops the parent. *)
Definition clone_node (l : loc) : H loc :=
  c ←ₕ hload l;
  match c with
  | CNode k p _ fs => fs' ←ₕ hmap (clone_field k fs) (schema k); halloc (CNode k p None fs')
  | _ => hpanic
  end.
End clone.
(** [n] bounds the depth of the recursion. *)
Fixpoint Clone (n : nat) (l : loc) : H loc :=
  match n with
  | 0 => λ _, OutOfFuel
  | S n => clone_node (Clone n) l
  end.

(** ** Children

    A Children method is a sequence of statements that append nodes. *)
Inductive chexp : Type :=
| IfSet (f : fld)            (* if n.F != nil { append n.F } *)
| Each (f : fld)             (* for _, item := range n.F { append item } *)
| Addr (f : fld)             (* append &n.F *)
| FirstOf (fs : list fld).   (* switch { case n.F1 != nil: append n.F1; case n.F2 ... } *)

Definition children_body (k : kind) : list chexp :=
  match k with
  (* ast.go:58-64, 118-136, 180-190, 224-232 *)
  | KAST => [Each FItems]
  | KRootItem => [FirstOf [FAttribute; FDecl; FFunc; FType; FBlock; FComment]]
  | KParameterType => [IfSet FIdent; IfSet FFunc]
  | KFuncSignature => [Each FParameters; Addr FReturn]
  (* decl.go:34-44 *)
  | KDecl => [IfSet FType; IfSet FValue]
  (* func.go:31-45, 106-112, 147-161, 203-213 *)
  | KFunc => [Each FParameters; Each FReturn; Each FBody]
  | KFuncParameter => [IfSet FType]
  | KFuncStatement => [IfSet FComment; IfSet FDecl; IfSet FExpr]
  | KFuncDecl => [IfSet FType; IfSet FValue]
  (* lambda.go:29-41, 81-87 *)
  | KLambda => [IfSet FComment; Each FParameters; Addr FExpr]
  | KLambdaParameter => [IfSet FType]
  (* type.go:33-43, 81-87, 132-140, 174-180, 225-233 *)
  | KType => [IfSet FEnum; IfSet FObject]
  | KTypeEnum => [Each FItems]
  | KTypeEnumItem => [IfSet FComment; Addr FValue]
  | KTypeObject => [Each FItems]
  | KTypeObjectItem => [IfSet FComment; Addr FType]
  (* block.go:29-35, 91-105 *)
  | KBlock => [Each FBody]
  | KBlockItem => [IfSet FComment; IfSet FBlock; IfSet FAttribute]
  (* attribute.go:27-33, comment.go:25-27, ident.go:25-27 *)
  | KAttribute => [IfSet FValue]
  | KComment => []
  | KIdent => []
  (* value.go:56-82, 144-146, 198-200, 231-237, 314-324, 358-364, 405-415 *)
  | KValue => [IfSet FBool; IfSet FNumber; IfSet FStr; IfSet FHeredoc; IfSet FList; IfSet FMap]
  | KValueBool => []
  | KValueNumber => []
  | KHeredoc => [Each FFragments]
  | KHeredocFragment => [IfSet FExpr; IfSet FDirective]
  | KValueString => [Each FFragment]
  | KStringFragment => [IfSet FExpr; IfSet FDirective]
  (* value.go:453-459, 499-509, 543-549, 593-607, 642-651 *)
  | KValueList => [Each FItems]
  | KListItem => [IfSet FValue; IfSet FComment]
  | KValueMap => [Each FItems]
  | KMapItem => [IfSet FKey; IfSet FValue; IfSet FComment]
  | KMapKey => [FirstOf [FIdent; FStr]]
  (* expr.go:29-41, 79-91, 126-135, 175-185, 235-247 *)
  | KExpr => [FirstOf [FLeft; FIf; FSwitch]]
  | KExprIf => [Addr FCondition; IfSet FLeft; IfSet FRight]
  | KExprSwitch => [Addr FSelector; Each FCases]
  | KExprCase => [Each FConditions; IfSet FExpr]
  | KExprConditional => [Addr FCondition; IfSet FTrueExpr; IfSet FFalseExpr]
  (* expr.go:289-297, 334-342, 379-387, 424-432, 469-477 *)
  | KExprLogicalOr | KExprLogicalAnd | KExprBitwiseOr | KExprBitwiseXor | KExprBitwiseAnd
  (* expr.go:514-522, 559-567, 604-612, 649-657, 694-702 *)
  | KExprEquality | KExprRelational | KExprShift | KExprAdditive | KExprMultiplicative =>
      [Addr FLeft; IfSet FRight]
  (* expr.go:737-741, 770-778, 822-844, 898-904 *)
  | KExprUnary => [Addr FRight]
  | KExprPostfix => [Addr FValue; IfSet FIndex]
  | KExprPrimary => [IfSet FSubExpression; IfSet FIdent; Each FMonads; IfSet FPost; IfSet FValue]
  | KExprInvocationParams => [Each FValues]
  end.

(** The nodes a statement appends; a nil pointer in a slice is appended as well. *)
Fixpoint first_set (fs : list (fld * cval)) (l : list fld) : list (option loc) :=
  match l with
  | [] => []
  | f :: l => match assoc f fs with Some (CPtr (Some a)) => [Some a] | _ => first_set fs l end
  end.
Definition append_children (fs : list (fld * cval)) (e : chexp) : H (list (option loc)) :=
  match e with
  | IfSet f => hret (match assoc f fs with Some (CPtr (Some a)) => [Some a] | _ => [] end)
  | Addr f => match assoc f fs with Some (CEmb a) => hret [Some a] | _ => hpanic end
  | Each f =>
      match assoc f fs with
      | Some (CList None) => hret []
      | Some (CList (Some a)) => c ←ₕ hload a; match c with CArrP l => hret l | _ => hpanic end
      | _ => hpanic
      end
  | FirstOf l => hret (first_set fs l)
  end.
Definition Children (l : loc) : H (list (option loc)) :=
  c ←ₕ hload l;
  match c with
  | CNode k _ _ fs => cs ←ₕ hmap (append_children fs) (children_body k); hret (concat cs)
  | _ => hpanic
  end.

(** ** UpdateParentRefs *)
(** node.Node().Parent = parent; a nil node panics. *)
Definition set_parent (parent : option loc) (node : option loc) : H loc :=
  match node with
  | None => hpanic
  | Some l =>
      c ←ₕ hload l;
      match c with
      | CNode k p _ fs => _ ←ₕ hstore l (CNode k p parent fs); hret l
      | _ => hpanic
      end
  end.
(** parser.go:58-64 *)
Fixpoint updateParentRefs (n : nat) (parent node : option loc) : H unit :=
  match n with
  | 0 => λ _, OutOfFuel
  | S n =>
      l ←ₕ set_parent parent node;
      cs ←ₕ Children l;
      _ ←ₕ hmap (updateParentRefs n (Some l)) cs;
      hret tt
  end.
(** ast.go:80-84 *)
Definition UpdateParentRefs (n : nat) (ast : loc) : H unit :=
  cs ←ₕ Children ast;
  _ ←ₕ hmap (updateParentRefs n None) cs;
  hret tt.
