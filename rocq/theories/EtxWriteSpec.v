(** * Vocabulary: trees that can be written down and read again

    The trees need not come from a parser: a program may have built them. *)
From stdpp Require Import base list option strings.
From Coq Require Import Ascii.
From Verif Require Import GoBase EtxAst EtxHeap EtxHeapSpec EtxText EtxLex EtxLexSpec EtxUtil EtxNumProofs EtxGram EtxParse EtxFormat EtxReprintSpec.

(** ** What a tree says *)
(** An item of a file, a function or a list that is only an empty line. *)
Definition row_kind (k : kind) : bool := match k with KRootItem | KFuncStatement | KListItem => true | _ => false end.
Definition blank_line (t : ast) : bool := row_kind (kind_of t) && bool_decide (str_of FEmptyLine t ≠ []).
(** The tree without positions and empty lines, and with nil for an empty slice. *)
Fixpoint gist (t : ast) : ast :=
  match t with
  | T _ k fs => T no_pos k ((fix go fs := match fs with [] => [] | (f, v) :: fs => (f, gist_val v) :: go fs end) fs)
  end
with gist_val (v : aval) : aval :=
  match v with
  | VPtr (Some t) => VPtr (Some (gist t))
  | VEmb t => VEmb (gist t)
  | VStrs (Some (_, [])) => VStrs None
  | VList (Some (_, l)) =>
      match (fix go (l : list (option ast)) : list (option ast) :=
               match l with
               | [] => []
               | None :: l => None :: go l
               | Some t :: l => if blank_line t then go l else Some (gist t) :: go l
               end) l with
      | [] => VList None
      | l => VList (Some (tt, l))
      end
  | v => v
  end.

(** ** Words, numbers, strings, comments *)
Definition name (v : text) : Prop := ∃ u us, v = u ++ dashed us ∧ identifier u us ∧ ¬ is_keyword u.
(** The names that mean something else at the start of an expression or a statement. *)
Definition reserved : list string := ["null"; "true"; "false"; "const"; "val"].
Definition normal_number (v : text) : Prop := number_text v ∧ ∃ n, capture_number v = Some (v, n).
Definition no_special (c : ascii) : bool := negb (one_of_chars "$%\" c || is_quote c) && negb (Ascii.eqb c lf).
(** A piece of a string: a run of ordinary characters, an apostrophe, or an escaped start
    of an interpolation. *)
Definition run (v : text) : Prop := v ≠ [] ∧ Forall (λ c, no_special c = true) v.
Definition piece (v : text) : Prop := run v ∨ v = chars "'" ∨ v = chars "$${" ∨ v = chars "%%{".
Fixpoint no_runs (l : list text) : Prop :=
  match l with
  | a :: (b :: _) as l' => ¬ (run a ∧ run b) ∧ no_runs l'
  | _ => True
  end.
Definition remark (v : text) : Prop := (∃ w, v = chars "//" ++ w ∨ v = chars "#" ++ w) ∧ lf ∉ v.
Definition feeds (v : text) : Prop := v ≠ [] ∧ Forall (λ c, c = lf) v.

(** ** Nodes *)
Definition set_in (fs : list fld) (t : ast) : list fld := filter (λ f, is_nil (ptr_of f t) = false) fs.
(** Exactly one of the fields is set. *)
Definition just_one (fs : list fld) (t : ast) : Prop := length (set_in fs t) = 1.
Definition none_of (fs : list fld) (t : ast) : Prop := set_in fs t = [].
(** Either an empty line or exactly one of the fields. *)
Definition item_of (fs : list fld) (t : ast) : Prop :=
  (str_of FEmptyLine t = [] ∧ just_one fs t) ∨ (feeds (str_of FEmptyLine t) ∧ none_of fs t).
Definition operators_of (k : kind) : list string :=
  match k with
  | KExprLogicalOr => ["||"] | KExprLogicalAnd => ["&&"] | KExprBitwiseOr => ["|"] | KExprBitwiseXor => ["^"]
  | KExprBitwiseAnd => ["&"] | KExprEquality => ["!="; "=="] | KExprRelational => [">"; ">="; "<"; "<="]
  | KExprShift => ["<<"; ">>"] | KExprAdditive => ["-"; "+"] | KExprMultiplicative => ["/"; "*"; "%"]
  | KExprUnary => ["~"; "!"; "-"; "+"]
  | _ => []
  end.
(** An operand that starts with a name. *)
Definition named_primary (v : ast) : bool := negb (is_nil (ptr_of FIdent v)).
Definition named (t : ast) : bool := match emb_of FValue t with Some v => named_primary v | None => false end.
Definition has (f : fld) (t : ast) : bool := negb (is_nil (ptr_of f t)).

Definition writable_node (m : ast) : Prop :=
  (∀ f, None ∉ list_of f m) ∧
  match kind_of m with
  | KAST | KFuncSignature | KTypeEnum | KTypeObject | KValueList | KExprInvocationParams | KValueBool => True
  | KExprSwitch => True
  | KRootItem =>
      item_of [FDecl; FFunc; FType; FComment] m ∧ none_of [FBlock; FAttribute] m
  | KParameterType => just_one [FIdent; FFunc] m
  | KDecl => str_of FDeclType m ∈ map chars ["input"; "output"; "const"; "val"] ∧ name (str_of FLabel m)
  | KFuncDecl => str_of FDeclType m ∈ map chars ["const"; "val"] ∧ name (str_of FLabel m)
  (* a single result that is a function would be read as a list of results *)
  | KFunc => name (str_of FLabel m) ∧ ∀ r, list_of FReturn m = [Some r] → has FIdent r = true
  | KFuncParameter => name (str_of FLabel m)
  | KFuncStatement => item_of [FComment; FDecl; FExpr] m
  | KType => name (str_of FLabel m) ∧ just_one [FEnum; FObject] m
  | KTypeEnumItem | KTypeObjectItem =>
      name (str_of FLabel m) ∧ none_of [FComment] m ∧ str_of FEmptyLine m = []
  | KComment => str_of FMultiline m = [] ∧ strs_of FSingleLine m ≠ [] ∧ Forall remark (strs_of FSingleLine m)
  | KIdent =>
      strs_of FParts m ≠ [] ∧ Forall name (strs_of FParts m) ∧ ∀ v, head (strs_of FParts m) = Some v → v ∉ map chars reserved
  | KValue =>
      none_of [FHeredoc; FMap] m ∧
      if bool_of FNull m then none_of [FBool; FNumber; FStr; FList] m else just_one [FBool; FNumber; FStr; FList] m
  | KValueNumber => normal_number (str_of FSource m) ∧ get FValue m = Some (VFloat (Some (tt, str (str_of FSource m))))
  | KStringFragment =>
      str_of FEscaped m = [] ∧ str_of FUnicode m = [] ∧ none_of [FExpr; FDirective] m ∧ piece (str_of FText m)
  | KValueString => no_runs (map (λ o, match o with Some c => str_of FText c | None => [] end) (list_of FFragment m))
  | KListItem => item_of [FValue] m ∧ none_of [FComment] m
  | KExpr => just_one [FLeft; FIf; FSwitch] m
  | KExprIf => has FLeft m = false → has FRight m = false
  | KExprCase =>
      has FExpr m = true ∧ (if bool_of FDefault m then nil_list FConditions m = true else list_of FConditions m ≠ [])
  | KExprConditional =>
      has FTrueExpr m = bool_of FConditionOp m ∧ has FFalseExpr m = bool_of FConditionOp m
  | KExprUnary => str_of FOp m ∈ [] :: map chars (operators_of KExprUnary)
  (* the parentheses of a nested expression are not written, a number beside a dot is
     read otherwise, and a member after a name is read as part of the name *)
  | KExprPostfix =>
      (∀ c, ptr_of FPost m = Some c → numeric c = false ∧ (has FIndex m = false → numeric m = false ∧ named m = false)) ∧
      (has FIndex m = true → ∀ v, emb_of FValue m = Some v → has FPost v = false)
  | KExprPrimary =>
      just_one [FValue; FIdent] m ∧ none_of [FSubExpression] m ∧
      (has FValue m = true → list_of FMonads m = [] ∧ has FPost m = false) ∧
      (∀ c, ptr_of FPost m = Some c → numeric c = false ∧ list_of FMonads m ≠ [])
  | KExprLogicalOr | KExprLogicalAnd | KExprBitwiseOr | KExprBitwiseXor | KExprBitwiseAnd | KExprEquality
  | KExprRelational | KExprShift | KExprAdditive | KExprMultiplicative =>
      if has FRight m then str_of FOp m ∈ map chars (operators_of (kind_of m)) else str_of FOp m = []
  | KBlock | KBlockItem | KAttribute | KLambda | KLambdaParameter | KHeredoc | KHeredocFragment | KValueMap | KMapItem | KMapKey => False
  end.
(** A file that can be written down. *)
Definition writable (t : ast) : Prop := typed t = true ∧ ∀ m, m ∈ nodes t → writable_node m.
