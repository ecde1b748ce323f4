(** * FormattedString of pkg/etx

    [Panic]: an explicit panic, or a method called on a nil pointer.  Since the receivers
    are values, a nil pointer is dereferenced by the call. *)
From stdpp Require Import base list option strings.
From Coq Require Import Ascii.
From Verif Require Import GoBase EtxNumText EtxAst EtxHeap EtxHeapSpec EtxText EtxLex EtxUtil EtxGram EtxParse.

Global Instance res_bind : MBind res := λ A B f m,
  match m with Ok a => f a | Panic => Panic | OutOfFuel => OutOfFuel end.

(** ** Fields *)
Definition str_of (f : fld) (t : ast) : text := match get f t with Some (VStr s) => chars s | _ => [] end.
Definition bool_of (f : fld) (t : ast) : bool := match get f t with Some (VBool b) => b | _ => false end.
Definition strs_of (f : fld) (t : ast) : list text := match get f t with Some (VStrs (Some (_, l))) => map chars l | _ => [] end.
Definition ptr_of (f : fld) (t : ast) : option ast := match get f t with Some (VPtr o) => o | _ => None end.
Definition emb_of (f : fld) (t : ast) : option ast := match get f t with Some (VEmb c) => Some c | _ => None end.
Definition list_of (f : fld) (t : ast) : list (option ast) := match get f t with Some (VList (Some (_, l))) => l | _ => [] end.
Definition nil_list (f : fld) (t : ast) : bool := match get f t with Some (VList (Some _)) => false | _ => true end.
Definition is_nil (o : option ast) : bool := match o with Some _ => false | None => true end.

(** strings.Join *)
Fixpoint join (sep : text) (l : list text) : text :=
  match l with [] => [] | [s] => s | s :: l => s ++ sep ++ join sep l end.
Definition tabbed (s : text) : text := indent s [tab].

Section format.
Context (fmt : ast → res text).
(** Calling the method of a pointer or of an embedded struct; every embedded struct exists. *)
Definition fmt_of (o : option ast) : res text := match o with Some t => fmt t | None => Panic end.
Fixpoint fmt_all (l : list (option ast)) : res (list text) :=
  match l with [] => Ok [] | o :: l => s ← fmt_of o; r ← fmt_all l; Ok (s :: r) end.

(** expr.go:299-309, 344-354, 389-399, 434-444, 479-489, 524-534, 569-579, 614-624, 659-669, 704-714 *)
Definition format_binary (t : ast) : res text :=
  if decide (str_of FOp t = []) then fmt_of (emb_of FLeft t)
  else if is_nil (ptr_of FRight t) then Panic
  else l ← fmt_of (emb_of FLeft t); r ← fmt_of (ptr_of FRight t); Ok (l ++ chars " " ++ str_of FOp t ++ chars " " ++ r).
(** decl.go:46-64, func.go:215-233 *)
Definition format_decl (t : ast) : res text :=
  if decide (str_of FLabel t = []) then Ok [] else
  ty ← match ptr_of FType t with None => Ok [] | Some c => s ← fmt c; Ok (chars ": " ++ s) end;
  v ← match ptr_of FValue t with None => Ok [] | Some c => s ← fmt c; Ok (chars " = " ++ s) end;
  Ok (str_of FDeclType t ++ chars " " ++ str_of FLabel t ++ ty ++ v).
(** func.go:114-120, lambda.go:89-95 *)
Definition format_parameter (t : ast) : res text :=
  match ptr_of FType t with
  | Some c => s ← fmt c; Ok (str_of FLabel t ++ chars ": " ++ s)
  | None => Ok (str_of FLabel t)
  end.
(** type.go:89-105, 182-198; the items are used without their own FormattedString *)
Fixpoint longest (l : list (option ast)) : res nat :=
  match l with
  | [] => Ok 0
  | None :: _ => Panic
  | Some i :: l => n ← longest l; Ok (length (str_of FLabel i) `max` n)
  end.
Fixpoint format_entries (f : fld) (n : nat) (l : list (option ast)) : res text :=
  match l with
  | [] => Ok []
  | None :: _ => Panic
  | Some i :: l =>
      s ← fmt_of (emb_of f i); r ← format_entries f n l;
      Ok ([lf] ++ str_of FLabel i ++ chars ":" ++ replicate (n - length (str_of FLabel i)) " "%char ++ chars " " ++ s ++ r)
  end.
Definition format_aligned (f : fld) (t : ast) : res text :=
  n ← longest (list_of FItems t); format_entries f n (list_of FItems t).
(** value.go:559-562 *)
Fixpoint format_pairs (l : list (option ast)) : res text :=
  match l with
  | [] => Ok []
  | None :: _ => Panic
  | Some i :: l =>
      k ← fmt_of (ptr_of FKey i); v ← fmt_of (ptr_of FValue i); r ← format_pairs l;
      Ok (tabbed (k ++ chars ": " ++ v) ++ chars "," ++ [lf] ++ r)
  end.
(** type.go:142-151, 235-244 *)
Definition format_entry (f : fld) (t : ast) : res text :=
  match ptr_of FComment t with
  | Some c => fmt c
  | None =>
      if decide (str_of FEmptyLine t ≠ []) then Ok (str_of FEmptyLine t)
      else s ← fmt_of (emb_of f t); Ok (str_of FLabel t ++ chars ": " ++ s)
  end.
(** A switch over pointers: the first that is set is formatted. *)
Fixpoint first_set (l : list (option ast)) (otherwise : res text) : res text :=
  match l with
  | [] => otherwise
  | Some t :: _ => fmt t
  | None :: l => first_set l otherwise
  end.
Definition braced (s : text) : text := chars " {" ++ [lf] ++ tabbed s ++ [lf] ++ chars "}".

Definition format_node (t : ast) : res text :=
  match kind_of t with
  (* ast.go:66-77 *)
  | KAST =>
      if decide (list_of FItems t = []) then Ok []
      else l ← fmt_all (list_of FItems t); Ok (join [lf; lf] l ++ [lf])
  (* ast.go:138-157 *)
  | KRootItem =>
      first_set [ptr_of FDecl t; ptr_of FFunc t; ptr_of FType t; ptr_of FBlock t; ptr_of FAttribute t; ptr_of FComment t]
        (if decide (str_of FEmptyLine t ≠ []) then Ok (str_of FEmptyLine t) else Panic)
  (* ast.go:192-201 *)
  | KParameterType => first_set [ptr_of FIdent t; ptr_of FFunc t] Panic
  (* ast.go:234-245 *)
  | KFuncSignature =>
      l ← fmt_all (list_of FParameters t); r ← fmt_of (emb_of FReturn t);
      Ok (chars "(" ++ join (chars ", ") l ++ chars ") -> " ++ r)
  | KDecl | KFuncDecl => format_decl t
  (* func.go:47-84 *)
  | KFunc =>
      ps ← fmt_all (list_of FParameters t);
      rs ← fmt_all (list_of FReturn t);
      b ← fmt_all (list_of FBody t);
      Ok (chars "def " ++ str_of FLabel t ++ chars "(" ++ join (chars ", ") ps ++ chars ")" ++
          match rs with
          | [] => []
          | [r] => chars " " ++ r
          | _ => chars " (" ++ join (chars ", ") rs ++ chars ")"
          end ++
          match b with
          | [] => chars " {}"
          | _ => chars " {" ++ [lf] ++ concat (map (λ s, tabbed s ++ [lf]) b) ++ chars "}"
          end)
  | KFuncParameter | KLambdaParameter => format_parameter t
  (* func.go:163-176 *)
  | KFuncStatement => first_set [ptr_of FComment t; ptr_of FDecl t; ptr_of FExpr t] (Ok (str_of FEmptyLine t))
  (* lambda.go:43-58 *)
  | KLambda =>
      c ← match ptr_of FComment t with Some c => fmt c | None => Ok [] end;
      l ← fmt_all (list_of FParameters t); e ← fmt_of (emb_of FExpr t);
      Ok (c ++ chars "(" ++ join (chars ", ") l ++ chars ") => " ++ e)
  (* type.go:45-60 *)
  | KType =>
      s ← match ptr_of FEnum t, ptr_of FObject t with
          | Some c, _ => s ← fmt c; Ok (chars "enum {" ++ tabbed s)
          | None, Some c => s ← fmt c; Ok (chars "object {" ++ tabbed s)
          | None, None => Panic
          end;
      Ok (chars "type " ++ str_of FLabel t ++ chars " " ++ s ++ [lf] ++ chars "}")
  | KTypeEnum => format_aligned FValue t
  | KTypeObject => format_aligned FType t
  | KTypeEnumItem => format_entry FValue t
  | KTypeObjectItem => format_entry FType t
  (* block.go:37-63 *)
  | KBlock =>
      if decide (str_of FName t = []) then Ok [] else
      b ← fmt_all (list_of FBody t);
      Ok (str_of FName t ++ concat (map (λ s, chars " """ ++ s ++ chars """") (strs_of FLabels t)) ++
          match b with
          | [] => chars " {}"
          | _ => chars " {" ++ [lf] ++ concat (map tabbed b) ++ [lf] ++ chars "}"
          end)
  (* block.go:107-123 *)
  | KBlockItem =>
      c ← match ptr_of FComment t with Some c => fmt c | None => Ok [] end;
      s ← first_set [ptr_of FBlock t; ptr_of FAttribute t] (Ok []);
      Ok (c ++ s)
  (* attribute.go:35-45 *)
  | KAttribute =>
      match ptr_of FValue t with
      | Some c => s ← fmt c; Ok (str_of FKey t ++ chars ": " ++ s)
      | None => Ok (str_of FKey t)
      end
  (* comment.go:29-41 *)
  | KComment =>
      Ok (if decide (str_of FMultiline t ≠ []) then str_of FMultiline t
          else concat (map (λ s, s ++ [lf]) (strs_of FSingleLine t)))
  (* ident.go:29-31 *)
  | KIdent => Ok (join (chars ".") (strs_of FParts t))
  (* value.go:84-114 *)
  | KValue =>
      if bool_of FNull t then Ok (chars "null")
      else first_set [ptr_of FBool t; ptr_of FNumber t; ptr_of FStr t; ptr_of FHeredoc t; ptr_of FList t; ptr_of FMap t] Panic
  (* value.go:148-150 *)
  | KValueBool => Ok (format_bool (bool_of FValue t))
  (* value.go:202-208 *)
  | KValueNumber =>
      if decide (str_of FSource t = []) then
        match get FValue t with Some (VFloat (Some (_, s))) => Ok (number_string (chars s)) | _ => Panic end
      else Ok (str_of FSource t)
  (* value.go:239-252, 281-291 *)
  | KHeredoc =>
      match format_delimiter (bool_of FLeadingTabs t, str_of FDelimiter t) with
      | Some d => l ← fmt_all (list_of FFragments t); Ok (chars "<<" ++ d ++ concat l ++ [lf] ++ str_of FDelimiter t)
      | None => Panic
      end
  (* value.go:326-337 *)
  | KHeredocFragment =>
      match ptr_of FExpr t, ptr_of FDirective t with
      | Some c, _ => s ← fmt c; Ok (chars "${ " ++ s ++ chars " }")
      | None, Some c => s ← fmt c; Ok (chars "%{ " ++ s ++ chars " }")
      | None, None => Ok (str_of FText t)
      end
  (* value.go:366-378 *)
  | KValueString => l ← fmt_all (list_of FFragment t); Ok (chars """" ++ concat l ++ chars """")
  (* value.go:417-432 *)
  | KStringFragment =>
      if decide (str_of FEscaped t ≠ []) then Ok (chars "\" ++ str_of FEscaped t)
      else if decide (str_of FUnicode t ≠ []) then Ok (chars "\u" ++ str_of FUnicode t)
      else match ptr_of FExpr t, ptr_of FDirective t with
      | Some c, _ => s ← fmt c; Ok (chars "${" ++ s ++ chars "}")
      | None, Some c => s ← fmt c; Ok (chars "%{" ++ s ++ chars "}")
      | None, None => Ok (str_of FText t)
      end
  (* value.go:461-476 *)
  | KValueList =>
      if decide (list_of FItems t = []) then Ok (chars "[]")
      else l ← fmt_all (list_of FItems t); Ok (chars "[" ++ [lf] ++ concat (map tabbed l) ++ chars "]")
  (* value.go:511-522 *)
  | KListItem =>
      if decide (str_of FEmptyLine t ≠ []) then Ok (str_of FEmptyLine t)
      else match ptr_of FComment t, ptr_of FValue t with
      | Some c, _ => fmt c
      | None, Some v => s ← fmt v; Ok (s ++ chars "," ++ [lf])
      | None, None => Panic
      end
  (* value.go:551-567 *)
  | KValueMap =>
      if decide (list_of FItems t = []) then Ok (chars "{}")
      else s ← format_pairs (list_of FItems t); Ok (chars "{" ++ [lf] ++ s ++ chars "}")
  (* value.go:609-620 *)
  | KMapItem =>
      if decide (str_of FEmptyLine t ≠ []) then Ok (str_of FEmptyLine t)
      else match ptr_of FComment t, ptr_of FKey t, ptr_of FValue t with
      | Some c, _, _ => fmt c
      | None, Some k, Some v => k ← fmt k; v ← fmt v; Ok (k ++ chars " = " ++ v)
      | None, _, _ => Panic
      end
  (* value.go:653-662 *)
  | KMapKey => first_set [ptr_of FIdent t; ptr_of FStr t] Panic
  (* expr.go:43-54 *)
  | KExpr => first_set [ptr_of FLeft t; ptr_of FIf t; ptr_of FSwitch t] Panic
  (* expr.go:93-103 *)
  | KExprIf =>
      c ← fmt_of (emb_of FCondition t);
      match ptr_of FLeft t, ptr_of FRight t with
      | None, _ => Ok (chars "if " ++ c ++ chars " { }")
      | Some l, None => l ← fmt l; Ok (chars "if " ++ c ++ braced l)
      | Some l, Some r => l ← fmt l; r ← fmt r; Ok (chars "if " ++ c ++ braced l ++ chars " else" ++ braced r)
      end
  (* expr.go:137-150 *)
  | KExprSwitch =>
      s ← fmt_of (emb_of FSelector t);
      if decide (list_of FCases t = []) then Ok (chars "switch " ++ s ++ chars " { }")
      else l ← fmt_all (list_of FCases t); Ok (chars "switch " ++ s ++ braced (join [lf] l))
  (* expr.go:187-203 *)
  | KExprCase =>
      if negb (nil_list FConditions t) then
        l ← fmt_all (list_of FConditions t); e ← fmt_of (ptr_of FExpr t);
        Ok (chars "case " ++ join (chars ", ") l ++ chars ":" ++ braced e)
      else if bool_of FDefault t then e ← fmt_of (ptr_of FExpr t); Ok (chars "default:" ++ braced e)
      else Panic
  (* expr.go:249-264 *)
  | KExprConditional =>
      c ← fmt_of (emb_of FCondition t);
      if bool_of FConditionOp t then
        a ← match ptr_of FTrueExpr t with Some e => fmt e | None => Ok (chars "null") end;
        b ← match ptr_of FFalseExpr t with Some e => fmt e | None => Ok (chars "null") end;
        Ok (c ++ chars " ? " ++ a ++ chars " : " ++ b)
      else Ok c
  | KExprLogicalOr | KExprLogicalAnd | KExprBitwiseOr | KExprBitwiseXor | KExprBitwiseAnd | KExprEquality
  | KExprRelational | KExprShift | KExprAdditive | KExprMultiplicative => format_binary t
  (* expr.go:743-745 *)
  | KExprUnary => s ← fmt_of (emb_of FRight t); Ok (str_of FOp t ++ s)
  (* expr.go:780-793 *)
  | KExprPostfix =>
      v ← fmt_of (emb_of FValue t);
      i ← match ptr_of FIndex t with Some e => s ← fmt e; Ok (chars "[" ++ s ++ chars "]") | None => Ok [] end;
      p ← match ptr_of FPost t with Some e => s ← fmt e; Ok (chars "." ++ s) | None => Ok [] end;
      Ok (v ++ i ++ p)
  (* expr.go:846-877 *)
  | KExprPrimary =>
      match ptr_of FSubExpression t, ptr_of FValue t, ptr_of FIdent t with
      | Some e, _, _ => fmt e
      | None, Some v, _ => fmt v
      | None, None, None => Panic
      | None, None, Some i =>
          s ← fmt i;
          l ← fmt_all (list_of FMonads t);
          p ← match ptr_of FPost t with Some e => s ← fmt e; Ok (chars "." ++ s) | None => Ok [] end;
          Ok (s ++ concat (map (λ a, chars "(" ++ a ++ chars ")") l) ++ p)
      end
  (* expr.go:906-913 *)
  | KExprInvocationParams => l ← fmt_all (list_of FValues t); Ok (join (chars ", ") l)
  end.
End format.

(** [n] bounds the depth. *)
Fixpoint format_fuel (n : nat) (t : ast) : res text :=
  match n with 0 => OutOfFuel | S n => format_node (format_fuel n) t end.
Definition format (t : ast) : res text := format_fuel (length (nodes t)) t.
