(** * BuildTestExprTree

    [consists_of t' t] (EtxBuildSpec.v): [t'] is at the place of [t], its operand, and no other
    field of it is set.  [wraps v t]: [t] is [v], or consists of something that wraps [v]. *)
From stdpp Require Import base list option strings.
From Coq Require Import Ascii.
From Verif Require Import GoBase EtxAst EtxHeap EtxHeapSpec EtxText EtxLex EtxLexExample EtxUtil EtxGram EtxParse EtxFormat
  EtxBuild EtxBuildSpec EtxBuildProofs EtxBuildParse.

(** The nodes of a kind in a file. *)
Definition expressions (k : kind) (s : text) : list ast :=
  match parse s with Ok (Some r) => filter (λ t, kind_of t = k) (nodes r) | _ => [] end.
Definition name (p : pos) : ast := node p KIdent [(FParts, VStrs (Some ((), ["a"; "b"])))].

(** The tree that consists of the value at the level that is asked for is the result; if there
    is none the call panics. *)
Theorem C86_the_level_asked_for A B k' (v : tree A B) :
  typed v = true →
  (∃ t, wraps v t ∧ kind_of t = k' ∧ (∀ t', wraps v t' → kind_of t' = k' → t' = t) ∧
     BuildTestExprTree (ToNode k') (kind_of v, Some v) = Ok (k', Some t)) ∨
  ((∀ t, wraps v t → kind_of t ≠ k') ∧ BuildTestExprTree (ToNode k') (kind_of v, Some v) = Panic).
Proof. exact (p86 A B k' v). Qed.
(** The name in val x = a.b, and the trees of it at three levels; there is none in a Decl. *)
Example C86_example :
  match expressions KIdent (chars "val x = a.b") with
  | [v] => typed v = true ∧ v = name (Pos "" 8 1 9) ∧
      BuildTestExprTree (ToNode KIdent) (KIdent, Some v) = Ok (KIdent, Some v) ∧
      BuildTestExprTree (ToNode KExprPrimary) (KIdent, Some v) =
        Ok (KExprPrimary, Some (node (ann v) KExprPrimary [(FIdent, VPtr (Some v))])) ∧
      BuildTestExprTree (ToNode KExpr) (KIdent, Some v) = Ok (KExpr, head (expressions KExpr (chars "val x = a.b"))) ∧
      BuildTestExprTree (ToNode KDecl) (KIdent, Some v) = Panic ∧
      BuildTestExprTree (ToNode KIdent) (KExprPrimary, Some (zero no_pos KExprPrimary)) = Panic (A:=ptr (A:=pos) (B:=unit))
  | _ => False
  end.
Proof. vm_compute. repeat split; reflexivity. Qed.
Print Assumptions C86_the_level_asked_for.

(** For an interface the result is an Expr. *)
Theorem C86_interface A B (v : ptr (A:=A) (B:=B)) :
  BuildTestExprTree ToInterface v = BuildTestExprTree (ToNode KExpr) v.
Proof. exact (p86_interface A B v). Qed.
Example C86_interface_example :
  match expressions KExprAdditive (chars "val x = a + b") with
  | v :: _ => match BuildTestExprTree ToInterface (KExprAdditive, Some v) with
      | Ok (k, Some t) => k = KExpr ∧ format t = Ok (chars "a + b")
      | _ => False end
  | _ => False
  end.
Proof. vm_compute. split; reflexivity. Qed.
Print Assumptions C86_interface.

(** A type that no result can have. *)
Theorem C86_other_types A B (v : ptr (A:=A) (B:=B)) :
  BuildTestExprTree ToOther v = Panic.
Proof. exact (p86_other A B v). Qed.
Example C86_other_example :
  BuildTestExprTree ToOther (KIdent, Some (name no_pos)) = Panic.
Proof. reflexivity. Qed.
Print Assumptions C86_other_types.

(** A nil pointer is returned if it has the type that is asked for. *)
Theorem C86_nil A B k k' :
  BuildTestExprTree (A:=A) (B:=B) (ToNode k') (k, None) = if decide (k = k') then Ok (k, None) else Panic.
Proof. exact (p86_nil A B k k'). Qed.
Example C86_nil_example :
  BuildTestExprTree (A:=pos) (B:=unit) (ToNode KValue) (KValue, None) = Ok (KValue, None) ∧
  BuildTestExprTree (A:=pos) (B:=unit) (ToNode KExpr) (KValue, None) = Panic.
Proof. split; reflexivity. Qed.
Print Assumptions C86_nil.

(** The text of the result is the text of the value. *)
Theorem C86_text (v t : ast) :
  typed v = true → wraps v t → format t = format v.
Proof. exact (p86_text v t). Qed.
Example C86_text_example :
  typed (name no_pos) = true ∧
  match BuildTestExprTree (ToNode KExprPostfix) (KIdent, Some (name no_pos)) with
  | Ok (_, Some t) => format t = Ok (chars "a.b") ∧ format t = format (name no_pos)
  | _ => False
  end.
Proof. vm_compute. repeat split; reflexivity. Qed.
Print Assumptions C86_text.

(** The parser builds the same trees: if nothing but the operand is set in an expression of a
    parsed file, it is what BuildTestExprTree makes of the operand. *)
Theorem C86_what_the_parser_builds s r t c f :
  parse s = Ok (Some r) → t ∈ nodes r → operand_field (kind_of t) f = true →
  (get f t = Some (VPtr (Some c)) ∨ get f t = Some (VEmb c)) →
  (∀ f' x, f' ≠ f → get f' t = Some x → unset x) →
  BuildTestExprTree (ToNode (kind_of t)) (kind_of c, Some c) = Ok (kind_of t, Some t).
Proof. exact (p86_parser s r t c f). Qed.
(** In val x = 2 * -a the operand of the sign is not in the place of the sign. *)
Example C86_parser_example :
  match expressions KExprUnary (chars "val x = 2 * -a") with
  | [u; w] =>
      str_of FOp u = [] ∧ str_of FOp w = chars "-" ∧
      match get FRight u, get FRight w with
      | Some (VEmb c), Some (VEmb d) =>
          BuildTestExprTree (ToNode KExprUnary) (KExprPostfix, Some c) = Ok (KExprUnary, Some u) ∧
          (offset (ann w), offset (ann d)) = (12, 13)
      | _, _ => False
      end
  | _ => False
  end.
Proof. vm_compute. repeat split; reflexivity. Qed.
Print Assumptions C86_what_the_parser_builds.
