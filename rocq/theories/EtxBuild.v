(** * BuildTestExprTree (utils.go:71-121)

    The value is a pointer to a node: its type and, unless it is nil, the tree it refers to.
    Other values, which have no place in an AST, are left out.  The trees are values here: in
    memory the new nodes refer to the parts of the given one. *)
From stdpp Require Import base list option strings.
From Verif Require Import GoBase EtxAst.

(** What the type parameter E can be: a pointer to a struct type of the AST, an interface that
    all nodes implement, or something else. *)
Inductive target : Type := ToNode (k : kind) | ToInterface | ToOther.
(** reflect.TypeOf(stopVal), utils.go:118-120: nil if E is an interface *)
Inductive stop : Type := StopAt (k : kind) | NoStop.

Section build.
Context {A B : Type}.
Definition ptr : Type := kind * option (tree A B).

(** utils.go:76; a type that is no pointer to a struct of the AST is never met *)
Definition stops (s : stop) (k : kind) : bool :=
  match s with StopAt k' => bool_decide (k = k') | NoStop => false end || bool_decide (k = KExpr).

(** utils.go:75-116.  [v.ASTNode] panics if v is nil. *)
Fixpoint build (n : nat) (s : stop) (v : ptr) : res ptr :=
  match n with
  | 0 => OutOfFuel
  | S n =>
      let '(k, o) := v in
      if stops s k then Ok v else
      match o with
      | None => Panic
      | Some t =>
          let into k f x := build n s (k, Some (node (ann t) k [(f, x)])) in
          match k with
          | KExprConditional => Ok (KExpr, Some (node (ann t) KExpr [(FLeft, VPtr (Some t))]))
          | KExprLogicalOr => into KExprConditional FCondition (VEmb t)
          | KExprLogicalAnd => into KExprLogicalOr FLeft (VEmb t)
          | KExprBitwiseOr => into KExprLogicalAnd FLeft (VEmb t)
          | KExprBitwiseXor => into KExprBitwiseOr FLeft (VEmb t)
          | KExprBitwiseAnd => into KExprBitwiseXor FLeft (VEmb t)
          | KExprEquality => into KExprBitwiseAnd FLeft (VEmb t)
          | KExprRelational => into KExprEquality FLeft (VEmb t)
          | KExprShift => into KExprRelational FLeft (VEmb t)
          | KExprAdditive => into KExprShift FLeft (VEmb t)
          | KExprMultiplicative => into KExprAdditive FLeft (VEmb t)
          | KExprUnary => into KExprMultiplicative FLeft (VEmb t)
          | KExprPostfix => into KExprUnary FRight (VEmb t)
          | KExprPrimary => into KExprPostfix FValue (VEmb t)
          | KIdent => into KExprPrimary FIdent (VPtr (Some t))
          | KValue => into KExprPrimary FValue (VPtr (Some t))
          | _ => Panic
          end
      end
  end.
(** utils.go:118-120: the result must have the type E *)
Definition BuildTestExprTree (e : target) (v : ptr) : res ptr :=
  match build 17 match e with ToNode k => StopAt k | _ => NoStop end v with
  | Ok (k, o) =>
      match e with
      | ToNode k' => if decide (k = k') then Ok (k, o) else Panic
      | ToInterface => Ok (k, o)
      | ToOther => Panic
      end
  | Panic => Panic
  | OutOfFuel => OutOfFuel
  end.
End build.
