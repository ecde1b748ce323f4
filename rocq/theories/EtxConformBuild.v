(** * BuildTestExprTree against TestBuildTestExprTree

    Generated from the table in /repo/pkg/etx/utils_test.go:244-827: the name of a case, the
    input and what the test expects. *)
From stdpp Require Import base list option strings.
From Verif Require Import GoBase EtxAst EtxHeap EtxHeapSpec EtxBuild.

Definition at1 : pos := Pos "" 1 2 3.
(** A struct literal: what is not mentioned is zero, without a position. *)
Definition lit (p : pos) (k : kind) (gs : list (fld * val pos unit)) : ast :=
  T p k (foldl (λ fs g, set_field g.1 g.2 fs) (fields (zero no_pos k)) gs).
Definition build_cases : list (string * ptr (A:=pos) (B:=unit) * res (ptr (A:=pos) (B:=unit))) := [
("Expr", (KExpr, Some (lit at1 KExpr [])), Ok (KExpr, Some (lit at1 KExpr [])));
("ExprConditional", (KExprConditional, Some (lit at1 KExprConditional [])), Ok (KExpr, Some (lit at1 KExpr [(FLeft, VPtr (Some (lit at1 KExprConditional [])))])));
("ExprLogicalOr", (KExprLogicalOr, Some (lit at1 KExprLogicalOr [])), Ok (KExpr, Some (lit at1 KExpr [(FLeft, VPtr (Some (lit at1 KExprConditional [(FCondition, VEmb (lit at1 KExprLogicalOr []))])))])));
("ExprLogicalAnd", (KExprLogicalAnd, Some (lit at1 KExprLogicalAnd [])), Ok (KExpr, Some (lit at1 KExpr [(FLeft, VPtr (Some (lit at1 KExprConditional [(FCondition, VEmb (lit at1 KExprLogicalOr [(FLeft, VEmb (lit at1 KExprLogicalAnd []))]))])))])));
("ExprBitwiseOr", (KExprBitwiseOr, Some (lit at1 KExprBitwiseOr [])), Ok (KExpr, Some (lit at1 KExpr [(FLeft, VPtr (Some (lit at1 KExprConditional [(FCondition, VEmb (lit at1 KExprLogicalOr [(FLeft, VEmb (lit at1 KExprLogicalAnd [(FLeft, VEmb (lit at1 KExprBitwiseOr []))]))]))])))])));
("ExprBitwiseXor", (KExprBitwiseXor, Some (lit at1 KExprBitwiseXor [])), Ok (KExpr, Some (lit at1 KExpr [(FLeft, VPtr (Some (lit at1 KExprConditional [(FCondition, VEmb (lit at1 KExprLogicalOr [(FLeft, VEmb (lit at1 KExprLogicalAnd [(FLeft, VEmb (lit at1 KExprBitwiseOr [(FLeft, VEmb (lit at1 KExprBitwiseXor []))]))]))]))])))])));
("ExprBitwiseAnd", (KExprBitwiseAnd, Some (lit at1 KExprBitwiseAnd [])), Ok (KExpr, Some (lit at1 KExpr [(FLeft, VPtr (Some (lit at1 KExprConditional [(FCondition, VEmb (lit at1 KExprLogicalOr [(FLeft, VEmb (lit at1 KExprLogicalAnd [(FLeft, VEmb (lit at1 KExprBitwiseOr [(FLeft, VEmb (lit at1 KExprBitwiseXor [(FLeft, VEmb (lit at1 KExprBitwiseAnd []))]))]))]))]))])))])));
("ExprEquality", (KExprEquality, Some (lit at1 KExprEquality [])), Ok (KExpr, Some (lit at1 KExpr [(FLeft, VPtr (Some (lit at1 KExprConditional [(FCondition, VEmb (lit at1 KExprLogicalOr [(FLeft, VEmb (lit at1 KExprLogicalAnd [(FLeft, VEmb (lit at1 KExprBitwiseOr [(FLeft, VEmb (lit at1 KExprBitwiseXor [(FLeft, VEmb (lit at1 KExprBitwiseAnd [(FLeft, VEmb (lit at1 KExprEquality []))]))]))]))]))]))])))])));
("ExprRelational", (KExprRelational, Some (lit at1 KExprRelational [])), Ok (KExpr, Some (lit at1 KExpr [(FLeft, VPtr (Some (lit at1 KExprConditional [(FCondition, VEmb (lit at1 KExprLogicalOr [(FLeft, VEmb (lit at1 KExprLogicalAnd [(FLeft, VEmb (lit at1 KExprBitwiseOr [(FLeft, VEmb (lit at1 KExprBitwiseXor [(FLeft, VEmb (lit at1 KExprBitwiseAnd [(FLeft, VEmb (lit at1 KExprEquality [(FLeft, VEmb (lit at1 KExprRelational []))]))]))]))]))]))]))])))])));
("ExprShift", (KExprShift, Some (lit at1 KExprShift [])), Ok (KExpr, Some (lit at1 KExpr [(FLeft, VPtr (Some (lit at1 KExprConditional [(FCondition, VEmb (lit at1 KExprLogicalOr [(FLeft, VEmb (lit at1 KExprLogicalAnd [(FLeft, VEmb (lit at1 KExprBitwiseOr [(FLeft, VEmb (lit at1 KExprBitwiseXor [(FLeft, VEmb (lit at1 KExprBitwiseAnd [(FLeft, VEmb (lit at1 KExprEquality [(FLeft, VEmb (lit at1 KExprRelational [(FLeft, VEmb (lit at1 KExprShift []))]))]))]))]))]))]))]))])))])));
("ExprAdditive", (KExprAdditive, Some (lit at1 KExprAdditive [])), Ok (KExpr, Some (lit at1 KExpr [(FLeft, VPtr (Some (lit at1 KExprConditional [(FCondition, VEmb (lit at1 KExprLogicalOr [(FLeft, VEmb (lit at1 KExprLogicalAnd [(FLeft, VEmb (lit at1 KExprBitwiseOr [(FLeft, VEmb (lit at1 KExprBitwiseXor [(FLeft, VEmb (lit at1 KExprBitwiseAnd [(FLeft, VEmb (lit at1 KExprEquality [(FLeft, VEmb (lit at1 KExprRelational [(FLeft, VEmb (lit at1 KExprShift [(FLeft, VEmb (lit at1 KExprAdditive []))]))]))]))]))]))]))]))]))])))])));
("ExprMultiplicative", (KExprMultiplicative, Some (lit at1 KExprMultiplicative [])), Ok (KExpr, Some (lit at1 KExpr [(FLeft, VPtr (Some (lit at1 KExprConditional [(FCondition, VEmb (lit at1 KExprLogicalOr [(FLeft, VEmb (lit at1 KExprLogicalAnd [(FLeft, VEmb (lit at1 KExprBitwiseOr [(FLeft, VEmb (lit at1 KExprBitwiseXor [(FLeft, VEmb (lit at1 KExprBitwiseAnd [(FLeft, VEmb (lit at1 KExprEquality [(FLeft, VEmb (lit at1 KExprRelational [(FLeft, VEmb (lit at1 KExprShift [(FLeft, VEmb (lit at1 KExprAdditive [(FLeft, VEmb (lit at1 KExprMultiplicative []))]))]))]))]))]))]))]))]))]))])))])));
("ExprUnary", (KExprUnary, Some (lit at1 KExprUnary [])), Ok (KExpr, Some (lit at1 KExpr [(FLeft, VPtr (Some (lit at1 KExprConditional [(FCondition, VEmb (lit at1 KExprLogicalOr [(FLeft, VEmb (lit at1 KExprLogicalAnd [(FLeft, VEmb (lit at1 KExprBitwiseOr [(FLeft, VEmb (lit at1 KExprBitwiseXor [(FLeft, VEmb (lit at1 KExprBitwiseAnd [(FLeft, VEmb (lit at1 KExprEquality [(FLeft, VEmb (lit at1 KExprRelational [(FLeft, VEmb (lit at1 KExprShift [(FLeft, VEmb (lit at1 KExprAdditive [(FLeft, VEmb (lit at1 KExprMultiplicative [(FLeft, VEmb (lit at1 KExprUnary []))]))]))]))]))]))]))]))]))]))]))])))])));
("ExprPostfix", (KExprPostfix, Some (lit at1 KExprPostfix [])), Ok (KExpr, Some (lit at1 KExpr [(FLeft, VPtr (Some (lit at1 KExprConditional [(FCondition, VEmb (lit at1 KExprLogicalOr [(FLeft, VEmb (lit at1 KExprLogicalAnd [(FLeft, VEmb (lit at1 KExprBitwiseOr [(FLeft, VEmb (lit at1 KExprBitwiseXor [(FLeft, VEmb (lit at1 KExprBitwiseAnd [(FLeft, VEmb (lit at1 KExprEquality [(FLeft, VEmb (lit at1 KExprRelational [(FLeft, VEmb (lit at1 KExprShift [(FLeft, VEmb (lit at1 KExprAdditive [(FLeft, VEmb (lit at1 KExprMultiplicative [(FLeft, VEmb (lit at1 KExprUnary [(FRight, VEmb (lit at1 KExprPostfix []))]))]))]))]))]))]))]))]))]))]))]))])))])));
("ExprPrimary", (KExprPrimary, Some (lit at1 KExprPrimary [])), Ok (KExpr, Some (lit at1 KExpr [(FLeft, VPtr (Some (lit at1 KExprConditional [(FCondition, VEmb (lit at1 KExprLogicalOr [(FLeft, VEmb (lit at1 KExprLogicalAnd [(FLeft, VEmb (lit at1 KExprBitwiseOr [(FLeft, VEmb (lit at1 KExprBitwiseXor [(FLeft, VEmb (lit at1 KExprBitwiseAnd [(FLeft, VEmb (lit at1 KExprEquality [(FLeft, VEmb (lit at1 KExprRelational [(FLeft, VEmb (lit at1 KExprShift [(FLeft, VEmb (lit at1 KExprAdditive [(FLeft, VEmb (lit at1 KExprMultiplicative [(FLeft, VEmb (lit at1 KExprUnary [(FRight, VEmb (lit at1 KExprPostfix [(FValue, VEmb (lit at1 KExprPrimary []))]))]))]))]))]))]))]))]))]))]))]))]))])))])));
("Ident", (KIdent, Some (lit at1 KIdent [])), Ok (KExpr, Some (lit at1 KExpr [(FLeft, VPtr (Some (lit at1 KExprConditional [(FCondition, VEmb (lit at1 KExprLogicalOr [(FLeft, VEmb (lit at1 KExprLogicalAnd [(FLeft, VEmb (lit at1 KExprBitwiseOr [(FLeft, VEmb (lit at1 KExprBitwiseXor [(FLeft, VEmb (lit at1 KExprBitwiseAnd [(FLeft, VEmb (lit at1 KExprEquality [(FLeft, VEmb (lit at1 KExprRelational [(FLeft, VEmb (lit at1 KExprShift [(FLeft, VEmb (lit at1 KExprAdditive [(FLeft, VEmb (lit at1 KExprMultiplicative [(FLeft, VEmb (lit at1 KExprUnary [(FRight, VEmb (lit at1 KExprPostfix [(FValue, VEmb (lit at1 KExprPrimary [(FIdent, VPtr (Some (lit at1 KIdent [])))]))]))]))]))]))]))]))]))]))]))]))]))]))])))])));
("Value", (KValue, Some (lit at1 KValue [])), Ok (KExpr, Some (lit at1 KExpr [(FLeft, VPtr (Some (lit at1 KExprConditional [(FCondition, VEmb (lit at1 KExprLogicalOr [(FLeft, VEmb (lit at1 KExprLogicalAnd [(FLeft, VEmb (lit at1 KExprBitwiseOr [(FLeft, VEmb (lit at1 KExprBitwiseXor [(FLeft, VEmb (lit at1 KExprBitwiseAnd [(FLeft, VEmb (lit at1 KExprEquality [(FLeft, VEmb (lit at1 KExprRelational [(FLeft, VEmb (lit at1 KExprShift [(FLeft, VEmb (lit at1 KExprAdditive [(FLeft, VEmb (lit at1 KExprMultiplicative [(FLeft, VEmb (lit at1 KExprUnary [(FRight, VEmb (lit at1 KExprPostfix [(FValue, VEmb (lit at1 KExprPrimary [(FValue, VPtr (Some (lit at1 KValue [])))]))]))]))]))]))]))]))]))]))]))]))]))]))])))])));
("Invalid type", (KValueString, Some (lit no_pos KValueString [])), Panic)].
Example build_tests_agree :
  length build_cases = 18 ∧ map (λ c, BuildTestExprTree (ToNode KExpr) c.1.2) build_cases = map snd build_cases.
Proof. vm_compute. split; reflexivity. Qed.
