(** * The parser against the tests of pkg/etx

    Generated from the test tables of /repo/pkg/etx/*_test.go: the name of a case, whether the
    test compares positions, the struct that is parsed, the input and the tree it expects
    (None: an error).  Left out are TestNumber_Parsing and
    TestComment_Parsing, which parse a struct of the test, and most of parser_test.go, which
    computes what it expects.  The contents of numbers are not compared. *)
From stdpp Require Import base list option strings.
From Coq Require Import Ascii.
From Verif Require Import GoBase EtxAst EtxHeap EtxHeapSpec EtxText EtxLex EtxUtil EtxGram EtxParse.
Global Instance pos_dec : EqDecision EtxHeap.pos. Proof. solve_decision. Defined.
Fixpoint teq (pos : bool) (n : nat) (a b : ast) : bool := match n with 0 => false | S n =>
  bool_decide (kind_of a = kind_of b) && (negb pos || bool_decide (ann a = ann b) || bool_decide (kind_of a = KValueNumber)) &&
  if decide (kind_of a = KValueNumber) then true else
  (fix go (x y : list (fld * aval)) := match x, y with [], [] => true | (f,v) :: x, (g,w) :: y => bool_decide (f = g) && veq pos n v w && go x y | _, _ => false end) (fields a) (fields b) end
with veq (pos : bool) (n : nat) (v w : aval) : bool := match n with 0 => false | S n => match v, w with
  | VStr s, VStr s' => bool_decide (s = s') | VBool b, VBool b' => bool_decide (b = b') | VStrs None, VStrs None => true
  | VStrs (Some (_, l)), VStrs (Some (_, l')) => bool_decide (l = l') | VFloat _, VFloat _ => true
  | VPtr None, VPtr None => true | VPtr (Some t), VPtr (Some t') => teq pos n t t' | VEmb t, VEmb t' => teq pos n t t'
  | VList None, VList None => true | VList (Some (_, l)), VList (Some (_, l')) =>
    (fix go x y := match x, y with [], [] => true | Some a :: x, Some b :: y => teq pos n a b && go x y | _, _ => false end) l l' | _, _ => false end end.
Definition pk (k : kind) (s : string) : res (option ast) := match lex "" (chars s) with
  | Ok (Lexed ts _) => match parse_struct (advance (start_pos "") (chars s)) (struct_fuel (elide ts)) k (elide ts) with PNode t [] => Ok (Some t) | PCrash => Panic | PNoFuel => OutOfFuel | _ => Ok None end
  | Ok _ => Ok None | Panic => Panic | OutOfFuel => OutOfFuel end.
Definition nd (p : EtxHeap.pos) (k : kind) (gs : list (fld * aval)) : ast := match node no_pos k gs with T _ k fs => T p k fs end.
Definition same (pos : bool) (k : kind) (s : string) (o : option ast) : bool := match pk k s, o with Ok (Some t), Some w => teq pos 2000 t w | Ok None, None => true | _, _ => false end.
Definition cases : list (string * bool) := [
("TestAST_Parsing/One Attribute - no value", same false KAST "foo" (Some (nd no_pos KAST [(FItems, VList (Some (tt, [Some (nd no_pos KRootItem [(FAttribute, VPtr (Some (nd no_pos KAttribute [(FKey, VStr "foo")])))])])))])));
("TestAST_Parsing/One Attribute - set value", same false KAST "foo = 1" (Some (nd no_pos KAST [(FItems, VList (Some (tt, [Some (nd no_pos KRootItem [(FAttribute, VPtr (Some (nd no_pos KAttribute [(FKey, VStr "foo"); (FValue, VPtr (Some (nd no_pos KExpr [(FLeft, VPtr (Some (nd no_pos KExprConditional [(FCondition, VEmb (nd no_pos KExprLogicalOr [(FLeft, VEmb (nd no_pos KExprLogicalAnd [(FLeft, VEmb (nd no_pos KExprBitwiseOr [(FLeft, VEmb (nd no_pos KExprBitwiseXor [(FLeft, VEmb (nd no_pos KExprBitwiseAnd [(FLeft, VEmb (nd no_pos KExprEquality [(FLeft, VEmb (nd no_pos KExprRelational [(FLeft, VEmb (nd no_pos KExprShift [(FLeft, VEmb (nd no_pos KExprAdditive [(FLeft, VEmb (nd no_pos KExprMultiplicative [(FLeft, VEmb (nd no_pos KExprUnary [(FRight, VEmb (nd no_pos KExprPostfix [(FValue, VEmb (nd no_pos KExprPrimary [(FValue, VPtr (Some (nd no_pos KValue [(FNumber, VPtr (Some (nd no_pos KValueNumber [(FValue, VFloat (Some (tt, "1"))); (FSource, VStr "1")])))])))]))]))]))]))]))]))]))]))]))]))]))]))]))])))])))])))])])))])));
("TestAST_Parsing/Two Attributes - no value", same false KAST ("foo" +:+ (String "010" "") +:+ "bar") (Some (nd no_pos KAST [(FItems, VList (Some (tt, [Some (nd no_pos KRootItem [(FAttribute, VPtr (Some (nd no_pos KAttribute [(FKey, VStr "foo")])))]); Some (nd no_pos KRootItem [(FAttribute, VPtr (Some (nd no_pos KAttribute [(FKey, VStr "bar")])))])])))])));
("TestAST_Parsing/Two Attributes - set values", same false KAST ("foo = 1" +:+ (String "010" "") +:+ "bar = 2") (Some (nd no_pos KAST [(FItems, VList (Some (tt, [Some (nd no_pos KRootItem [(FAttribute, VPtr (Some (nd no_pos KAttribute [(FKey, VStr "foo"); (FValue, VPtr (Some (nd no_pos KExpr [(FLeft, VPtr (Some (nd no_pos KExprConditional [(FCondition, VEmb (nd no_pos KExprLogicalOr [(FLeft, VEmb (nd no_pos KExprLogicalAnd [(FLeft, VEmb (nd no_pos KExprBitwiseOr [(FLeft, VEmb (nd no_pos KExprBitwiseXor [(FLeft, VEmb (nd no_pos KExprBitwiseAnd [(FLeft, VEmb (nd no_pos KExprEquality [(FLeft, VEmb (nd no_pos KExprRelational [(FLeft, VEmb (nd no_pos KExprShift [(FLeft, VEmb (nd no_pos KExprAdditive [(FLeft, VEmb (nd no_pos KExprMultiplicative [(FLeft, VEmb (nd no_pos KExprUnary [(FRight, VEmb (nd no_pos KExprPostfix [(FValue, VEmb (nd no_pos KExprPrimary [(FValue, VPtr (Some (nd no_pos KValue [(FNumber, VPtr (Some (nd no_pos KValueNumber [(FValue, VFloat (Some (tt, "1"))); (FSource, VStr "1")])))])))]))]))]))]))]))]))]))]))]))]))]))]))]))])))])))])))]); Some (nd no_pos KRootItem [(FAttribute, VPtr (Some (nd no_pos KAttribute [(FKey, VStr "bar"); (FValue, VPtr (Some (nd no_pos KExpr [(FLeft, VPtr (Some (nd no_pos KExprConditional [(FCondition, VEmb (nd no_pos KExprLogicalOr [(FLeft, VEmb (nd no_pos KExprLogicalAnd [(FLeft, VEmb (nd no_pos KExprBitwiseOr [(FLeft, VEmb (nd no_pos KExprBitwiseXor [(FLeft, VEmb (nd no_pos KExprBitwiseAnd [(FLeft, VEmb (nd no_pos KExprEquality [(FLeft, VEmb (nd no_pos KExprRelational [(FLeft, VEmb (nd no_pos KExprShift [(FLeft, VEmb (nd no_pos KExprAdditive [(FLeft, VEmb (nd no_pos KExprMultiplicative [(FLeft, VEmb (nd no_pos KExprUnary [(FRight, VEmb (nd no_pos KExprPostfix [(FValue, VEmb (nd no_pos KExprPrimary [(FValue, VPtr (Some (nd no_pos KValue [(FNumber, VPtr (Some (nd no_pos KValueNumber [(FValue, VFloat (Some (tt, "2"))); (FSource, VStr "2")])))])))]))]))]))]))]))]))]))]))]))]))]))]))]))])))])))])))])])))])));
("TestAST_Parsing/One Decl - set value", same false KAST "val foo = 1" (Some (nd no_pos KAST [(FItems, VList (Some (tt, [Some (nd no_pos KRootItem [(FDecl, VPtr (Some (nd no_pos KDecl [(FDeclType, VStr "val"); (FLabel, VStr "foo"); (FType, VPtr None); (FValue, VPtr (Some (nd no_pos KExpr [(FLeft, VPtr (Some (nd no_pos KExprConditional [(FCondition, VEmb (nd no_pos KExprLogicalOr [(FLeft, VEmb (nd no_pos KExprLogicalAnd [(FLeft, VEmb (nd no_pos KExprBitwiseOr [(FLeft, VEmb (nd no_pos KExprBitwiseXor [(FLeft, VEmb (nd no_pos KExprBitwiseAnd [(FLeft, VEmb (nd no_pos KExprEquality [(FLeft, VEmb (nd no_pos KExprRelational [(FLeft, VEmb (nd no_pos KExprShift [(FLeft, VEmb (nd no_pos KExprAdditive [(FLeft, VEmb (nd no_pos KExprMultiplicative [(FLeft, VEmb (nd no_pos KExprUnary [(FRight, VEmb (nd no_pos KExprPostfix [(FValue, VEmb (nd no_pos KExprPrimary [(FValue, VPtr (Some (nd no_pos KValue [(FNumber, VPtr (Some (nd no_pos KValueNumber [(FValue, VFloat (Some (tt, "1"))); (FSource, VStr "1")])))])))]))]))]))]))]))]))]))]))]))]))]))]))]))])))])))])))])])))])));
("TestAST_Parsing/One Attribute and One Decl", same false KAST ("foo = 1" +:+ (String "010" "") +:+ "val bar = 2") (Some (nd no_pos KAST [(FItems, VList (Some (tt, [Some (nd no_pos KRootItem [(FAttribute, VPtr (Some (nd no_pos KAttribute [(FKey, VStr "foo"); (FValue, VPtr (Some (nd no_pos KExpr [(FLeft, VPtr (Some (nd no_pos KExprConditional [(FCondition, VEmb (nd no_pos KExprLogicalOr [(FLeft, VEmb (nd no_pos KExprLogicalAnd [(FLeft, VEmb (nd no_pos KExprBitwiseOr [(FLeft, VEmb (nd no_pos KExprBitwiseXor [(FLeft, VEmb (nd no_pos KExprBitwiseAnd [(FLeft, VEmb (nd no_pos KExprEquality [(FLeft, VEmb (nd no_pos KExprRelational [(FLeft, VEmb (nd no_pos KExprShift [(FLeft, VEmb (nd no_pos KExprAdditive [(FLeft, VEmb (nd no_pos KExprMultiplicative [(FLeft, VEmb (nd no_pos KExprUnary [(FRight, VEmb (nd no_pos KExprPostfix [(FValue, VEmb (nd no_pos KExprPrimary [(FValue, VPtr (Some (nd no_pos KValue [(FNumber, VPtr (Some (nd no_pos KValueNumber [(FValue, VFloat (Some (tt, "1"))); (FSource, VStr "1")])))])))]))]))]))]))]))]))]))]))]))]))]))]))]))])))])))])))]); Some (nd no_pos KRootItem [(FDecl, VPtr (Some (nd no_pos KDecl [(FDeclType, VStr "val"); (FLabel, VStr "bar"); (FType, VPtr None); (FValue, VPtr (Some (nd no_pos KExpr [(FLeft, VPtr (Some (nd no_pos KExprConditional [(FCondition, VEmb (nd no_pos KExprLogicalOr [(FLeft, VEmb (nd no_pos KExprLogicalAnd [(FLeft, VEmb (nd no_pos KExprBitwiseOr [(FLeft, VEmb (nd no_pos KExprBitwiseXor [(FLeft, VEmb (nd no_pos KExprBitwiseAnd [(FLeft, VEmb (nd no_pos KExprEquality [(FLeft, VEmb (nd no_pos KExprRelational [(FLeft, VEmb (nd no_pos KExprShift [(FLeft, VEmb (nd no_pos KExprAdditive [(FLeft, VEmb (nd no_pos KExprMultiplicative [(FLeft, VEmb (nd no_pos KExprUnary [(FRight, VEmb (nd no_pos KExprPostfix [(FValue, VEmb (nd no_pos KExprPrimary [(FValue, VPtr (Some (nd no_pos KValue [(FNumber, VPtr (Some (nd no_pos KValueNumber [(FValue, VFloat (Some (tt, "2"))); (FSource, VStr "2")])))])))]))]))]))]))]))]))]))]))]))]))]))]))]))])))])))])))])])))])));
("TestAST_Parsing/One Decl - set value", same false KAST "val foo = 1" (Some (nd no_pos KAST [(FItems, VList (Some (tt, [Some (nd no_pos KRootItem [(FDecl, VPtr (Some (nd no_pos KDecl [(FDeclType, VStr "val"); (FLabel, VStr "foo"); (FType, VPtr None); (FValue, VPtr (Some (nd no_pos KExpr [(FLeft, VPtr (Some (nd no_pos KExprConditional [(FCondition, VEmb (nd no_pos KExprLogicalOr [(FLeft, VEmb (nd no_pos KExprLogicalAnd [(FLeft, VEmb (nd no_pos KExprBitwiseOr [(FLeft, VEmb (nd no_pos KExprBitwiseXor [(FLeft, VEmb (nd no_pos KExprBitwiseAnd [(FLeft, VEmb (nd no_pos KExprEquality [(FLeft, VEmb (nd no_pos KExprRelational [(FLeft, VEmb (nd no_pos KExprShift [(FLeft, VEmb (nd no_pos KExprAdditive [(FLeft, VEmb (nd no_pos KExprMultiplicative [(FLeft, VEmb (nd no_pos KExprUnary [(FRight, VEmb (nd no_pos KExprPostfix [(FValue, VEmb (nd no_pos KExprPrimary [(FValue, VPtr (Some (nd no_pos KValue [(FNumber, VPtr (Some (nd no_pos KValueNumber [(FValue, VFloat (Some (tt, "1"))); (FSource, VStr "1")])))])))]))]))]))]))]))]))]))]))]))]))]))]))]))])))])))])))])])))])));
("TestAST_Parsing/One empty Func", same false KAST "def foo() {}" (Some (nd no_pos KAST [(FItems, VList (Some (tt, [Some (nd no_pos KRootItem [(FFunc, VPtr (Some (nd no_pos KFunc [(FLabel, VStr "foo")])))])])))])));
("TestAST_Parsing/Separated comments", same false KAST ((String "010" "") +:+ "// foo" +:+ (String "010" "") +:+ (String "010" "") +:+ "// bar" +:+ (String "010" "") +:+ (String "010" "")) (Some (nd no_pos KAST [(FItems, VList (Some (tt, [Some (nd no_pos KRootItem [(FEmptyLine, VStr ((String "010" "")))]); Some (nd no_pos KRootItem [(FComment, VPtr (Some (nd no_pos KComment [(FSingleLine, VStrs (Some (tt, ["// foo"])))])))]); Some (nd no_pos KRootItem [(FEmptyLine, VStr ((String "010" "")))]); Some (nd no_pos KRootItem [(FComment, VPtr (Some (nd no_pos KComment [(FSingleLine, VStrs (Some (tt, ["// bar"])))])))]); Some (nd no_pos KRootItem [(FEmptyLine, VStr ((String "010" "")))])])))])));
("TestAST_Parsing/Empty lines", same false KAST ((String "010" "") +:+ (String "010" "")) (Some (nd no_pos KAST [(FItems, VList (Some (tt, [Some (nd no_pos KRootItem [(FEmptyLine, VStr ((String "010" "") +:+ (String "010" "")))])])))])));
("TestRootItem_Parsing/Decl", same true KRootItem "val foo" (Some (nd (Pos "" 0 1 1) KRootItem [(FDecl, VPtr (Some (nd (Pos "" 0 1 1) KDecl [(FDeclType, VStr "val"); (FLabel, VStr "foo")])))])));
("TestRootItem_Parsing/Func", same true KRootItem "def foo() {}" (Some (nd (Pos "" 0 1 1) KRootItem [(FFunc, VPtr (Some (nd (Pos "" 0 1 1) KFunc [(FLabel, VStr "foo")])))])));
("TestRootItem_Parsing/Type", same true KRootItem "type foo object {}" (Some (nd (Pos "" 0 1 1) KRootItem [(FType, VPtr (Some (nd (Pos "" 0 1 1) KType [(FLabel, VStr "foo"); (FObject, VPtr (Some (nd (Pos "" 17 1 18) KTypeObject [])))])))])));
("TestRootItem_Parsing/Block", same true KRootItem "foo {}" (Some (nd (Pos "" 0 1 1) KRootItem [(FBlock, VPtr (Some (nd (Pos "" 0 1 1) KBlock [(FName, VStr "foo")])))])));
("TestRootItem_Parsing/Attribute", same true KRootItem "foo = 1" (Some (nd (Pos "" 0 1 1) KRootItem [(FAttribute, VPtr (Some (nd (Pos "" 0 1 1) KAttribute [(FKey, VStr "foo"); (FValue, VPtr (Some (nd (Pos "" 6 1 7) KExpr [(FLeft, VPtr (Some (nd (Pos "" 6 1 7) KExprConditional [(FCondition, VEmb (nd (Pos "" 6 1 7) KExprLogicalOr [(FLeft, VEmb (nd (Pos "" 6 1 7) KExprLogicalAnd [(FLeft, VEmb (nd (Pos "" 6 1 7) KExprBitwiseOr [(FLeft, VEmb (nd (Pos "" 6 1 7) KExprBitwiseXor [(FLeft, VEmb (nd (Pos "" 6 1 7) KExprBitwiseAnd [(FLeft, VEmb (nd (Pos "" 6 1 7) KExprEquality [(FLeft, VEmb (nd (Pos "" 6 1 7) KExprRelational [(FLeft, VEmb (nd (Pos "" 6 1 7) KExprShift [(FLeft, VEmb (nd (Pos "" 6 1 7) KExprAdditive [(FLeft, VEmb (nd (Pos "" 6 1 7) KExprMultiplicative [(FLeft, VEmb (nd (Pos "" 6 1 7) KExprUnary [(FRight, VEmb (nd (Pos "" 6 1 7) KExprPostfix [(FValue, VEmb (nd (Pos "" 6 1 7) KExprPrimary [(FValue, VPtr (Some (nd (Pos "" 6 1 7) KValue [(FNumber, VPtr (Some (nd (Pos "" 6 1 7) KValueNumber [(FValue, VFloat (Some (tt, "1"))); (FSource, VStr "1")])))])))]))]))]))]))]))]))]))]))]))]))]))]))]))])))])))])))])));
("TestRootItem_Parsing/Single-line Comment", same true KRootItem "// foo" (Some (nd (Pos "" 0 1 1) KRootItem [(FComment, VPtr (Some (nd (Pos "" 0 1 1) KComment [(FSingleLine, VStrs (Some (tt, ["// foo"])))])))])));
("TestRootItem_Parsing/EmptyLine", same true KRootItem ((String "010" "")) (Some (nd (Pos "" 0 1 1) KRootItem [(FEmptyLine, VStr ((String "010" "")))])));
("TestParameterType_Parsing/Ident", same true KParameterType "foo" (Some (nd (Pos "" 0 1 1) KParameterType [(FIdent, VPtr (Some (nd (Pos "" 0 1 1) KIdent [(FParts, VStrs (Some (tt, ["foo"])))])))])));
("TestParameterType_Parsing/Func", same true KParameterType "() -> number" (Some (nd (Pos "" 0 1 1) KParameterType [(FFunc, VPtr (Some (nd (Pos "" 0 1 1) KFuncSignature [(FReturn, VEmb (nd (Pos "" 6 1 7) KParameterType [(FIdent, VPtr (Some (nd (Pos "" 6 1 7) KIdent [(FParts, VStrs (Some (tt, ["number"])))])))]))])))])));
("TestFuncSignature_Parsing/no parameters", same true KFuncSignature "() -> number" (Some (nd (Pos "" 0 1 1) KFuncSignature [(FReturn, VEmb (nd (Pos "" 6 1 7) KParameterType [(FIdent, VPtr (Some (nd (Pos "" 6 1 7) KIdent [(FParts, VStrs (Some (tt, ["number"])))])))]))])));
("TestFuncSignature_Parsing/one parameter", same true KFuncSignature "(bool) -> number" (Some (nd (Pos "" 0 1 1) KFuncSignature [(FParameters, VList (Some (tt, [Some (nd (Pos "" 1 1 2) KParameterType [(FIdent, VPtr (Some (nd (Pos "" 1 1 2) KIdent [(FParts, VStrs (Some (tt, ["bool"])))])))])]))); (FReturn, VEmb (nd (Pos "" 10 1 11) KParameterType [(FIdent, VPtr (Some (nd (Pos "" 10 1 11) KIdent [(FParts, VStrs (Some (tt, ["number"])))])))]))])));
("TestAttribute_Parsing/Key only", same true KAttribute "foo" (Some (nd (Pos "" 0 1 1) KAttribute [(FKey, VStr "foo")])));
("TestAttribute_Parsing/Key and value", same true KAttribute "foo = 1" (Some (nd (Pos "" 0 1 1) KAttribute [(FKey, VStr "foo"); (FValue, VPtr (Some (nd (Pos "" 6 1 7) KExpr [(FLeft, VPtr (Some (nd (Pos "" 6 1 7) KExprConditional [(FCondition, VEmb (nd (Pos "" 6 1 7) KExprLogicalOr [(FLeft, VEmb (nd (Pos "" 6 1 7) KExprLogicalAnd [(FLeft, VEmb (nd (Pos "" 6 1 7) KExprBitwiseOr [(FLeft, VEmb (nd (Pos "" 6 1 7) KExprBitwiseXor [(FLeft, VEmb (nd (Pos "" 6 1 7) KExprBitwiseAnd [(FLeft, VEmb (nd (Pos "" 6 1 7) KExprEquality [(FLeft, VEmb (nd (Pos "" 6 1 7) KExprRelational [(FLeft, VEmb (nd (Pos "" 6 1 7) KExprShift [(FLeft, VEmb (nd (Pos "" 6 1 7) KExprAdditive [(FLeft, VEmb (nd (Pos "" 6 1 7) KExprMultiplicative [(FLeft, VEmb (nd (Pos "" 6 1 7) KExprUnary [(FRight, VEmb (nd (Pos "" 6 1 7) KExprPostfix [(FValue, VEmb (nd (Pos "" 6 1 7) KExprPrimary [(FValue, VPtr (Some (nd (Pos "" 6 1 7) KValue [(FNumber, VPtr (Some (nd (Pos "" 6 1 7) KValueNumber [(FValue, VFloat (Some (tt, "1"))); (FSource, VStr "1")])))])))]))]))]))]))]))]))]))]))]))]))]))]))]))])))])))])));
("TestBlock_Parsing/no labels - no body", same true KBlock "foo { }" (Some (nd (Pos "" 0 1 1) KBlock [(FName, VStr "foo")])));
("TestBlock_Parsing/one label (ident) - no body", same true KBlock "foo bar { }" (Some (nd (Pos "" 0 1 1) KBlock [(FName, VStr "foo"); (FLabels, VStrs (Some (tt, ["bar"])))])));
("TestBlock_Parsing/two labels (ident) - no body", same true KBlock "foo bar baz { }" (Some (nd (Pos "" 0 1 1) KBlock [(FName, VStr "foo"); (FLabels, VStrs (Some (tt, ["bar"; "baz"])))])));
("TestBlock_Parsing/one label (string) - no body", same true KBlock "foo 'bar' { }" (Some (nd (Pos "" 0 1 1) KBlock [(FName, VStr "foo"); (FLabels, VStrs (Some (tt, ["bar"])))])));
("TestBlock_Parsing/two labels (string) - no body", same true KBlock "foo ""bar"" ""baz""{ }" (Some (nd (Pos "" 0 1 1) KBlock [(FName, VStr "foo"); (FLabels, VStrs (Some (tt, ["bar"; "baz"])))])));
("TestBlock_Parsing/no labels - body", same true KBlock ("foo {" +:+ (String "010" "") +:+ (String "009" "") +:+ "bar" +:+ (String "010" "") +:+ "}") (Some (nd (Pos "" 0 1 1) KBlock [(FName, VStr "foo"); (FBody, VList (Some (tt, [Some (nd (Pos "" 7 2 2) KBlockItem [(FAttribute, VPtr (Some (nd (Pos "" 7 2 2) KAttribute [(FKey, VStr "bar")])))])])))])));
("TestBlock_Parsing/no labels - body - two attributes", same true KBlock ("foo {" +:+ (String "010" "") +:+ (String "009" "") +:+ "bar" +:+ (String "010" "") +:+ (String "009" "") +:+ "baz" +:+ (String "010" "") +:+ "}") (Some (nd (Pos "" 0 1 1) KBlock [(FName, VStr "foo"); (FBody, VList (Some (tt, [Some (nd (Pos "" 7 2 2) KBlockItem [(FAttribute, VPtr (Some (nd (Pos "" 7 2 2) KAttribute [(FKey, VStr "bar")])))]); Some (nd (Pos "" 12 3 2) KBlockItem [(FAttribute, VPtr (Some (nd (Pos "" 12 3 2) KAttribute [(FKey, VStr "baz")])))])])))])));
("TestBlock_Parsing/no labels - two separated attributes", same true KBlock ("foo {" +:+ (String "010" "") +:+ (String "009" "") +:+ "bar" +:+ (String "010" "") +:+ (String "010" "") +:+ (String "009" "") +:+ "baz" +:+ (String "010" "") +:+ "}") (Some (nd (Pos "" 0 1 1) KBlock [(FName, VStr "foo"); (FBody, VList (Some (tt, [Some (nd (Pos "" 7 2 2) KBlockItem [(FAttribute, VPtr (Some (nd (Pos "" 7 2 2) KAttribute [(FKey, VStr "bar")])))]); Some (nd (Pos "" 11 3 1) KBlockItem [(FEmptyLine, VStr ((String "010" "")))]); Some (nd (Pos "" 13 4 2) KBlockItem [(FAttribute, VPtr (Some (nd (Pos "" 13 4 2) KAttribute [(FKey, VStr "baz")])))])])))])));
("TestBlock_Parsing/no labels - body - close on same line", same true KBlock ("foo {" +:+ (String "010" "") +:+ (String "009" "") +:+ "bar }") (Some (nd (Pos "" 0 1 1) KBlock [(FName, VStr "foo"); (FBody, VList (Some (tt, [Some (nd (Pos "" 7 2 2) KBlockItem [(FAttribute, VPtr (Some (nd (Pos "" 7 2 2) KAttribute [(FKey, VStr "bar")])))])])))])));
("TestBlock_Parsing/one label - body", same true KBlock ("foo bar {" +:+ (String "010" "") +:+ (String "009" "") +:+ "baz" +:+ (String "010" "") +:+ "}") (Some (nd (Pos "" 0 1 1) KBlock [(FName, VStr "foo"); (FLabels, VStrs (Some (tt, ["bar"]))); (FBody, VList (Some (tt, [Some (nd (Pos "" 11 2 2) KBlockItem [(FAttribute, VPtr (Some (nd (Pos "" 11 2 2) KAttribute [(FKey, VStr "baz")])))])])))])));
("TestBlockItem_Parsing/Block", same true KBlockItem "foo {}" (Some (nd (Pos "" 0 1 1) KBlockItem [(FBlock, VPtr (Some (nd (Pos "" 0 1 1) KBlock [(FName, VStr "foo")])))])));
("TestBlockItem_Parsing/Attribute", same true KBlockItem "foo" (Some (nd (Pos "" 0 1 1) KBlockItem [(FAttribute, VPtr (Some (nd (Pos "" 0 1 1) KAttribute [(FKey, VStr "foo")])))])));
("TestBlockItem_Parsing/Attribute with scalar", same true KBlockItem "foo = 1" (Some (nd (Pos "" 0 1 1) KBlockItem [(FAttribute, VPtr (Some (nd (Pos "" 0 1 1) KAttribute [(FKey, VStr "foo"); (FValue, VPtr (Some (nd (Pos "" 6 1 7) KExpr [(FLeft, VPtr (Some (nd (Pos "" 6 1 7) KExprConditional [(FCondition, VEmb (nd (Pos "" 6 1 7) KExprLogicalOr [(FLeft, VEmb (nd (Pos "" 6 1 7) KExprLogicalAnd [(FLeft, VEmb (nd (Pos "" 6 1 7) KExprBitwiseOr [(FLeft, VEmb (nd (Pos "" 6 1 7) KExprBitwiseXor [(FLeft, VEmb (nd (Pos "" 6 1 7) KExprBitwiseAnd [(FLeft, VEmb (nd (Pos "" 6 1 7) KExprEquality [(FLeft, VEmb (nd (Pos "" 6 1 7) KExprRelational [(FLeft, VEmb (nd (Pos "" 6 1 7) KExprShift [(FLeft, VEmb (nd (Pos "" 6 1 7) KExprAdditive [(FLeft, VEmb (nd (Pos "" 6 1 7) KExprMultiplicative [(FLeft, VEmb (nd (Pos "" 6 1 7) KExprUnary [(FRight, VEmb (nd (Pos "" 6 1 7) KExprPostfix [(FValue, VEmb (nd (Pos "" 6 1 7) KExprPrimary [(FValue, VPtr (Some (nd (Pos "" 6 1 7) KValue [(FNumber, VPtr (Some (nd (Pos "" 6 1 7) KValueNumber [(FValue, VFloat (Some (tt, "1"))); (FSource, VStr "1")])))])))]))]))]))]))]))]))]))]))]))]))]))]))]))])))])))])))])));
("TestBlockItem_Parsing/Attribute with list", same true KBlockItem "foo = [1, 2]" (Some (nd (Pos "" 0 1 1) KBlockItem [(FAttribute, VPtr (Some (nd (Pos "" 0 1 1) KAttribute [(FKey, VStr "foo"); (FValue, VPtr (Some (nd (Pos "" 6 1 7) KExpr [(FLeft, VPtr (Some (nd (Pos "" 6 1 7) KExprConditional [(FCondition, VEmb (nd (Pos "" 6 1 7) KExprLogicalOr [(FLeft, VEmb (nd (Pos "" 6 1 7) KExprLogicalAnd [(FLeft, VEmb (nd (Pos "" 6 1 7) KExprBitwiseOr [(FLeft, VEmb (nd (Pos "" 6 1 7) KExprBitwiseXor [(FLeft, VEmb (nd (Pos "" 6 1 7) KExprBitwiseAnd [(FLeft, VEmb (nd (Pos "" 6 1 7) KExprEquality [(FLeft, VEmb (nd (Pos "" 6 1 7) KExprRelational [(FLeft, VEmb (nd (Pos "" 6 1 7) KExprShift [(FLeft, VEmb (nd (Pos "" 6 1 7) KExprAdditive [(FLeft, VEmb (nd (Pos "" 6 1 7) KExprMultiplicative [(FLeft, VEmb (nd (Pos "" 6 1 7) KExprUnary [(FRight, VEmb (nd (Pos "" 6 1 7) KExprPostfix [(FValue, VEmb (nd (Pos "" 6 1 7) KExprPrimary [(FValue, VPtr (Some (nd (Pos "" 6 1 7) KValue [(FList, VPtr (Some (nd (Pos "" 6 1 7) KValueList [(FItems, VList (Some (tt, [Some (nd (Pos "" 7 1 8) KListItem [(FValue, VPtr (Some (nd (Pos "" 7 1 8) KExpr [(FLeft, VPtr (Some (nd (Pos "" 7 1 8) KExprConditional [(FCondition, VEmb (nd (Pos "" 7 1 8) KExprLogicalOr [(FLeft, VEmb (nd (Pos "" 7 1 8) KExprLogicalAnd [(FLeft, VEmb (nd (Pos "" 7 1 8) KExprBitwiseOr [(FLeft, VEmb (nd (Pos "" 7 1 8) KExprBitwiseXor [(FLeft, VEmb (nd (Pos "" 7 1 8) KExprBitwiseAnd [(FLeft, VEmb (nd (Pos "" 7 1 8) KExprEquality [(FLeft, VEmb (nd (Pos "" 7 1 8) KExprRelational [(FLeft, VEmb (nd (Pos "" 7 1 8) KExprShift [(FLeft, VEmb (nd (Pos "" 7 1 8) KExprAdditive [(FLeft, VEmb (nd (Pos "" 7 1 8) KExprMultiplicative [(FLeft, VEmb (nd (Pos "" 7 1 8) KExprUnary [(FRight, VEmb (nd (Pos "" 7 1 8) KExprPostfix [(FValue, VEmb (nd (Pos "" 7 1 8) KExprPrimary [(FValue, VPtr (Some (nd (Pos "" 7 1 8) KValue [(FNumber, VPtr (Some (nd (Pos "" 7 1 8) KValueNumber [(FValue, VFloat (Some (tt, "1"))); (FSource, VStr "1")])))])))]))]))]))]))]))]))]))]))]))]))]))]))]))])))])))]); Some (nd (Pos "" 10 1 11) KListItem [(FValue, VPtr (Some (nd (Pos "" 10 1 11) KExpr [(FLeft, VPtr (Some (nd (Pos "" 10 1 11) KExprConditional [(FCondition, VEmb (nd (Pos "" 10 1 11) KExprLogicalOr [(FLeft, VEmb (nd (Pos "" 10 1 11) KExprLogicalAnd [(FLeft, VEmb (nd (Pos "" 10 1 11) KExprBitwiseOr [(FLeft, VEmb (nd (Pos "" 10 1 11) KExprBitwiseXor [(FLeft, VEmb (nd (Pos "" 10 1 11) KExprBitwiseAnd [(FLeft, VEmb (nd (Pos "" 10 1 11) KExprEquality [(FLeft, VEmb (nd (Pos "" 10 1 11) KExprRelational [(FLeft, VEmb (nd (Pos "" 10 1 11) KExprShift [(FLeft, VEmb (nd (Pos "" 10 1 11) KExprAdditive [(FLeft, VEmb (nd (Pos "" 10 1 11) KExprMultiplicative [(FLeft, VEmb (nd (Pos "" 10 1 11) KExprUnary [(FRight, VEmb (nd (Pos "" 10 1 11) KExprPostfix [(FValue, VEmb (nd (Pos "" 10 1 11) KExprPrimary [(FValue, VPtr (Some (nd (Pos "" 10 1 11) KValue [(FNumber, VPtr (Some (nd (Pos "" 10 1 11) KValueNumber [(FValue, VFloat (Some (tt, "2"))); (FSource, VStr "2")])))])))]))]))]))]))]))]))]))]))]))]))]))]))]))])))])))])])))])))])))]))]))]))]))]))]))]))]))]))]))]))]))]))])))])))])))])));
("TestBlockItem_Parsing/Attribute with map", same true KBlockItem "foo = {""bar"" = 1}" (Some (nd (Pos "" 0 1 1) KBlockItem [(FAttribute, VPtr (Some (nd (Pos "" 0 1 1) KAttribute [(FKey, VStr "foo"); (FValue, VPtr (Some (nd (Pos "" 6 1 7) KExpr [(FLeft, VPtr (Some (nd (Pos "" 6 1 7) KExprConditional [(FCondition, VEmb (nd (Pos "" 6 1 7) KExprLogicalOr [(FLeft, VEmb (nd (Pos "" 6 1 7) KExprLogicalAnd [(FLeft, VEmb (nd (Pos "" 6 1 7) KExprBitwiseOr [(FLeft, VEmb (nd (Pos "" 6 1 7) KExprBitwiseXor [(FLeft, VEmb (nd (Pos "" 6 1 7) KExprBitwiseAnd [(FLeft, VEmb (nd (Pos "" 6 1 7) KExprEquality [(FLeft, VEmb (nd (Pos "" 6 1 7) KExprRelational [(FLeft, VEmb (nd (Pos "" 6 1 7) KExprShift [(FLeft, VEmb (nd (Pos "" 6 1 7) KExprAdditive [(FLeft, VEmb (nd (Pos "" 6 1 7) KExprMultiplicative [(FLeft, VEmb (nd (Pos "" 6 1 7) KExprUnary [(FRight, VEmb (nd (Pos "" 6 1 7) KExprPostfix [(FValue, VEmb (nd (Pos "" 6 1 7) KExprPrimary [(FValue, VPtr (Some (nd (Pos "" 6 1 7) KValue [(FMap, VPtr (Some (nd (Pos "" 6 1 7) KValueMap [(FItems, VList (Some (tt, [Some (nd (Pos "" 7 1 8) KMapItem [(FKey, VPtr (Some (nd (Pos "" 7 1 8) KMapKey [(FStr, VPtr (Some (nd (Pos "" 7 1 8) KValueString [(FFragment, VList (Some (tt, [Some (nd (Pos "" 8 1 9) KStringFragment [(FText, VStr "bar")])])))])))]))); (FValue, VPtr (Some (nd (Pos "" 15 1 16) KExpr [(FLeft, VPtr (Some (nd (Pos "" 15 1 16) KExprConditional [(FCondition, VEmb (nd (Pos "" 15 1 16) KExprLogicalOr [(FLeft, VEmb (nd (Pos "" 15 1 16) KExprLogicalAnd [(FLeft, VEmb (nd (Pos "" 15 1 16) KExprBitwiseOr [(FLeft, VEmb (nd (Pos "" 15 1 16) KExprBitwiseXor [(FLeft, VEmb (nd (Pos "" 15 1 16) KExprBitwiseAnd [(FLeft, VEmb (nd (Pos "" 15 1 16) KExprEquality [(FLeft, VEmb (nd (Pos "" 15 1 16) KExprRelational [(FLeft, VEmb (nd (Pos "" 15 1 16) KExprShift [(FLeft, VEmb (nd (Pos "" 15 1 16) KExprAdditive [(FLeft, VEmb (nd (Pos "" 15 1 16) KExprMultiplicative [(FLeft, VEmb (nd (Pos "" 15 1 16) KExprUnary [(FRight, VEmb (nd (Pos "" 15 1 16) KExprPostfix [(FValue, VEmb (nd (Pos "" 15 1 16) KExprPrimary [(FValue, VPtr (Some (nd (Pos "" 15 1 16) KValue [(FNumber, VPtr (Some (nd (Pos "" 15 1 16) KValueNumber [(FValue, VFloat (Some (tt, "1"))); (FSource, VStr "1")])))])))]))]))]))]))]))]))]))]))]))]))]))]))]))])))])))])])))])))])))]))]))]))]))]))]))]))]))]))]))]))]))]))])))])))])))])));
("TestBlockItem_Parsing/Comment", same true KBlockItem "// foo" (Some (nd (Pos "" 0 1 1) KBlockItem [(FComment, VPtr (Some (nd (Pos "" 0 1 1) KComment [(FSingleLine, VStrs (Some (tt, ["// foo"])))])))])));
("TestDecl_Parsing/Const declaration - no value, not type", same true KDecl "const foo" (Some (nd (Pos "" 0 1 1) KDecl [(FDeclType, VStr "const"); (FLabel, VStr "foo")])));
("TestDecl_Parsing/Const declaration - no value, type - no space", same true KDecl "const foo:number" (Some (nd (Pos "" 0 1 1) KDecl [(FDeclType, VStr "const"); (FLabel, VStr "foo"); (FType, VPtr (Some (nd (Pos "" 10 1 11) KParameterType [(FIdent, VPtr (Some (nd (Pos "" 10 1 11) KIdent [(FParts, VStrs (Some (tt, ["number"])))])))])))])));
("TestDecl_Parsing/Const declaration - no value, type - post space", same true KDecl "const foo: number" (Some (nd (Pos "" 0 1 1) KDecl [(FDeclType, VStr "const"); (FLabel, VStr "foo"); (FType, VPtr (Some (nd (Pos "" 11 1 12) KParameterType [(FIdent, VPtr (Some (nd (Pos "" 11 1 12) KIdent [(FParts, VStrs (Some (tt, ["number"])))])))])))])));
("TestDecl_Parsing/Const declaration - no value, type - pre and post space", same true KDecl "const foo : number" (Some (nd (Pos "" 0 1 1) KDecl [(FDeclType, VStr "const"); (FLabel, VStr "foo"); (FType, VPtr (Some (nd (Pos "" 12 1 13) KParameterType [(FIdent, VPtr (Some (nd (Pos "" 12 1 13) KIdent [(FParts, VStrs (Some (tt, ["number"])))])))])))])));
("TestDecl_Parsing/Const declaration - value, type", same true KDecl "const foo: number = 1" (Some (nd (Pos "" 0 1 1) KDecl [(FDeclType, VStr "const"); (FLabel, VStr "foo"); (FType, VPtr (Some (nd (Pos "" 11 1 12) KParameterType [(FIdent, VPtr (Some (nd (Pos "" 11 1 12) KIdent [(FParts, VStrs (Some (tt, ["number"])))])))]))); (FValue, VPtr (Some (nd (Pos "" 20 1 21) KExpr [(FLeft, VPtr (Some (nd (Pos "" 20 1 21) KExprConditional [(FCondition, VEmb (nd (Pos "" 20 1 21) KExprLogicalOr [(FLeft, VEmb (nd (Pos "" 20 1 21) KExprLogicalAnd [(FLeft, VEmb (nd (Pos "" 20 1 21) KExprBitwiseOr [(FLeft, VEmb (nd (Pos "" 20 1 21) KExprBitwiseXor [(FLeft, VEmb (nd (Pos "" 20 1 21) KExprBitwiseAnd [(FLeft, VEmb (nd (Pos "" 20 1 21) KExprEquality [(FLeft, VEmb (nd (Pos "" 20 1 21) KExprRelational [(FLeft, VEmb (nd (Pos "" 20 1 21) KExprShift [(FLeft, VEmb (nd (Pos "" 20 1 21) KExprAdditive [(FLeft, VEmb (nd (Pos "" 20 1 21) KExprMultiplicative [(FLeft, VEmb (nd (Pos "" 20 1 21) KExprUnary [(FRight, VEmb (nd (Pos "" 20 1 21) KExprPostfix [(FValue, VEmb (nd (Pos "" 20 1 21) KExprPrimary [(FValue, VPtr (Some (nd (Pos "" 20 1 21) KValue [(FNumber, VPtr (Some (nd (Pos "" 20 1 21) KValueNumber [(FValue, VFloat (Some (tt, "1"))); (FSource, VStr "1")])))])))]))]))]))]))]))]))]))]))]))]))]))]))]))])))])))])));
("TestExpr_Parsing/Add 3", same false KExpr "1 + 2 + 3" (Some (nd no_pos KExpr [(FLeft, VPtr (Some (nd no_pos KExprConditional [(FCondition, VEmb (nd no_pos KExprLogicalOr [(FLeft, VEmb (nd no_pos KExprLogicalAnd [(FLeft, VEmb (nd no_pos KExprBitwiseOr [(FLeft, VEmb (nd no_pos KExprBitwiseXor [(FLeft, VEmb (nd no_pos KExprBitwiseAnd [(FLeft, VEmb (nd no_pos KExprEquality [(FLeft, VEmb (nd no_pos KExprRelational [(FLeft, VEmb (nd no_pos KExprShift [(FLeft, VEmb (nd no_pos KExprAdditive [(FLeft, VEmb (nd no_pos KExprMultiplicative [(FLeft, VEmb (nd no_pos KExprUnary [(FRight, VEmb (nd no_pos KExprPostfix [(FValue, VEmb (nd no_pos KExprPrimary [(FValue, VPtr (Some (nd no_pos KValue [(FNumber, VPtr (Some (nd no_pos KValueNumber [(FValue, VFloat (Some (tt, "1"))); (FSource, VStr "1")])))])))]))]))]))])); (FOp, VStr "+"); (FRight, VPtr (Some (nd no_pos KExprAdditive [(FLeft, VEmb (nd no_pos KExprMultiplicative [(FLeft, VEmb (nd no_pos KExprUnary [(FRight, VEmb (nd no_pos KExprPostfix [(FValue, VEmb (nd no_pos KExprPrimary [(FValue, VPtr (Some (nd no_pos KValue [(FNumber, VPtr (Some (nd no_pos KValueNumber [(FValue, VFloat (Some (tt, "2"))); (FSource, VStr "2")])))])))]))]))]))])); (FOp, VStr "+"); (FRight, VPtr (Some (nd no_pos KExprAdditive [(FLeft, VEmb (nd no_pos KExprMultiplicative [(FLeft, VEmb (nd no_pos KExprUnary [(FRight, VEmb (nd no_pos KExprPostfix [(FValue, VEmb (nd no_pos KExprPrimary [(FValue, VPtr (Some (nd no_pos KValue [(FNumber, VPtr (Some (nd no_pos KValueNumber [(FValue, VFloat (Some (tt, "3"))); (FSource, VStr "3")])))])))]))]))]))]))])))])))]))]))]))]))]))]))]))]))]))])))])));
("TestExpr_Parsing/Add and Multiply", same false KExpr "1 + 2 * 3" (Some (nd no_pos KExpr [(FLeft, VPtr (Some (nd no_pos KExprConditional [(FCondition, VEmb (nd no_pos KExprLogicalOr [(FLeft, VEmb (nd no_pos KExprLogicalAnd [(FLeft, VEmb (nd no_pos KExprBitwiseOr [(FLeft, VEmb (nd no_pos KExprBitwiseXor [(FLeft, VEmb (nd no_pos KExprBitwiseAnd [(FLeft, VEmb (nd no_pos KExprEquality [(FLeft, VEmb (nd no_pos KExprRelational [(FLeft, VEmb (nd no_pos KExprShift [(FLeft, VEmb (nd no_pos KExprAdditive [(FLeft, VEmb (nd no_pos KExprMultiplicative [(FLeft, VEmb (nd no_pos KExprUnary [(FRight, VEmb (nd no_pos KExprPostfix [(FValue, VEmb (nd no_pos KExprPrimary [(FValue, VPtr (Some (nd no_pos KValue [(FNumber, VPtr (Some (nd no_pos KValueNumber [(FValue, VFloat (Some (tt, "1"))); (FSource, VStr "1")])))])))]))]))]))])); (FOp, VStr "+"); (FRight, VPtr (Some (nd no_pos KExprAdditive [(FLeft, VEmb (nd no_pos KExprMultiplicative [(FLeft, VEmb (nd no_pos KExprUnary [(FRight, VEmb (nd no_pos KExprPostfix [(FValue, VEmb (nd no_pos KExprPrimary [(FValue, VPtr (Some (nd no_pos KValue [(FNumber, VPtr (Some (nd no_pos KValueNumber [(FValue, VFloat (Some (tt, "2"))); (FSource, VStr "2")])))])))]))]))])); (FOp, VStr "*"); (FRight, VPtr (Some (nd no_pos KExprMultiplicative [(FLeft, VEmb (nd no_pos KExprUnary [(FRight, VEmb (nd no_pos KExprPostfix [(FValue, VEmb (nd no_pos KExprPrimary [(FValue, VPtr (Some (nd no_pos KValue [(FNumber, VPtr (Some (nd no_pos KValueNumber [(FValue, VFloat (Some (tt, "3"))); (FSource, VStr "3")])))])))]))]))]))])))]))])))]))]))]))]))]))]))]))]))]))])))])));
("TestExpr_Parsing/Multiply and Add", same false KExpr "1 * 2 + 3" (Some (nd no_pos KExpr [(FLeft, VPtr (Some (nd no_pos KExprConditional [(FCondition, VEmb (nd no_pos KExprLogicalOr [(FLeft, VEmb (nd no_pos KExprLogicalAnd [(FLeft, VEmb (nd no_pos KExprBitwiseOr [(FLeft, VEmb (nd no_pos KExprBitwiseXor [(FLeft, VEmb (nd no_pos KExprBitwiseAnd [(FLeft, VEmb (nd no_pos KExprEquality [(FLeft, VEmb (nd no_pos KExprRelational [(FLeft, VEmb (nd no_pos KExprShift [(FLeft, VEmb (nd no_pos KExprAdditive [(FLeft, VEmb (nd no_pos KExprMultiplicative [(FLeft, VEmb (nd no_pos KExprUnary [(FRight, VEmb (nd no_pos KExprPostfix [(FValue, VEmb (nd no_pos KExprPrimary [(FValue, VPtr (Some (nd no_pos KValue [(FNumber, VPtr (Some (nd no_pos KValueNumber [(FValue, VFloat (Some (tt, "1"))); (FSource, VStr "1")])))])))]))]))])); (FOp, VStr "*"); (FRight, VPtr (Some (nd no_pos KExprMultiplicative [(FLeft, VEmb (nd no_pos KExprUnary [(FRight, VEmb (nd no_pos KExprPostfix [(FValue, VEmb (nd no_pos KExprPrimary [(FValue, VPtr (Some (nd no_pos KValue [(FNumber, VPtr (Some (nd no_pos KValueNumber [(FValue, VFloat (Some (tt, "2"))); (FSource, VStr "2")])))])))]))]))]))])))])); (FOp, VStr "+"); (FRight, VPtr (Some (nd no_pos KExprAdditive [(FLeft, VEmb (nd no_pos KExprMultiplicative [(FLeft, VEmb (nd no_pos KExprUnary [(FRight, VEmb (nd no_pos KExprPostfix [(FValue, VEmb (nd no_pos KExprPrimary [(FValue, VPtr (Some (nd no_pos KValue [(FNumber, VPtr (Some (nd no_pos KValueNumber [(FValue, VFloat (Some (tt, "3"))); (FSource, VStr "3")])))])))]))]))]))]))])))]))]))]))]))]))]))]))]))]))])))])));
("TestExpr_Parsing_If/If with empty body", same true KExpr "if foo { }" (Some (nd (Pos "" 0 1 1) KExpr [(FIf, VPtr (Some (nd (Pos "" 0 1 1) KExprIf [(FCondition, VEmb (nd (Pos "" 3 1 4) KExprLogicalOr [(FLeft, VEmb (nd (Pos "" 3 1 4) KExprLogicalAnd [(FLeft, VEmb (nd (Pos "" 3 1 4) KExprBitwiseOr [(FLeft, VEmb (nd (Pos "" 3 1 4) KExprBitwiseXor [(FLeft, VEmb (nd (Pos "" 3 1 4) KExprBitwiseAnd [(FLeft, VEmb (nd (Pos "" 3 1 4) KExprEquality [(FLeft, VEmb (nd (Pos "" 3 1 4) KExprRelational [(FLeft, VEmb (nd (Pos "" 3 1 4) KExprShift [(FLeft, VEmb (nd (Pos "" 3 1 4) KExprAdditive [(FLeft, VEmb (nd (Pos "" 3 1 4) KExprMultiplicative [(FLeft, VEmb (nd (Pos "" 3 1 4) KExprUnary [(FRight, VEmb (nd (Pos "" 3 1 4) KExprPostfix [(FValue, VEmb (nd (Pos "" 3 1 4) KExprPrimary [(FIdent, VPtr (Some (nd (Pos "" 3 1 4) KIdent [(FParts, VStrs (Some (tt, ["foo"])))])))]))]))]))]))]))]))]))]))]))]))]))]))])); (FLeft, VPtr None); (FRight, VPtr None)])))])));
("TestExpr_Parsing_If/If", same true KExpr "if foo { 1 }" (Some (nd (Pos "" 0 1 1) KExpr [(FIf, VPtr (Some (nd (Pos "" 0 1 1) KExprIf [(FCondition, VEmb (nd (Pos "" 3 1 4) KExprLogicalOr [(FLeft, VEmb (nd (Pos "" 3 1 4) KExprLogicalAnd [(FLeft, VEmb (nd (Pos "" 3 1 4) KExprBitwiseOr [(FLeft, VEmb (nd (Pos "" 3 1 4) KExprBitwiseXor [(FLeft, VEmb (nd (Pos "" 3 1 4) KExprBitwiseAnd [(FLeft, VEmb (nd (Pos "" 3 1 4) KExprEquality [(FLeft, VEmb (nd (Pos "" 3 1 4) KExprRelational [(FLeft, VEmb (nd (Pos "" 3 1 4) KExprShift [(FLeft, VEmb (nd (Pos "" 3 1 4) KExprAdditive [(FLeft, VEmb (nd (Pos "" 3 1 4) KExprMultiplicative [(FLeft, VEmb (nd (Pos "" 3 1 4) KExprUnary [(FRight, VEmb (nd (Pos "" 3 1 4) KExprPostfix [(FValue, VEmb (nd (Pos "" 3 1 4) KExprPrimary [(FIdent, VPtr (Some (nd (Pos "" 3 1 4) KIdent [(FParts, VStrs (Some (tt, ["foo"])))])))]))]))]))]))]))]))]))]))]))]))]))]))])); (FLeft, VPtr (Some (nd (Pos "" 9 1 10) KExpr [(FLeft, VPtr (Some (nd (Pos "" 9 1 10) KExprConditional [(FCondition, VEmb (nd (Pos "" 9 1 10) KExprLogicalOr [(FLeft, VEmb (nd (Pos "" 9 1 10) KExprLogicalAnd [(FLeft, VEmb (nd (Pos "" 9 1 10) KExprBitwiseOr [(FLeft, VEmb (nd (Pos "" 9 1 10) KExprBitwiseXor [(FLeft, VEmb (nd (Pos "" 9 1 10) KExprBitwiseAnd [(FLeft, VEmb (nd (Pos "" 9 1 10) KExprEquality [(FLeft, VEmb (nd (Pos "" 9 1 10) KExprRelational [(FLeft, VEmb (nd (Pos "" 9 1 10) KExprShift [(FLeft, VEmb (nd (Pos "" 9 1 10) KExprAdditive [(FLeft, VEmb (nd (Pos "" 9 1 10) KExprMultiplicative [(FLeft, VEmb (nd (Pos "" 9 1 10) KExprUnary [(FRight, VEmb (nd (Pos "" 9 1 10) KExprPostfix [(FValue, VEmb (nd (Pos "" 9 1 10) KExprPrimary [(FValue, VPtr (Some (nd (Pos "" 9 1 10) KValue [(FNumber, VPtr (Some (nd (Pos "" 9 1 10) KValueNumber [(FValue, VFloat (Some (tt, "1"))); (FSource, VStr "1")])))])))]))]))]))]))]))]))]))]))]))]))]))]))]))])))]))); (FRight, VPtr None)])))])));
("TestExpr_Parsing_If/If/Else", same true KExpr "if foo { 1 } else { 2 }" (Some (nd (Pos "" 0 1 1) KExpr [(FIf, VPtr (Some (nd (Pos "" 0 1 1) KExprIf [(FCondition, VEmb (nd (Pos "" 3 1 4) KExprLogicalOr [(FLeft, VEmb (nd (Pos "" 3 1 4) KExprLogicalAnd [(FLeft, VEmb (nd (Pos "" 3 1 4) KExprBitwiseOr [(FLeft, VEmb (nd (Pos "" 3 1 4) KExprBitwiseXor [(FLeft, VEmb (nd (Pos "" 3 1 4) KExprBitwiseAnd [(FLeft, VEmb (nd (Pos "" 3 1 4) KExprEquality [(FLeft, VEmb (nd (Pos "" 3 1 4) KExprRelational [(FLeft, VEmb (nd (Pos "" 3 1 4) KExprShift [(FLeft, VEmb (nd (Pos "" 3 1 4) KExprAdditive [(FLeft, VEmb (nd (Pos "" 3 1 4) KExprMultiplicative [(FLeft, VEmb (nd (Pos "" 3 1 4) KExprUnary [(FRight, VEmb (nd (Pos "" 3 1 4) KExprPostfix [(FValue, VEmb (nd (Pos "" 3 1 4) KExprPrimary [(FIdent, VPtr (Some (nd (Pos "" 3 1 4) KIdent [(FParts, VStrs (Some (tt, ["foo"])))])))]))]))]))]))]))]))]))]))]))]))]))]))])); (FLeft, VPtr (Some (nd (Pos "" 9 1 10) KExpr [(FLeft, VPtr (Some (nd (Pos "" 9 1 10) KExprConditional [(FCondition, VEmb (nd (Pos "" 9 1 10) KExprLogicalOr [(FLeft, VEmb (nd (Pos "" 9 1 10) KExprLogicalAnd [(FLeft, VEmb (nd (Pos "" 9 1 10) KExprBitwiseOr [(FLeft, VEmb (nd (Pos "" 9 1 10) KExprBitwiseXor [(FLeft, VEmb (nd (Pos "" 9 1 10) KExprBitwiseAnd [(FLeft, VEmb (nd (Pos "" 9 1 10) KExprEquality [(FLeft, VEmb (nd (Pos "" 9 1 10) KExprRelational [(FLeft, VEmb (nd (Pos "" 9 1 10) KExprShift [(FLeft, VEmb (nd (Pos "" 9 1 10) KExprAdditive [(FLeft, VEmb (nd (Pos "" 9 1 10) KExprMultiplicative [(FLeft, VEmb (nd (Pos "" 9 1 10) KExprUnary [(FRight, VEmb (nd (Pos "" 9 1 10) KExprPostfix [(FValue, VEmb (nd (Pos "" 9 1 10) KExprPrimary [(FValue, VPtr (Some (nd (Pos "" 9 1 10) KValue [(FNumber, VPtr (Some (nd (Pos "" 9 1 10) KValueNumber [(FValue, VFloat (Some (tt, "1"))); (FSource, VStr "1")])))])))]))]))]))]))]))]))]))]))]))]))]))]))]))])))]))); (FRight, VPtr (Some (nd (Pos "" 20 1 21) KExpr [(FLeft, VPtr (Some (nd (Pos "" 20 1 21) KExprConditional [(FCondition, VEmb (nd (Pos "" 20 1 21) KExprLogicalOr [(FLeft, VEmb (nd (Pos "" 20 1 21) KExprLogicalAnd [(FLeft, VEmb (nd (Pos "" 20 1 21) KExprBitwiseOr [(FLeft, VEmb (nd (Pos "" 20 1 21) KExprBitwiseXor [(FLeft, VEmb (nd (Pos "" 20 1 21) KExprBitwiseAnd [(FLeft, VEmb (nd (Pos "" 20 1 21) KExprEquality [(FLeft, VEmb (nd (Pos "" 20 1 21) KExprRelational [(FLeft, VEmb (nd (Pos "" 20 1 21) KExprShift [(FLeft, VEmb (nd (Pos "" 20 1 21) KExprAdditive [(FLeft, VEmb (nd (Pos "" 20 1 21) KExprMultiplicative [(FLeft, VEmb (nd (Pos "" 20 1 21) KExprUnary [(FRight, VEmb (nd (Pos "" 20 1 21) KExprPostfix [(FValue, VEmb (nd (Pos "" 20 1 21) KExprPrimary [(FValue, VPtr (Some (nd (Pos "" 20 1 21) KValue [(FNumber, VPtr (Some (nd (Pos "" 20 1 21) KValueNumber [(FValue, VFloat (Some (tt, "2"))); (FSource, VStr "2")])))])))]))]))]))]))]))]))]))]))]))]))]))]))]))])))])))])))])));
("TestExpr_Parsing_Switch/Switch - Empty", same true KExpr "switch foo {}" (Some (nd (Pos "" 0 1 1) KExpr [(FSwitch, VPtr (Some (nd (Pos "" 0 1 1) KExprSwitch [(FSelector, VEmb (nd (Pos "" 7 1 8) KExprLogicalOr [(FLeft, VEmb (nd (Pos "" 7 1 8) KExprLogicalAnd [(FLeft, VEmb (nd (Pos "" 7 1 8) KExprBitwiseOr [(FLeft, VEmb (nd (Pos "" 7 1 8) KExprBitwiseXor [(FLeft, VEmb (nd (Pos "" 7 1 8) KExprBitwiseAnd [(FLeft, VEmb (nd (Pos "" 7 1 8) KExprEquality [(FLeft, VEmb (nd (Pos "" 7 1 8) KExprRelational [(FLeft, VEmb (nd (Pos "" 7 1 8) KExprShift [(FLeft, VEmb (nd (Pos "" 7 1 8) KExprAdditive [(FLeft, VEmb (nd (Pos "" 7 1 8) KExprMultiplicative [(FLeft, VEmb (nd (Pos "" 7 1 8) KExprUnary [(FRight, VEmb (nd (Pos "" 7 1 8) KExprPostfix [(FValue, VEmb (nd (Pos "" 7 1 8) KExprPrimary [(FIdent, VPtr (Some (nd (Pos "" 7 1 8) KIdent [(FParts, VStrs (Some (tt, ["foo"])))])))]))]))]))]))]))]))]))]))]))]))]))]))])); (FCases, VList None)])))])));
("TestExpr_Parsing_Switch/Switch - One single case, no default", same true KExpr ("switch foo {" +:+ (String "010" "") +:+ (String "009" "") +:+ "case 1: { 2 }" +:+ (String "010" "") +:+ "}") (Some (nd (Pos "" 0 1 1) KExpr [(FSwitch, VPtr (Some (nd (Pos "" 0 1 1) KExprSwitch [(FSelector, VEmb (nd (Pos "" 7 1 8) KExprLogicalOr [(FLeft, VEmb (nd (Pos "" 7 1 8) KExprLogicalAnd [(FLeft, VEmb (nd (Pos "" 7 1 8) KExprBitwiseOr [(FLeft, VEmb (nd (Pos "" 7 1 8) KExprBitwiseXor [(FLeft, VEmb (nd (Pos "" 7 1 8) KExprBitwiseAnd [(FLeft, VEmb (nd (Pos "" 7 1 8) KExprEquality [(FLeft, VEmb (nd (Pos "" 7 1 8) KExprRelational [(FLeft, VEmb (nd (Pos "" 7 1 8) KExprShift [(FLeft, VEmb (nd (Pos "" 7 1 8) KExprAdditive [(FLeft, VEmb (nd (Pos "" 7 1 8) KExprMultiplicative [(FLeft, VEmb (nd (Pos "" 7 1 8) KExprUnary [(FRight, VEmb (nd (Pos "" 7 1 8) KExprPostfix [(FValue, VEmb (nd (Pos "" 7 1 8) KExprPrimary [(FIdent, VPtr (Some (nd (Pos "" 7 1 8) KIdent [(FParts, VStrs (Some (tt, ["foo"])))])))]))]))]))]))]))]))]))]))]))]))]))]))])); (FCases, VList (Some (tt, [Some (nd (Pos "" 14 2 2) KExprCase [(FConditions, VList (Some (tt, [Some (nd (Pos "" 19 2 7) KExprLogicalOr [(FLeft, VEmb (nd (Pos "" 19 2 7) KExprLogicalAnd [(FLeft, VEmb (nd (Pos "" 19 2 7) KExprBitwiseOr [(FLeft, VEmb (nd (Pos "" 19 2 7) KExprBitwiseXor [(FLeft, VEmb (nd (Pos "" 19 2 7) KExprBitwiseAnd [(FLeft, VEmb (nd (Pos "" 19 2 7) KExprEquality [(FLeft, VEmb (nd (Pos "" 19 2 7) KExprRelational [(FLeft, VEmb (nd (Pos "" 19 2 7) KExprShift [(FLeft, VEmb (nd (Pos "" 19 2 7) KExprAdditive [(FLeft, VEmb (nd (Pos "" 19 2 7) KExprMultiplicative [(FLeft, VEmb (nd (Pos "" 19 2 7) KExprUnary [(FRight, VEmb (nd (Pos "" 19 2 7) KExprPostfix [(FValue, VEmb (nd (Pos "" 19 2 7) KExprPrimary [(FValue, VPtr (Some (nd (Pos "" 19 2 7) KValue [(FNumber, VPtr (Some (nd (Pos "" 19 2 7) KValueNumber [(FValue, VFloat (Some (tt, "1"))); (FSource, VStr "1")])))])))]))]))]))]))]))]))]))]))]))]))]))]))])]))); (FExpr, VPtr (Some (nd (Pos "" 24 2 12) KExpr [(FLeft, VPtr (Some (nd (Pos "" 24 2 12) KExprConditional [(FCondition, VEmb (nd (Pos "" 24 2 12) KExprLogicalOr [(FLeft, VEmb (nd (Pos "" 24 2 12) KExprLogicalAnd [(FLeft, VEmb (nd (Pos "" 24 2 12) KExprBitwiseOr [(FLeft, VEmb (nd (Pos "" 24 2 12) KExprBitwiseXor [(FLeft, VEmb (nd (Pos "" 24 2 12) KExprBitwiseAnd [(FLeft, VEmb (nd (Pos "" 24 2 12) KExprEquality [(FLeft, VEmb (nd (Pos "" 24 2 12) KExprRelational [(FLeft, VEmb (nd (Pos "" 24 2 12) KExprShift [(FLeft, VEmb (nd (Pos "" 24 2 12) KExprAdditive [(FLeft, VEmb (nd (Pos "" 24 2 12) KExprMultiplicative [(FLeft, VEmb (nd (Pos "" 24 2 12) KExprUnary [(FRight, VEmb (nd (Pos "" 24 2 12) KExprPostfix [(FValue, VEmb (nd (Pos "" 24 2 12) KExprPrimary [(FValue, VPtr (Some (nd (Pos "" 24 2 12) KValue [(FNumber, VPtr (Some (nd (Pos "" 24 2 12) KValueNumber [(FValue, VFloat (Some (tt, "2"))); (FSource, VStr "2")])))])))]))]))]))]))]))]))]))]))]))]))]))]))]))])))])))])])))])))])));
("TestExpr_Parsing_Switch/Switch - One multiple case, no default", same true KExpr ("switch foo {" +:+ (String "010" "") +:+ (String "009" "") +:+ "case 1, 2: { 3 }" +:+ (String "010" "") +:+ "}") (Some (nd (Pos "" 0 1 1) KExpr [(FSwitch, VPtr (Some (nd (Pos "" 0 1 1) KExprSwitch [(FSelector, VEmb (nd (Pos "" 7 1 8) KExprLogicalOr [(FLeft, VEmb (nd (Pos "" 7 1 8) KExprLogicalAnd [(FLeft, VEmb (nd (Pos "" 7 1 8) KExprBitwiseOr [(FLeft, VEmb (nd (Pos "" 7 1 8) KExprBitwiseXor [(FLeft, VEmb (nd (Pos "" 7 1 8) KExprBitwiseAnd [(FLeft, VEmb (nd (Pos "" 7 1 8) KExprEquality [(FLeft, VEmb (nd (Pos "" 7 1 8) KExprRelational [(FLeft, VEmb (nd (Pos "" 7 1 8) KExprShift [(FLeft, VEmb (nd (Pos "" 7 1 8) KExprAdditive [(FLeft, VEmb (nd (Pos "" 7 1 8) KExprMultiplicative [(FLeft, VEmb (nd (Pos "" 7 1 8) KExprUnary [(FRight, VEmb (nd (Pos "" 7 1 8) KExprPostfix [(FValue, VEmb (nd (Pos "" 7 1 8) KExprPrimary [(FIdent, VPtr (Some (nd (Pos "" 7 1 8) KIdent [(FParts, VStrs (Some (tt, ["foo"])))])))]))]))]))]))]))]))]))]))]))]))]))]))])); (FCases, VList (Some (tt, [Some (nd (Pos "" 14 2 2) KExprCase [(FConditions, VList (Some (tt, [Some (nd (Pos "" 19 2 7) KExprLogicalOr [(FLeft, VEmb (nd (Pos "" 19 2 7) KExprLogicalAnd [(FLeft, VEmb (nd (Pos "" 19 2 7) KExprBitwiseOr [(FLeft, VEmb (nd (Pos "" 19 2 7) KExprBitwiseXor [(FLeft, VEmb (nd (Pos "" 19 2 7) KExprBitwiseAnd [(FLeft, VEmb (nd (Pos "" 19 2 7) KExprEquality [(FLeft, VEmb (nd (Pos "" 19 2 7) KExprRelational [(FLeft, VEmb (nd (Pos "" 19 2 7) KExprShift [(FLeft, VEmb (nd (Pos "" 19 2 7) KExprAdditive [(FLeft, VEmb (nd (Pos "" 19 2 7) KExprMultiplicative [(FLeft, VEmb (nd (Pos "" 19 2 7) KExprUnary [(FRight, VEmb (nd (Pos "" 19 2 7) KExprPostfix [(FValue, VEmb (nd (Pos "" 19 2 7) KExprPrimary [(FValue, VPtr (Some (nd (Pos "" 19 2 7) KValue [(FNumber, VPtr (Some (nd (Pos "" 19 2 7) KValueNumber [(FValue, VFloat (Some (tt, "1"))); (FSource, VStr "1")])))])))]))]))]))]))]))]))]))]))]))]))]))]))]); Some (nd (Pos "" 22 2 10) KExprLogicalOr [(FLeft, VEmb (nd (Pos "" 22 2 10) KExprLogicalAnd [(FLeft, VEmb (nd (Pos "" 22 2 10) KExprBitwiseOr [(FLeft, VEmb (nd (Pos "" 22 2 10) KExprBitwiseXor [(FLeft, VEmb (nd (Pos "" 22 2 10) KExprBitwiseAnd [(FLeft, VEmb (nd (Pos "" 22 2 10) KExprEquality [(FLeft, VEmb (nd (Pos "" 22 2 10) KExprRelational [(FLeft, VEmb (nd (Pos "" 22 2 10) KExprShift [(FLeft, VEmb (nd (Pos "" 22 2 10) KExprAdditive [(FLeft, VEmb (nd (Pos "" 22 2 10) KExprMultiplicative [(FLeft, VEmb (nd (Pos "" 22 2 10) KExprUnary [(FRight, VEmb (nd (Pos "" 22 2 10) KExprPostfix [(FValue, VEmb (nd (Pos "" 22 2 10) KExprPrimary [(FValue, VPtr (Some (nd (Pos "" 22 2 10) KValue [(FNumber, VPtr (Some (nd (Pos "" 22 2 10) KValueNumber [(FValue, VFloat (Some (tt, "2"))); (FSource, VStr "2")])))])))]))]))]))]))]))]))]))]))]))]))]))]))])]))); (FExpr, VPtr (Some (nd (Pos "" 27 2 15) KExpr [(FLeft, VPtr (Some (nd (Pos "" 27 2 15) KExprConditional [(FCondition, VEmb (nd (Pos "" 27 2 15) KExprLogicalOr [(FLeft, VEmb (nd (Pos "" 27 2 15) KExprLogicalAnd [(FLeft, VEmb (nd (Pos "" 27 2 15) KExprBitwiseOr [(FLeft, VEmb (nd (Pos "" 27 2 15) KExprBitwiseXor [(FLeft, VEmb (nd (Pos "" 27 2 15) KExprBitwiseAnd [(FLeft, VEmb (nd (Pos "" 27 2 15) KExprEquality [(FLeft, VEmb (nd (Pos "" 27 2 15) KExprRelational [(FLeft, VEmb (nd (Pos "" 27 2 15) KExprShift [(FLeft, VEmb (nd (Pos "" 27 2 15) KExprAdditive [(FLeft, VEmb (nd (Pos "" 27 2 15) KExprMultiplicative [(FLeft, VEmb (nd (Pos "" 27 2 15) KExprUnary [(FRight, VEmb (nd (Pos "" 27 2 15) KExprPostfix [(FValue, VEmb (nd (Pos "" 27 2 15) KExprPrimary [(FValue, VPtr (Some (nd (Pos "" 27 2 15) KValue [(FNumber, VPtr (Some (nd (Pos "" 27 2 15) KValueNumber [(FValue, VFloat (Some (tt, "3"))); (FSource, VStr "3")])))])))]))]))]))]))]))]))]))]))]))]))]))]))]))])))])))])])))])))])));
("TestExpr_Parsing_Switch/Switch - Two single case, no default", same true KExpr ("switch foo {" +:+ (String "010" "") +:+ (String "009" "") +:+ "case 1: { 2 }" +:+ (String "010" "") +:+ (String "009" "") +:+ "case 3: { 4 }" +:+ (String "010" "") +:+ "}") (Some (nd (Pos "" 0 1 1) KExpr [(FSwitch, VPtr (Some (nd (Pos "" 0 1 1) KExprSwitch [(FSelector, VEmb (nd (Pos "" 7 1 8) KExprLogicalOr [(FLeft, VEmb (nd (Pos "" 7 1 8) KExprLogicalAnd [(FLeft, VEmb (nd (Pos "" 7 1 8) KExprBitwiseOr [(FLeft, VEmb (nd (Pos "" 7 1 8) KExprBitwiseXor [(FLeft, VEmb (nd (Pos "" 7 1 8) KExprBitwiseAnd [(FLeft, VEmb (nd (Pos "" 7 1 8) KExprEquality [(FLeft, VEmb (nd (Pos "" 7 1 8) KExprRelational [(FLeft, VEmb (nd (Pos "" 7 1 8) KExprShift [(FLeft, VEmb (nd (Pos "" 7 1 8) KExprAdditive [(FLeft, VEmb (nd (Pos "" 7 1 8) KExprMultiplicative [(FLeft, VEmb (nd (Pos "" 7 1 8) KExprUnary [(FRight, VEmb (nd (Pos "" 7 1 8) KExprPostfix [(FValue, VEmb (nd (Pos "" 7 1 8) KExprPrimary [(FIdent, VPtr (Some (nd (Pos "" 7 1 8) KIdent [(FParts, VStrs (Some (tt, ["foo"])))])))]))]))]))]))]))]))]))]))]))]))]))]))])); (FCases, VList (Some (tt, [Some (nd (Pos "" 14 2 2) KExprCase [(FConditions, VList (Some (tt, [Some (nd (Pos "" 19 2 7) KExprLogicalOr [(FLeft, VEmb (nd (Pos "" 19 2 7) KExprLogicalAnd [(FLeft, VEmb (nd (Pos "" 19 2 7) KExprBitwiseOr [(FLeft, VEmb (nd (Pos "" 19 2 7) KExprBitwiseXor [(FLeft, VEmb (nd (Pos "" 19 2 7) KExprBitwiseAnd [(FLeft, VEmb (nd (Pos "" 19 2 7) KExprEquality [(FLeft, VEmb (nd (Pos "" 19 2 7) KExprRelational [(FLeft, VEmb (nd (Pos "" 19 2 7) KExprShift [(FLeft, VEmb (nd (Pos "" 19 2 7) KExprAdditive [(FLeft, VEmb (nd (Pos "" 19 2 7) KExprMultiplicative [(FLeft, VEmb (nd (Pos "" 19 2 7) KExprUnary [(FRight, VEmb (nd (Pos "" 19 2 7) KExprPostfix [(FValue, VEmb (nd (Pos "" 19 2 7) KExprPrimary [(FValue, VPtr (Some (nd (Pos "" 19 2 7) KValue [(FNumber, VPtr (Some (nd (Pos "" 19 2 7) KValueNumber [(FValue, VFloat (Some (tt, "1"))); (FSource, VStr "1")])))])))]))]))]))]))]))]))]))]))]))]))]))]))])]))); (FExpr, VPtr (Some (nd (Pos "" 24 2 12) KExpr [(FLeft, VPtr (Some (nd (Pos "" 24 2 12) KExprConditional [(FCondition, VEmb (nd (Pos "" 24 2 12) KExprLogicalOr [(FLeft, VEmb (nd (Pos "" 24 2 12) KExprLogicalAnd [(FLeft, VEmb (nd (Pos "" 24 2 12) KExprBitwiseOr [(FLeft, VEmb (nd (Pos "" 24 2 12) KExprBitwiseXor [(FLeft, VEmb (nd (Pos "" 24 2 12) KExprBitwiseAnd [(FLeft, VEmb (nd (Pos "" 24 2 12) KExprEquality [(FLeft, VEmb (nd (Pos "" 24 2 12) KExprRelational [(FLeft, VEmb (nd (Pos "" 24 2 12) KExprShift [(FLeft, VEmb (nd (Pos "" 24 2 12) KExprAdditive [(FLeft, VEmb (nd (Pos "" 24 2 12) KExprMultiplicative [(FLeft, VEmb (nd (Pos "" 24 2 12) KExprUnary [(FRight, VEmb (nd (Pos "" 24 2 12) KExprPostfix [(FValue, VEmb (nd (Pos "" 24 2 12) KExprPrimary [(FValue, VPtr (Some (nd (Pos "" 24 2 12) KValue [(FNumber, VPtr (Some (nd (Pos "" 24 2 12) KValueNumber [(FValue, VFloat (Some (tt, "2"))); (FSource, VStr "2")])))])))]))]))]))]))]))]))]))]))]))]))]))]))]))])))])))]); Some (nd (Pos "" 29 3 2) KExprCase [(FConditions, VList (Some (tt, [Some (nd (Pos "" 34 3 7) KExprLogicalOr [(FLeft, VEmb (nd (Pos "" 34 3 7) KExprLogicalAnd [(FLeft, VEmb (nd (Pos "" 34 3 7) KExprBitwiseOr [(FLeft, VEmb (nd (Pos "" 34 3 7) KExprBitwiseXor [(FLeft, VEmb (nd (Pos "" 34 3 7) KExprBitwiseAnd [(FLeft, VEmb (nd (Pos "" 34 3 7) KExprEquality [(FLeft, VEmb (nd (Pos "" 34 3 7) KExprRelational [(FLeft, VEmb (nd (Pos "" 34 3 7) KExprShift [(FLeft, VEmb (nd (Pos "" 34 3 7) KExprAdditive [(FLeft, VEmb (nd (Pos "" 34 3 7) KExprMultiplicative [(FLeft, VEmb (nd (Pos "" 34 3 7) KExprUnary [(FRight, VEmb (nd (Pos "" 34 3 7) KExprPostfix [(FValue, VEmb (nd (Pos "" 34 3 7) KExprPrimary [(FValue, VPtr (Some (nd (Pos "" 34 3 7) KValue [(FNumber, VPtr (Some (nd (Pos "" 34 3 7) KValueNumber [(FValue, VFloat (Some (tt, "3"))); (FSource, VStr "3")])))])))]))]))]))]))]))]))]))]))]))]))]))]))])]))); (FExpr, VPtr (Some (nd (Pos "" 39 3 12) KExpr [(FLeft, VPtr (Some (nd (Pos "" 39 3 12) KExprConditional [(FCondition, VEmb (nd (Pos "" 39 3 12) KExprLogicalOr [(FLeft, VEmb (nd (Pos "" 39 3 12) KExprLogicalAnd [(FLeft, VEmb (nd (Pos "" 39 3 12) KExprBitwiseOr [(FLeft, VEmb (nd (Pos "" 39 3 12) KExprBitwiseXor [(FLeft, VEmb (nd (Pos "" 39 3 12) KExprBitwiseAnd [(FLeft, VEmb (nd (Pos "" 39 3 12) KExprEquality [(FLeft, VEmb (nd (Pos "" 39 3 12) KExprRelational [(FLeft, VEmb (nd (Pos "" 39 3 12) KExprShift [(FLeft, VEmb (nd (Pos "" 39 3 12) KExprAdditive [(FLeft, VEmb (nd (Pos "" 39 3 12) KExprMultiplicative [(FLeft, VEmb (nd (Pos "" 39 3 12) KExprUnary [(FRight, VEmb (nd (Pos "" 39 3 12) KExprPostfix [(FValue, VEmb (nd (Pos "" 39 3 12) KExprPrimary [(FValue, VPtr (Some (nd (Pos "" 39 3 12) KValue [(FNumber, VPtr (Some (nd (Pos "" 39 3 12) KValueNumber [(FValue, VFloat (Some (tt, "4"))); (FSource, VStr "4")])))])))]))]))]))]))]))]))]))]))]))]))]))]))]))])))])))])])))])))])));
("TestExpr_Parsing_Switch/Switch - Only default", same true KExpr ("switch foo {" +:+ (String "010" "") +:+ (String "009" "") +:+ "default: { 3 }" +:+ (String "010" "") +:+ "}") (Some (nd (Pos "" 0 1 1) KExpr [(FSwitch, VPtr (Some (nd (Pos "" 0 1 1) KExprSwitch [(FSelector, VEmb (nd (Pos "" 7 1 8) KExprLogicalOr [(FLeft, VEmb (nd (Pos "" 7 1 8) KExprLogicalAnd [(FLeft, VEmb (nd (Pos "" 7 1 8) KExprBitwiseOr [(FLeft, VEmb (nd (Pos "" 7 1 8) KExprBitwiseXor [(FLeft, VEmb (nd (Pos "" 7 1 8) KExprBitwiseAnd [(FLeft, VEmb (nd (Pos "" 7 1 8) KExprEquality [(FLeft, VEmb (nd (Pos "" 7 1 8) KExprRelational [(FLeft, VEmb (nd (Pos "" 7 1 8) KExprShift [(FLeft, VEmb (nd (Pos "" 7 1 8) KExprAdditive [(FLeft, VEmb (nd (Pos "" 7 1 8) KExprMultiplicative [(FLeft, VEmb (nd (Pos "" 7 1 8) KExprUnary [(FRight, VEmb (nd (Pos "" 7 1 8) KExprPostfix [(FValue, VEmb (nd (Pos "" 7 1 8) KExprPrimary [(FIdent, VPtr (Some (nd (Pos "" 7 1 8) KIdent [(FParts, VStrs (Some (tt, ["foo"])))])))]))]))]))]))]))]))]))]))]))]))]))]))])); (FCases, VList (Some (tt, [Some (nd (Pos "" 14 2 2) KExprCase [(FConditions, VList None); (FDefault, VBool true); (FExpr, VPtr (Some (nd (Pos "" 25 2 13) KExpr [(FLeft, VPtr (Some (nd (Pos "" 25 2 13) KExprConditional [(FCondition, VEmb (nd (Pos "" 25 2 13) KExprLogicalOr [(FLeft, VEmb (nd (Pos "" 25 2 13) KExprLogicalAnd [(FLeft, VEmb (nd (Pos "" 25 2 13) KExprBitwiseOr [(FLeft, VEmb (nd (Pos "" 25 2 13) KExprBitwiseXor [(FLeft, VEmb (nd (Pos "" 25 2 13) KExprBitwiseAnd [(FLeft, VEmb (nd (Pos "" 25 2 13) KExprEquality [(FLeft, VEmb (nd (Pos "" 25 2 13) KExprRelational [(FLeft, VEmb (nd (Pos "" 25 2 13) KExprShift [(FLeft, VEmb (nd (Pos "" 25 2 13) KExprAdditive [(FLeft, VEmb (nd (Pos "" 25 2 13) KExprMultiplicative [(FLeft, VEmb (nd (Pos "" 25 2 13) KExprUnary [(FRight, VEmb (nd (Pos "" 25 2 13) KExprPostfix [(FValue, VEmb (nd (Pos "" 25 2 13) KExprPrimary [(FValue, VPtr (Some (nd (Pos "" 25 2 13) KValue [(FNumber, VPtr (Some (nd (Pos "" 25 2 13) KValueNumber [(FValue, VFloat (Some (tt, "3"))); (FSource, VStr "3")])))])))]))]))]))]))]))]))]))]))]))]))]))]))]))])))])))])])))])))])));
("TestExpr_Parsing_Switch/Switch - One single case, default", same true KExpr ("switch foo {" +:+ (String "010" "") +:+ (String "009" "") +:+ "case 1: { 2 }" +:+ (String "010" "") +:+ (String "009" "") +:+ "default: { 3 }" +:+ (String "010" "") +:+ "}") (Some (nd (Pos "" 0 1 1) KExpr [(FSwitch, VPtr (Some (nd (Pos "" 0 1 1) KExprSwitch [(FSelector, VEmb (nd (Pos "" 7 1 8) KExprLogicalOr [(FLeft, VEmb (nd (Pos "" 7 1 8) KExprLogicalAnd [(FLeft, VEmb (nd (Pos "" 7 1 8) KExprBitwiseOr [(FLeft, VEmb (nd (Pos "" 7 1 8) KExprBitwiseXor [(FLeft, VEmb (nd (Pos "" 7 1 8) KExprBitwiseAnd [(FLeft, VEmb (nd (Pos "" 7 1 8) KExprEquality [(FLeft, VEmb (nd (Pos "" 7 1 8) KExprRelational [(FLeft, VEmb (nd (Pos "" 7 1 8) KExprShift [(FLeft, VEmb (nd (Pos "" 7 1 8) KExprAdditive [(FLeft, VEmb (nd (Pos "" 7 1 8) KExprMultiplicative [(FLeft, VEmb (nd (Pos "" 7 1 8) KExprUnary [(FRight, VEmb (nd (Pos "" 7 1 8) KExprPostfix [(FValue, VEmb (nd (Pos "" 7 1 8) KExprPrimary [(FIdent, VPtr (Some (nd (Pos "" 7 1 8) KIdent [(FParts, VStrs (Some (tt, ["foo"])))])))]))]))]))]))]))]))]))]))]))]))]))]))])); (FCases, VList (Some (tt, [Some (nd (Pos "" 14 2 2) KExprCase [(FConditions, VList (Some (tt, [Some (nd (Pos "" 19 2 7) KExprLogicalOr [(FLeft, VEmb (nd (Pos "" 19 2 7) KExprLogicalAnd [(FLeft, VEmb (nd (Pos "" 19 2 7) KExprBitwiseOr [(FLeft, VEmb (nd (Pos "" 19 2 7) KExprBitwiseXor [(FLeft, VEmb (nd (Pos "" 19 2 7) KExprBitwiseAnd [(FLeft, VEmb (nd (Pos "" 19 2 7) KExprEquality [(FLeft, VEmb (nd (Pos "" 19 2 7) KExprRelational [(FLeft, VEmb (nd (Pos "" 19 2 7) KExprShift [(FLeft, VEmb (nd (Pos "" 19 2 7) KExprAdditive [(FLeft, VEmb (nd (Pos "" 19 2 7) KExprMultiplicative [(FLeft, VEmb (nd (Pos "" 19 2 7) KExprUnary [(FRight, VEmb (nd (Pos "" 19 2 7) KExprPostfix [(FValue, VEmb (nd (Pos "" 19 2 7) KExprPrimary [(FValue, VPtr (Some (nd (Pos "" 19 2 7) KValue [(FNumber, VPtr (Some (nd (Pos "" 19 2 7) KValueNumber [(FValue, VFloat (Some (tt, "1"))); (FSource, VStr "1")])))])))]))]))]))]))]))]))]))]))]))]))]))]))])]))); (FExpr, VPtr (Some (nd (Pos "" 24 2 12) KExpr [(FLeft, VPtr (Some (nd (Pos "" 24 2 12) KExprConditional [(FCondition, VEmb (nd (Pos "" 24 2 12) KExprLogicalOr [(FLeft, VEmb (nd (Pos "" 24 2 12) KExprLogicalAnd [(FLeft, VEmb (nd (Pos "" 24 2 12) KExprBitwiseOr [(FLeft, VEmb (nd (Pos "" 24 2 12) KExprBitwiseXor [(FLeft, VEmb (nd (Pos "" 24 2 12) KExprBitwiseAnd [(FLeft, VEmb (nd (Pos "" 24 2 12) KExprEquality [(FLeft, VEmb (nd (Pos "" 24 2 12) KExprRelational [(FLeft, VEmb (nd (Pos "" 24 2 12) KExprShift [(FLeft, VEmb (nd (Pos "" 24 2 12) KExprAdditive [(FLeft, VEmb (nd (Pos "" 24 2 12) KExprMultiplicative [(FLeft, VEmb (nd (Pos "" 24 2 12) KExprUnary [(FRight, VEmb (nd (Pos "" 24 2 12) KExprPostfix [(FValue, VEmb (nd (Pos "" 24 2 12) KExprPrimary [(FValue, VPtr (Some (nd (Pos "" 24 2 12) KValue [(FNumber, VPtr (Some (nd (Pos "" 24 2 12) KValueNumber [(FValue, VFloat (Some (tt, "2"))); (FSource, VStr "2")])))])))]))]))]))]))]))]))]))]))]))]))]))]))]))])))])))]); Some (nd (Pos "" 29 3 2) KExprCase [(FConditions, VList None); (FDefault, VBool true); (FExpr, VPtr (Some (nd (Pos "" 40 3 13) KExpr [(FLeft, VPtr (Some (nd (Pos "" 40 3 13) KExprConditional [(FCondition, VEmb (nd (Pos "" 40 3 13) KExprLogicalOr [(FLeft, VEmb (nd (Pos "" 40 3 13) KExprLogicalAnd [(FLeft, VEmb (nd (Pos "" 40 3 13) KExprBitwiseOr [(FLeft, VEmb (nd (Pos "" 40 3 13) KExprBitwiseXor [(FLeft, VEmb (nd (Pos "" 40 3 13) KExprBitwiseAnd [(FLeft, VEmb (nd (Pos "" 40 3 13) KExprEquality [(FLeft, VEmb (nd (Pos "" 40 3 13) KExprRelational [(FLeft, VEmb (nd (Pos "" 40 3 13) KExprShift [(FLeft, VEmb (nd (Pos "" 40 3 13) KExprAdditive [(FLeft, VEmb (nd (Pos "" 40 3 13) KExprMultiplicative [(FLeft, VEmb (nd (Pos "" 40 3 13) KExprUnary [(FRight, VEmb (nd (Pos "" 40 3 13) KExprPostfix [(FValue, VEmb (nd (Pos "" 40 3 13) KExprPrimary [(FValue, VPtr (Some (nd (Pos "" 40 3 13) KValue [(FNumber, VPtr (Some (nd (Pos "" 40 3 13) KValueNumber [(FValue, VFloat (Some (tt, "3"))); (FSource, VStr "3")])))])))]))]))]))]))]))]))]))]))]))]))]))]))]))])))])))])])))])))])));
("TestExpr_Parsing_Ternary/Ternary", same true KExpr "1 ? 2 : 3" (Some (nd (Pos "" 0 1 1) KExpr [(FLeft, VPtr (Some (nd (Pos "" 0 1 1) KExprConditional [(FCondition, VEmb (nd (Pos "" 0 1 1) KExprLogicalOr [(FLeft, VEmb (nd (Pos "" 0 1 1) KExprLogicalAnd [(FLeft, VEmb (nd (Pos "" 0 1 1) KExprBitwiseOr [(FLeft, VEmb (nd (Pos "" 0 1 1) KExprBitwiseXor [(FLeft, VEmb (nd (Pos "" 0 1 1) KExprBitwiseAnd [(FLeft, VEmb (nd (Pos "" 0 1 1) KExprEquality [(FLeft, VEmb (nd (Pos "" 0 1 1) KExprRelational [(FLeft, VEmb (nd (Pos "" 0 1 1) KExprShift [(FLeft, VEmb (nd (Pos "" 0 1 1) KExprAdditive [(FLeft, VEmb (nd (Pos "" 0 1 1) KExprMultiplicative [(FLeft, VEmb (nd (Pos "" 0 1 1) KExprUnary [(FRight, VEmb (nd (Pos "" 0 1 1) KExprPostfix [(FValue, VEmb (nd (Pos "" 0 1 1) KExprPrimary [(FValue, VPtr (Some (nd (Pos "" 0 1 1) KValue [(FNumber, VPtr (Some (nd (Pos "" 0 1 1) KValueNumber [(FValue, VFloat (Some (tt, "1"))); (FSource, VStr "1")])))])))]))]))]))]))]))]))]))]))]))]))]))]))])); (FConditionOp, VBool true); (FTrueExpr, VPtr (Some (nd (Pos "" 4 1 5) KExpr [(FLeft, VPtr (Some (nd (Pos "" 4 1 5) KExprConditional [(FCondition, VEmb (nd (Pos "" 4 1 5) KExprLogicalOr [(FLeft, VEmb (nd (Pos "" 4 1 5) KExprLogicalAnd [(FLeft, VEmb (nd (Pos "" 4 1 5) KExprBitwiseOr [(FLeft, VEmb (nd (Pos "" 4 1 5) KExprBitwiseXor [(FLeft, VEmb (nd (Pos "" 4 1 5) KExprBitwiseAnd [(FLeft, VEmb (nd (Pos "" 4 1 5) KExprEquality [(FLeft, VEmb (nd (Pos "" 4 1 5) KExprRelational [(FLeft, VEmb (nd (Pos "" 4 1 5) KExprShift [(FLeft, VEmb (nd (Pos "" 4 1 5) KExprAdditive [(FLeft, VEmb (nd (Pos "" 4 1 5) KExprMultiplicative [(FLeft, VEmb (nd (Pos "" 4 1 5) KExprUnary [(FRight, VEmb (nd (Pos "" 4 1 5) KExprPostfix [(FValue, VEmb (nd (Pos "" 4 1 5) KExprPrimary [(FValue, VPtr (Some (nd (Pos "" 4 1 5) KValue [(FNumber, VPtr (Some (nd (Pos "" 4 1 5) KValueNumber [(FValue, VFloat (Some (tt, "2"))); (FSource, VStr "2")])))])))]))]))]))]))]))]))]))]))]))]))]))]))]))])))]))); (FFalseExpr, VPtr (Some (nd (Pos "" 8 1 9) KExpr [(FLeft, VPtr (Some (nd (Pos "" 8 1 9) KExprConditional [(FCondition, VEmb (nd (Pos "" 8 1 9) KExprLogicalOr [(FLeft, VEmb (nd (Pos "" 8 1 9) KExprLogicalAnd [(FLeft, VEmb (nd (Pos "" 8 1 9) KExprBitwiseOr [(FLeft, VEmb (nd (Pos "" 8 1 9) KExprBitwiseXor [(FLeft, VEmb (nd (Pos "" 8 1 9) KExprBitwiseAnd [(FLeft, VEmb (nd (Pos "" 8 1 9) KExprEquality [(FLeft, VEmb (nd (Pos "" 8 1 9) KExprRelational [(FLeft, VEmb (nd (Pos "" 8 1 9) KExprShift [(FLeft, VEmb (nd (Pos "" 8 1 9) KExprAdditive [(FLeft, VEmb (nd (Pos "" 8 1 9) KExprMultiplicative [(FLeft, VEmb (nd (Pos "" 8 1 9) KExprUnary [(FRight, VEmb (nd (Pos "" 8 1 9) KExprPostfix [(FValue, VEmb (nd (Pos "" 8 1 9) KExprPrimary [(FValue, VPtr (Some (nd (Pos "" 8 1 9) KValue [(FNumber, VPtr (Some (nd (Pos "" 8 1 9) KValueNumber [(FValue, VFloat (Some (tt, "3"))); (FSource, VStr "3")])))])))]))]))]))]))]))]))]))]))]))]))]))]))]))])))])))])))])));
("TestExpr_Parsing_Ternary/Nested Ternary - Left", same true KExpr "1 ? 2 ? 3 : 4 : 5" (Some (nd (Pos "" 0 1 1) KExpr [(FLeft, VPtr (Some (nd (Pos "" 0 1 1) KExprConditional [(FCondition, VEmb (nd (Pos "" 0 1 1) KExprLogicalOr [(FLeft, VEmb (nd (Pos "" 0 1 1) KExprLogicalAnd [(FLeft, VEmb (nd (Pos "" 0 1 1) KExprBitwiseOr [(FLeft, VEmb (nd (Pos "" 0 1 1) KExprBitwiseXor [(FLeft, VEmb (nd (Pos "" 0 1 1) KExprBitwiseAnd [(FLeft, VEmb (nd (Pos "" 0 1 1) KExprEquality [(FLeft, VEmb (nd (Pos "" 0 1 1) KExprRelational [(FLeft, VEmb (nd (Pos "" 0 1 1) KExprShift [(FLeft, VEmb (nd (Pos "" 0 1 1) KExprAdditive [(FLeft, VEmb (nd (Pos "" 0 1 1) KExprMultiplicative [(FLeft, VEmb (nd (Pos "" 0 1 1) KExprUnary [(FRight, VEmb (nd (Pos "" 0 1 1) KExprPostfix [(FValue, VEmb (nd (Pos "" 0 1 1) KExprPrimary [(FValue, VPtr (Some (nd (Pos "" 0 1 1) KValue [(FNumber, VPtr (Some (nd (Pos "" 0 1 1) KValueNumber [(FValue, VFloat (Some (tt, "1"))); (FSource, VStr "1")])))])))]))]))]))]))]))]))]))]))]))]))]))]))])); (FConditionOp, VBool true); (FTrueExpr, VPtr (Some (nd (Pos "" 4 1 5) KExpr [(FLeft, VPtr (Some (nd (Pos "" 4 1 5) KExprConditional [(FCondition, VEmb (nd (Pos "" 4 1 5) KExprLogicalOr [(FLeft, VEmb (nd (Pos "" 4 1 5) KExprLogicalAnd [(FLeft, VEmb (nd (Pos "" 4 1 5) KExprBitwiseOr [(FLeft, VEmb (nd (Pos "" 4 1 5) KExprBitwiseXor [(FLeft, VEmb (nd (Pos "" 4 1 5) KExprBitwiseAnd [(FLeft, VEmb (nd (Pos "" 4 1 5) KExprEquality [(FLeft, VEmb (nd (Pos "" 4 1 5) KExprRelational [(FLeft, VEmb (nd (Pos "" 4 1 5) KExprShift [(FLeft, VEmb (nd (Pos "" 4 1 5) KExprAdditive [(FLeft, VEmb (nd (Pos "" 4 1 5) KExprMultiplicative [(FLeft, VEmb (nd (Pos "" 4 1 5) KExprUnary [(FRight, VEmb (nd (Pos "" 4 1 5) KExprPostfix [(FValue, VEmb (nd (Pos "" 4 1 5) KExprPrimary [(FValue, VPtr (Some (nd (Pos "" 4 1 5) KValue [(FNumber, VPtr (Some (nd (Pos "" 4 1 5) KValueNumber [(FValue, VFloat (Some (tt, "2"))); (FSource, VStr "2")])))])))]))]))]))]))]))]))]))]))]))]))]))]))])); (FConditionOp, VBool true); (FTrueExpr, VPtr (Some (nd (Pos "" 8 1 9) KExpr [(FLeft, VPtr (Some (nd (Pos "" 8 1 9) KExprConditional [(FCondition, VEmb (nd (Pos "" 8 1 9) KExprLogicalOr [(FLeft, VEmb (nd (Pos "" 8 1 9) KExprLogicalAnd [(FLeft, VEmb (nd (Pos "" 8 1 9) KExprBitwiseOr [(FLeft, VEmb (nd (Pos "" 8 1 9) KExprBitwiseXor [(FLeft, VEmb (nd (Pos "" 8 1 9) KExprBitwiseAnd [(FLeft, VEmb (nd (Pos "" 8 1 9) KExprEquality [(FLeft, VEmb (nd (Pos "" 8 1 9) KExprRelational [(FLeft, VEmb (nd (Pos "" 8 1 9) KExprShift [(FLeft, VEmb (nd (Pos "" 8 1 9) KExprAdditive [(FLeft, VEmb (nd (Pos "" 8 1 9) KExprMultiplicative [(FLeft, VEmb (nd (Pos "" 8 1 9) KExprUnary [(FRight, VEmb (nd (Pos "" 8 1 9) KExprPostfix [(FValue, VEmb (nd (Pos "" 8 1 9) KExprPrimary [(FValue, VPtr (Some (nd (Pos "" 8 1 9) KValue [(FNumber, VPtr (Some (nd (Pos "" 8 1 9) KValueNumber [(FValue, VFloat (Some (tt, "3"))); (FSource, VStr "3")])))])))]))]))]))]))]))]))]))]))]))]))]))]))]))])))]))); (FFalseExpr, VPtr (Some (nd (Pos "" 12 1 13) KExpr [(FLeft, VPtr (Some (nd (Pos "" 12 1 13) KExprConditional [(FCondition, VEmb (nd (Pos "" 12 1 13) KExprLogicalOr [(FLeft, VEmb (nd (Pos "" 12 1 13) KExprLogicalAnd [(FLeft, VEmb (nd (Pos "" 12 1 13) KExprBitwiseOr [(FLeft, VEmb (nd (Pos "" 12 1 13) KExprBitwiseXor [(FLeft, VEmb (nd (Pos "" 12 1 13) KExprBitwiseAnd [(FLeft, VEmb (nd (Pos "" 12 1 13) KExprEquality [(FLeft, VEmb (nd (Pos "" 12 1 13) KExprRelational [(FLeft, VEmb (nd (Pos "" 12 1 13) KExprShift [(FLeft, VEmb (nd (Pos "" 12 1 13) KExprAdditive [(FLeft, VEmb (nd (Pos "" 12 1 13) KExprMultiplicative [(FLeft, VEmb (nd (Pos "" 12 1 13) KExprUnary [(FRight, VEmb (nd (Pos "" 12 1 13) KExprPostfix [(FValue, VEmb (nd (Pos "" 12 1 13) KExprPrimary [(FValue, VPtr (Some (nd (Pos "" 12 1 13) KValue [(FNumber, VPtr (Some (nd (Pos "" 12 1 13) KValueNumber [(FValue, VFloat (Some (tt, "4"))); (FSource, VStr "4")])))])))]))]))]))]))]))]))]))]))]))]))]))]))]))])))])))])))]))); (FFalseExpr, VPtr (Some (nd (Pos "" 16 1 17) KExpr [(FLeft, VPtr (Some (nd (Pos "" 16 1 17) KExprConditional [(FCondition, VEmb (nd (Pos "" 16 1 17) KExprLogicalOr [(FLeft, VEmb (nd (Pos "" 16 1 17) KExprLogicalAnd [(FLeft, VEmb (nd (Pos "" 16 1 17) KExprBitwiseOr [(FLeft, VEmb (nd (Pos "" 16 1 17) KExprBitwiseXor [(FLeft, VEmb (nd (Pos "" 16 1 17) KExprBitwiseAnd [(FLeft, VEmb (nd (Pos "" 16 1 17) KExprEquality [(FLeft, VEmb (nd (Pos "" 16 1 17) KExprRelational [(FLeft, VEmb (nd (Pos "" 16 1 17) KExprShift [(FLeft, VEmb (nd (Pos "" 16 1 17) KExprAdditive [(FLeft, VEmb (nd (Pos "" 16 1 17) KExprMultiplicative [(FLeft, VEmb (nd (Pos "" 16 1 17) KExprUnary [(FRight, VEmb (nd (Pos "" 16 1 17) KExprPostfix [(FValue, VEmb (nd (Pos "" 16 1 17) KExprPrimary [(FValue, VPtr (Some (nd (Pos "" 16 1 17) KValue [(FNumber, VPtr (Some (nd (Pos "" 16 1 17) KValueNumber [(FValue, VFloat (Some (tt, "5"))); (FSource, VStr "5")])))])))]))]))]))]))]))]))]))]))]))]))]))]))]))])))])))])))])));
("TestExpr_Parsing_Ternary/Nested Ternary - Right", same true KExpr "1 ? 2 : 3 ? 4 : 5" (Some (nd (Pos "" 0 1 1) KExpr [(FLeft, VPtr (Some (nd (Pos "" 0 1 1) KExprConditional [(FCondition, VEmb (nd (Pos "" 0 1 1) KExprLogicalOr [(FLeft, VEmb (nd (Pos "" 0 1 1) KExprLogicalAnd [(FLeft, VEmb (nd (Pos "" 0 1 1) KExprBitwiseOr [(FLeft, VEmb (nd (Pos "" 0 1 1) KExprBitwiseXor [(FLeft, VEmb (nd (Pos "" 0 1 1) KExprBitwiseAnd [(FLeft, VEmb (nd (Pos "" 0 1 1) KExprEquality [(FLeft, VEmb (nd (Pos "" 0 1 1) KExprRelational [(FLeft, VEmb (nd (Pos "" 0 1 1) KExprShift [(FLeft, VEmb (nd (Pos "" 0 1 1) KExprAdditive [(FLeft, VEmb (nd (Pos "" 0 1 1) KExprMultiplicative [(FLeft, VEmb (nd (Pos "" 0 1 1) KExprUnary [(FRight, VEmb (nd (Pos "" 0 1 1) KExprPostfix [(FValue, VEmb (nd (Pos "" 0 1 1) KExprPrimary [(FValue, VPtr (Some (nd (Pos "" 0 1 1) KValue [(FNumber, VPtr (Some (nd (Pos "" 0 1 1) KValueNumber [(FValue, VFloat (Some (tt, "1"))); (FSource, VStr "1")])))])))]))]))]))]))]))]))]))]))]))]))]))]))])); (FConditionOp, VBool true); (FTrueExpr, VPtr (Some (nd (Pos "" 4 1 5) KExpr [(FLeft, VPtr (Some (nd (Pos "" 4 1 5) KExprConditional [(FCondition, VEmb (nd (Pos "" 4 1 5) KExprLogicalOr [(FLeft, VEmb (nd (Pos "" 4 1 5) KExprLogicalAnd [(FLeft, VEmb (nd (Pos "" 4 1 5) KExprBitwiseOr [(FLeft, VEmb (nd (Pos "" 4 1 5) KExprBitwiseXor [(FLeft, VEmb (nd (Pos "" 4 1 5) KExprBitwiseAnd [(FLeft, VEmb (nd (Pos "" 4 1 5) KExprEquality [(FLeft, VEmb (nd (Pos "" 4 1 5) KExprRelational [(FLeft, VEmb (nd (Pos "" 4 1 5) KExprShift [(FLeft, VEmb (nd (Pos "" 4 1 5) KExprAdditive [(FLeft, VEmb (nd (Pos "" 4 1 5) KExprMultiplicative [(FLeft, VEmb (nd (Pos "" 4 1 5) KExprUnary [(FRight, VEmb (nd (Pos "" 4 1 5) KExprPostfix [(FValue, VEmb (nd (Pos "" 4 1 5) KExprPrimary [(FValue, VPtr (Some (nd (Pos "" 4 1 5) KValue [(FNumber, VPtr (Some (nd (Pos "" 4 1 5) KValueNumber [(FValue, VFloat (Some (tt, "2"))); (FSource, VStr "2")])))])))]))]))]))]))]))]))]))]))]))]))]))]))]))])))]))); (FFalseExpr, VPtr (Some (nd (Pos "" 8 1 9) KExpr [(FLeft, VPtr (Some (nd (Pos "" 8 1 9) KExprConditional [(FCondition, VEmb (nd (Pos "" 8 1 9) KExprLogicalOr [(FLeft, VEmb (nd (Pos "" 8 1 9) KExprLogicalAnd [(FLeft, VEmb (nd (Pos "" 8 1 9) KExprBitwiseOr [(FLeft, VEmb (nd (Pos "" 8 1 9) KExprBitwiseXor [(FLeft, VEmb (nd (Pos "" 8 1 9) KExprBitwiseAnd [(FLeft, VEmb (nd (Pos "" 8 1 9) KExprEquality [(FLeft, VEmb (nd (Pos "" 8 1 9) KExprRelational [(FLeft, VEmb (nd (Pos "" 8 1 9) KExprShift [(FLeft, VEmb (nd (Pos "" 8 1 9) KExprAdditive [(FLeft, VEmb (nd (Pos "" 8 1 9) KExprMultiplicative [(FLeft, VEmb (nd (Pos "" 8 1 9) KExprUnary [(FRight, VEmb (nd (Pos "" 8 1 9) KExprPostfix [(FValue, VEmb (nd (Pos "" 8 1 9) KExprPrimary [(FValue, VPtr (Some (nd (Pos "" 8 1 9) KValue [(FNumber, VPtr (Some (nd (Pos "" 8 1 9) KValueNumber [(FValue, VFloat (Some (tt, "3"))); (FSource, VStr "3")])))])))]))]))]))]))]))]))]))]))]))]))]))]))])); (FConditionOp, VBool true); (FTrueExpr, VPtr (Some (nd (Pos "" 12 1 13) KExpr [(FLeft, VPtr (Some (nd (Pos "" 12 1 13) KExprConditional [(FCondition, VEmb (nd (Pos "" 12 1 13) KExprLogicalOr [(FLeft, VEmb (nd (Pos "" 12 1 13) KExprLogicalAnd [(FLeft, VEmb (nd (Pos "" 12 1 13) KExprBitwiseOr [(FLeft, VEmb (nd (Pos "" 12 1 13) KExprBitwiseXor [(FLeft, VEmb (nd (Pos "" 12 1 13) KExprBitwiseAnd [(FLeft, VEmb (nd (Pos "" 12 1 13) KExprEquality [(FLeft, VEmb (nd (Pos "" 12 1 13) KExprRelational [(FLeft, VEmb (nd (Pos "" 12 1 13) KExprShift [(FLeft, VEmb (nd (Pos "" 12 1 13) KExprAdditive [(FLeft, VEmb (nd (Pos "" 12 1 13) KExprMultiplicative [(FLeft, VEmb (nd (Pos "" 12 1 13) KExprUnary [(FRight, VEmb (nd (Pos "" 12 1 13) KExprPostfix [(FValue, VEmb (nd (Pos "" 12 1 13) KExprPrimary [(FValue, VPtr (Some (nd (Pos "" 12 1 13) KValue [(FNumber, VPtr (Some (nd (Pos "" 12 1 13) KValueNumber [(FValue, VFloat (Some (tt, "4"))); (FSource, VStr "4")])))])))]))]))]))]))]))]))]))]))]))]))]))]))]))])))]))); (FFalseExpr, VPtr (Some (nd (Pos "" 16 1 17) KExpr [(FLeft, VPtr (Some (nd (Pos "" 16 1 17) KExprConditional [(FCondition, VEmb (nd (Pos "" 16 1 17) KExprLogicalOr [(FLeft, VEmb (nd (Pos "" 16 1 17) KExprLogicalAnd [(FLeft, VEmb (nd (Pos "" 16 1 17) KExprBitwiseOr [(FLeft, VEmb (nd (Pos "" 16 1 17) KExprBitwiseXor [(FLeft, VEmb (nd (Pos "" 16 1 17) KExprBitwiseAnd [(FLeft, VEmb (nd (Pos "" 16 1 17) KExprEquality [(FLeft, VEmb (nd (Pos "" 16 1 17) KExprRelational [(FLeft, VEmb (nd (Pos "" 16 1 17) KExprShift [(FLeft, VEmb (nd (Pos "" 16 1 17) KExprAdditive [(FLeft, VEmb (nd (Pos "" 16 1 17) KExprMultiplicative [(FLeft, VEmb (nd (Pos "" 16 1 17) KExprUnary [(FRight, VEmb (nd (Pos "" 16 1 17) KExprPostfix [(FValue, VEmb (nd (Pos "" 16 1 17) KExprPrimary [(FValue, VPtr (Some (nd (Pos "" 16 1 17) KValue [(FNumber, VPtr (Some (nd (Pos "" 16 1 17) KValueNumber [(FValue, VFloat (Some (tt, "5"))); (FSource, VStr "5")])))])))]))]))]))]))]))]))]))]))]))]))]))]))]))])))])))])))])))])))])));
("TestExpr_Parsing_LogicalOr/Logical OR - no spaces", same true KExpr "1||2" (Some (nd (Pos "" 0 1 1) KExpr [(FLeft, VPtr (Some (nd (Pos "" 0 1 1) KExprConditional [(FCondition, VEmb (nd (Pos "" 0 1 1) KExprLogicalOr [(FLeft, VEmb (nd (Pos "" 0 1 1) KExprLogicalAnd [(FLeft, VEmb (nd (Pos "" 0 1 1) KExprBitwiseOr [(FLeft, VEmb (nd (Pos "" 0 1 1) KExprBitwiseXor [(FLeft, VEmb (nd (Pos "" 0 1 1) KExprBitwiseAnd [(FLeft, VEmb (nd (Pos "" 0 1 1) KExprEquality [(FLeft, VEmb (nd (Pos "" 0 1 1) KExprRelational [(FLeft, VEmb (nd (Pos "" 0 1 1) KExprShift [(FLeft, VEmb (nd (Pos "" 0 1 1) KExprAdditive [(FLeft, VEmb (nd (Pos "" 0 1 1) KExprMultiplicative [(FLeft, VEmb (nd (Pos "" 0 1 1) KExprUnary [(FRight, VEmb (nd (Pos "" 0 1 1) KExprPostfix [(FValue, VEmb (nd (Pos "" 0 1 1) KExprPrimary [(FValue, VPtr (Some (nd (Pos "" 0 1 1) KValue [(FNumber, VPtr (Some (nd (Pos "" 0 1 1) KValueNumber [(FValue, VFloat (Some (tt, "1"))); (FSource, VStr "1")])))])))]))]))]))]))]))]))]))]))]))]))]))])); (FOp, VStr "||"); (FRight, VPtr (Some (nd (Pos "" 3 1 4) KExprLogicalOr [(FLeft, VEmb (nd (Pos "" 3 1 4) KExprLogicalAnd [(FLeft, VEmb (nd (Pos "" 3 1 4) KExprBitwiseOr [(FLeft, VEmb (nd (Pos "" 3 1 4) KExprBitwiseXor [(FLeft, VEmb (nd (Pos "" 3 1 4) KExprBitwiseAnd [(FLeft, VEmb (nd (Pos "" 3 1 4) KExprEquality [(FLeft, VEmb (nd (Pos "" 3 1 4) KExprRelational [(FLeft, VEmb (nd (Pos "" 3 1 4) KExprShift [(FLeft, VEmb (nd (Pos "" 3 1 4) KExprAdditive [(FLeft, VEmb (nd (Pos "" 3 1 4) KExprMultiplicative [(FLeft, VEmb (nd (Pos "" 3 1 4) KExprUnary [(FRight, VEmb (nd (Pos "" 3 1 4) KExprPostfix [(FValue, VEmb (nd (Pos "" 3 1 4) KExprPrimary [(FValue, VPtr (Some (nd (Pos "" 3 1 4) KValue [(FNumber, VPtr (Some (nd (Pos "" 3 1 4) KValueNumber [(FValue, VFloat (Some (tt, "2"))); (FSource, VStr "2")])))])))]))]))]))]))]))]))]))]))]))]))]))]))])))]))])))])));
("TestExpr_Parsing_LogicalOr/Logical OR - spaces", same true KExpr "1 || 2" (Some (nd (Pos "" 0 1 1) KExpr [(FLeft, VPtr (Some (nd (Pos "" 0 1 1) KExprConditional [(FCondition, VEmb (nd (Pos "" 0 1 1) KExprLogicalOr [(FLeft, VEmb (nd (Pos "" 0 1 1) KExprLogicalAnd [(FLeft, VEmb (nd (Pos "" 0 1 1) KExprBitwiseOr [(FLeft, VEmb (nd (Pos "" 0 1 1) KExprBitwiseXor [(FLeft, VEmb (nd (Pos "" 0 1 1) KExprBitwiseAnd [(FLeft, VEmb (nd (Pos "" 0 1 1) KExprEquality [(FLeft, VEmb (nd (Pos "" 0 1 1) KExprRelational [(FLeft, VEmb (nd (Pos "" 0 1 1) KExprShift [(FLeft, VEmb (nd (Pos "" 0 1 1) KExprAdditive [(FLeft, VEmb (nd (Pos "" 0 1 1) KExprMultiplicative [(FLeft, VEmb (nd (Pos "" 0 1 1) KExprUnary [(FRight, VEmb (nd (Pos "" 0 1 1) KExprPostfix [(FValue, VEmb (nd (Pos "" 0 1 1) KExprPrimary [(FValue, VPtr (Some (nd (Pos "" 0 1 1) KValue [(FNumber, VPtr (Some (nd (Pos "" 0 1 1) KValueNumber [(FValue, VFloat (Some (tt, "1"))); (FSource, VStr "1")])))])))]))]))]))]))]))]))]))]))]))]))]))])); (FOp, VStr "||"); (FRight, VPtr (Some (nd (Pos "" 5 1 6) KExprLogicalOr [(FLeft, VEmb (nd (Pos "" 5 1 6) KExprLogicalAnd [(FLeft, VEmb (nd (Pos "" 5 1 6) KExprBitwiseOr [(FLeft, VEmb (nd (Pos "" 5 1 6) KExprBitwiseXor [(FLeft, VEmb (nd (Pos "" 5 1 6) KExprBitwiseAnd [(FLeft, VEmb (nd (Pos "" 5 1 6) KExprEquality [(FLeft, VEmb (nd (Pos "" 5 1 6) KExprRelational [(FLeft, VEmb (nd (Pos "" 5 1 6) KExprShift [(FLeft, VEmb (nd (Pos "" 5 1 6) KExprAdditive [(FLeft, VEmb (nd (Pos "" 5 1 6) KExprMultiplicative [(FLeft, VEmb (nd (Pos "" 5 1 6) KExprUnary [(FRight, VEmb (nd (Pos "" 5 1 6) KExprPostfix [(FValue, VEmb (nd (Pos "" 5 1 6) KExprPrimary [(FValue, VPtr (Some (nd (Pos "" 5 1 6) KValue [(FNumber, VPtr (Some (nd (Pos "" 5 1 6) KValueNumber [(FValue, VFloat (Some (tt, "2"))); (FSource, VStr "2")])))])))]))]))]))]))]))]))]))]))]))]))]))]))])))]))])))])));
("TestExpr_Parsing_LogicalAnd/Logical AND - no spaces", same true KExpr "1&&2" (Some (nd (Pos "" 0 1 1) KExpr [(FLeft, VPtr (Some (nd (Pos "" 0 1 1) KExprConditional [(FCondition, VEmb (nd (Pos "" 0 1 1) KExprLogicalOr [(FLeft, VEmb (nd (Pos "" 0 1 1) KExprLogicalAnd [(FLeft, VEmb (nd (Pos "" 0 1 1) KExprBitwiseOr [(FLeft, VEmb (nd (Pos "" 0 1 1) KExprBitwiseXor [(FLeft, VEmb (nd (Pos "" 0 1 1) KExprBitwiseAnd [(FLeft, VEmb (nd (Pos "" 0 1 1) KExprEquality [(FLeft, VEmb (nd (Pos "" 0 1 1) KExprRelational [(FLeft, VEmb (nd (Pos "" 0 1 1) KExprShift [(FLeft, VEmb (nd (Pos "" 0 1 1) KExprAdditive [(FLeft, VEmb (nd (Pos "" 0 1 1) KExprMultiplicative [(FLeft, VEmb (nd (Pos "" 0 1 1) KExprUnary [(FRight, VEmb (nd (Pos "" 0 1 1) KExprPostfix [(FValue, VEmb (nd (Pos "" 0 1 1) KExprPrimary [(FValue, VPtr (Some (nd (Pos "" 0 1 1) KValue [(FNumber, VPtr (Some (nd (Pos "" 0 1 1) KValueNumber [(FValue, VFloat (Some (tt, "1"))); (FSource, VStr "1")])))])))]))]))]))]))]))]))]))]))]))]))])); (FOp, VStr "&&"); (FRight, VPtr (Some (nd (Pos "" 3 1 4) KExprLogicalAnd [(FLeft, VEmb (nd (Pos "" 3 1 4) KExprBitwiseOr [(FLeft, VEmb (nd (Pos "" 3 1 4) KExprBitwiseXor [(FLeft, VEmb (nd (Pos "" 3 1 4) KExprBitwiseAnd [(FLeft, VEmb (nd (Pos "" 3 1 4) KExprEquality [(FLeft, VEmb (nd (Pos "" 3 1 4) KExprRelational [(FLeft, VEmb (nd (Pos "" 3 1 4) KExprShift [(FLeft, VEmb (nd (Pos "" 3 1 4) KExprAdditive [(FLeft, VEmb (nd (Pos "" 3 1 4) KExprMultiplicative [(FLeft, VEmb (nd (Pos "" 3 1 4) KExprUnary [(FRight, VEmb (nd (Pos "" 3 1 4) KExprPostfix [(FValue, VEmb (nd (Pos "" 3 1 4) KExprPrimary [(FValue, VPtr (Some (nd (Pos "" 3 1 4) KValue [(FNumber, VPtr (Some (nd (Pos "" 3 1 4) KValueNumber [(FValue, VFloat (Some (tt, "2"))); (FSource, VStr "2")])))])))]))]))]))]))]))]))]))]))]))]))]))])))]))]))])))])));
("TestExpr_Parsing_LogicalAnd/Logical AND - spaces", same true KExpr "1 && 2" (Some (nd (Pos "" 0 1 1) KExpr [(FLeft, VPtr (Some (nd (Pos "" 0 1 1) KExprConditional [(FCondition, VEmb (nd (Pos "" 0 1 1) KExprLogicalOr [(FLeft, VEmb (nd (Pos "" 0 1 1) KExprLogicalAnd [(FLeft, VEmb (nd (Pos "" 0 1 1) KExprBitwiseOr [(FLeft, VEmb (nd (Pos "" 0 1 1) KExprBitwiseXor [(FLeft, VEmb (nd (Pos "" 0 1 1) KExprBitwiseAnd [(FLeft, VEmb (nd (Pos "" 0 1 1) KExprEquality [(FLeft, VEmb (nd (Pos "" 0 1 1) KExprRelational [(FLeft, VEmb (nd (Pos "" 0 1 1) KExprShift [(FLeft, VEmb (nd (Pos "" 0 1 1) KExprAdditive [(FLeft, VEmb (nd (Pos "" 0 1 1) KExprMultiplicative [(FLeft, VEmb (nd (Pos "" 0 1 1) KExprUnary [(FRight, VEmb (nd (Pos "" 0 1 1) KExprPostfix [(FValue, VEmb (nd (Pos "" 0 1 1) KExprPrimary [(FValue, VPtr (Some (nd (Pos "" 0 1 1) KValue [(FNumber, VPtr (Some (nd (Pos "" 0 1 1) KValueNumber [(FValue, VFloat (Some (tt, "1"))); (FSource, VStr "1")])))])))]))]))]))]))]))]))]))]))]))]))])); (FOp, VStr "&&"); (FRight, VPtr (Some (nd (Pos "" 5 1 6) KExprLogicalAnd [(FLeft, VEmb (nd (Pos "" 5 1 6) KExprBitwiseOr [(FLeft, VEmb (nd (Pos "" 5 1 6) KExprBitwiseXor [(FLeft, VEmb (nd (Pos "" 5 1 6) KExprBitwiseAnd [(FLeft, VEmb (nd (Pos "" 5 1 6) KExprEquality [(FLeft, VEmb (nd (Pos "" 5 1 6) KExprRelational [(FLeft, VEmb (nd (Pos "" 5 1 6) KExprShift [(FLeft, VEmb (nd (Pos "" 5 1 6) KExprAdditive [(FLeft, VEmb (nd (Pos "" 5 1 6) KExprMultiplicative [(FLeft, VEmb (nd (Pos "" 5 1 6) KExprUnary [(FRight, VEmb (nd (Pos "" 5 1 6) KExprPostfix [(FValue, VEmb (nd (Pos "" 5 1 6) KExprPrimary [(FValue, VPtr (Some (nd (Pos "" 5 1 6) KValue [(FNumber, VPtr (Some (nd (Pos "" 5 1 6) KValueNumber [(FValue, VFloat (Some (tt, "2"))); (FSource, VStr "2")])))])))]))]))]))]))]))]))]))]))]))]))]))])))]))]))])))])));
("TestExpr_Parsing_BitwiseOr/Bitwise OR - no spaces", same true KExpr "1|2" (Some (nd (Pos "" 0 1 1) KExpr [(FLeft, VPtr (Some (nd (Pos "" 0 1 1) KExprConditional [(FCondition, VEmb (nd (Pos "" 0 1 1) KExprLogicalOr [(FLeft, VEmb (nd (Pos "" 0 1 1) KExprLogicalAnd [(FLeft, VEmb (nd (Pos "" 0 1 1) KExprBitwiseOr [(FLeft, VEmb (nd (Pos "" 0 1 1) KExprBitwiseXor [(FLeft, VEmb (nd (Pos "" 0 1 1) KExprBitwiseAnd [(FLeft, VEmb (nd (Pos "" 0 1 1) KExprEquality [(FLeft, VEmb (nd (Pos "" 0 1 1) KExprRelational [(FLeft, VEmb (nd (Pos "" 0 1 1) KExprShift [(FLeft, VEmb (nd (Pos "" 0 1 1) KExprAdditive [(FLeft, VEmb (nd (Pos "" 0 1 1) KExprMultiplicative [(FLeft, VEmb (nd (Pos "" 0 1 1) KExprUnary [(FRight, VEmb (nd (Pos "" 0 1 1) KExprPostfix [(FValue, VEmb (nd (Pos "" 0 1 1) KExprPrimary [(FValue, VPtr (Some (nd (Pos "" 0 1 1) KValue [(FNumber, VPtr (Some (nd (Pos "" 0 1 1) KValueNumber [(FValue, VFloat (Some (tt, "1"))); (FSource, VStr "1")])))])))]))]))]))]))]))]))]))]))]))])); (FOp, VStr "|"); (FRight, VPtr (Some (nd (Pos "" 2 1 3) KExprBitwiseOr [(FLeft, VEmb (nd (Pos "" 2 1 3) KExprBitwiseXor [(FLeft, VEmb (nd (Pos "" 2 1 3) KExprBitwiseAnd [(FLeft, VEmb (nd (Pos "" 2 1 3) KExprEquality [(FLeft, VEmb (nd (Pos "" 2 1 3) KExprRelational [(FLeft, VEmb (nd (Pos "" 2 1 3) KExprShift [(FLeft, VEmb (nd (Pos "" 2 1 3) KExprAdditive [(FLeft, VEmb (nd (Pos "" 2 1 3) KExprMultiplicative [(FLeft, VEmb (nd (Pos "" 2 1 3) KExprUnary [(FRight, VEmb (nd (Pos "" 2 1 3) KExprPostfix [(FValue, VEmb (nd (Pos "" 2 1 3) KExprPrimary [(FValue, VPtr (Some (nd (Pos "" 2 1 3) KValue [(FNumber, VPtr (Some (nd (Pos "" 2 1 3) KValueNumber [(FValue, VFloat (Some (tt, "2"))); (FSource, VStr "2")])))])))]))]))]))]))]))]))]))]))]))]))])))]))]))]))])))])));
("TestExpr_Parsing_BitwiseOr/Bitwise OR - spaces", same true KExpr "1 | 2" (Some (nd (Pos "" 0 1 1) KExpr [(FLeft, VPtr (Some (nd (Pos "" 0 1 1) KExprConditional [(FCondition, VEmb (nd (Pos "" 0 1 1) KExprLogicalOr [(FLeft, VEmb (nd (Pos "" 0 1 1) KExprLogicalAnd [(FLeft, VEmb (nd (Pos "" 0 1 1) KExprBitwiseOr [(FLeft, VEmb (nd (Pos "" 0 1 1) KExprBitwiseXor [(FLeft, VEmb (nd (Pos "" 0 1 1) KExprBitwiseAnd [(FLeft, VEmb (nd (Pos "" 0 1 1) KExprEquality [(FLeft, VEmb (nd (Pos "" 0 1 1) KExprRelational [(FLeft, VEmb (nd (Pos "" 0 1 1) KExprShift [(FLeft, VEmb (nd (Pos "" 0 1 1) KExprAdditive [(FLeft, VEmb (nd (Pos "" 0 1 1) KExprMultiplicative [(FLeft, VEmb (nd (Pos "" 0 1 1) KExprUnary [(FRight, VEmb (nd (Pos "" 0 1 1) KExprPostfix [(FValue, VEmb (nd (Pos "" 0 1 1) KExprPrimary [(FValue, VPtr (Some (nd (Pos "" 0 1 1) KValue [(FNumber, VPtr (Some (nd (Pos "" 0 1 1) KValueNumber [(FValue, VFloat (Some (tt, "1"))); (FSource, VStr "1")])))])))]))]))]))]))]))]))]))]))]))])); (FOp, VStr "|"); (FRight, VPtr (Some (nd (Pos "" 4 1 5) KExprBitwiseOr [(FLeft, VEmb (nd (Pos "" 4 1 5) KExprBitwiseXor [(FLeft, VEmb (nd (Pos "" 4 1 5) KExprBitwiseAnd [(FLeft, VEmb (nd (Pos "" 4 1 5) KExprEquality [(FLeft, VEmb (nd (Pos "" 4 1 5) KExprRelational [(FLeft, VEmb (nd (Pos "" 4 1 5) KExprShift [(FLeft, VEmb (nd (Pos "" 4 1 5) KExprAdditive [(FLeft, VEmb (nd (Pos "" 4 1 5) KExprMultiplicative [(FLeft, VEmb (nd (Pos "" 4 1 5) KExprUnary [(FRight, VEmb (nd (Pos "" 4 1 5) KExprPostfix [(FValue, VEmb (nd (Pos "" 4 1 5) KExprPrimary [(FValue, VPtr (Some (nd (Pos "" 4 1 5) KValue [(FNumber, VPtr (Some (nd (Pos "" 4 1 5) KValueNumber [(FValue, VFloat (Some (tt, "2"))); (FSource, VStr "2")])))])))]))]))]))]))]))]))]))]))]))]))])))]))]))]))])))])));
("TestExpr_Parsing_BitwiseXOr/Bitwise XOR - no spaces", same true KExpr "1^2" (Some (nd (Pos "" 0 1 1) KExpr [(FLeft, VPtr (Some (nd (Pos "" 0 1 1) KExprConditional [(FCondition, VEmb (nd (Pos "" 0 1 1) KExprLogicalOr [(FLeft, VEmb (nd (Pos "" 0 1 1) KExprLogicalAnd [(FLeft, VEmb (nd (Pos "" 0 1 1) KExprBitwiseOr [(FLeft, VEmb (nd (Pos "" 0 1 1) KExprBitwiseXor [(FLeft, VEmb (nd (Pos "" 0 1 1) KExprBitwiseAnd [(FLeft, VEmb (nd (Pos "" 0 1 1) KExprEquality [(FLeft, VEmb (nd (Pos "" 0 1 1) KExprRelational [(FLeft, VEmb (nd (Pos "" 0 1 1) KExprShift [(FLeft, VEmb (nd (Pos "" 0 1 1) KExprAdditive [(FLeft, VEmb (nd (Pos "" 0 1 1) KExprMultiplicative [(FLeft, VEmb (nd (Pos "" 0 1 1) KExprUnary [(FRight, VEmb (nd (Pos "" 0 1 1) KExprPostfix [(FValue, VEmb (nd (Pos "" 0 1 1) KExprPrimary [(FValue, VPtr (Some (nd (Pos "" 0 1 1) KValue [(FNumber, VPtr (Some (nd (Pos "" 0 1 1) KValueNumber [(FValue, VFloat (Some (tt, "1"))); (FSource, VStr "1")])))])))]))]))]))]))]))]))]))]))])); (FOp, VStr "^"); (FRight, VPtr (Some (nd (Pos "" 2 1 3) KExprBitwiseXor [(FLeft, VEmb (nd (Pos "" 2 1 3) KExprBitwiseAnd [(FLeft, VEmb (nd (Pos "" 2 1 3) KExprEquality [(FLeft, VEmb (nd (Pos "" 2 1 3) KExprRelational [(FLeft, VEmb (nd (Pos "" 2 1 3) KExprShift [(FLeft, VEmb (nd (Pos "" 2 1 3) KExprAdditive [(FLeft, VEmb (nd (Pos "" 2 1 3) KExprMultiplicative [(FLeft, VEmb (nd (Pos "" 2 1 3) KExprUnary [(FRight, VEmb (nd (Pos "" 2 1 3) KExprPostfix [(FValue, VEmb (nd (Pos "" 2 1 3) KExprPrimary [(FValue, VPtr (Some (nd (Pos "" 2 1 3) KValue [(FNumber, VPtr (Some (nd (Pos "" 2 1 3) KValueNumber [(FValue, VFloat (Some (tt, "2"))); (FSource, VStr "2")])))])))]))]))]))]))]))]))]))]))]))])))]))]))]))]))])))])));
("TestExpr_Parsing_BitwiseXOr/Bitwise XOR - spaces", same true KExpr "1 ^ 2" (Some (nd (Pos "" 0 1 1) KExpr [(FLeft, VPtr (Some (nd (Pos "" 0 1 1) KExprConditional [(FCondition, VEmb (nd (Pos "" 0 1 1) KExprLogicalOr [(FLeft, VEmb (nd (Pos "" 0 1 1) KExprLogicalAnd [(FLeft, VEmb (nd (Pos "" 0 1 1) KExprBitwiseOr [(FLeft, VEmb (nd (Pos "" 0 1 1) KExprBitwiseXor [(FLeft, VEmb (nd (Pos "" 0 1 1) KExprBitwiseAnd [(FLeft, VEmb (nd (Pos "" 0 1 1) KExprEquality [(FLeft, VEmb (nd (Pos "" 0 1 1) KExprRelational [(FLeft, VEmb (nd (Pos "" 0 1 1) KExprShift [(FLeft, VEmb (nd (Pos "" 0 1 1) KExprAdditive [(FLeft, VEmb (nd (Pos "" 0 1 1) KExprMultiplicative [(FLeft, VEmb (nd (Pos "" 0 1 1) KExprUnary [(FRight, VEmb (nd (Pos "" 0 1 1) KExprPostfix [(FValue, VEmb (nd (Pos "" 0 1 1) KExprPrimary [(FValue, VPtr (Some (nd (Pos "" 0 1 1) KValue [(FNumber, VPtr (Some (nd (Pos "" 0 1 1) KValueNumber [(FValue, VFloat (Some (tt, "1"))); (FSource, VStr "1")])))])))]))]))]))]))]))]))]))]))])); (FOp, VStr "^"); (FRight, VPtr (Some (nd (Pos "" 4 1 5) KExprBitwiseXor [(FLeft, VEmb (nd (Pos "" 4 1 5) KExprBitwiseAnd [(FLeft, VEmb (nd (Pos "" 4 1 5) KExprEquality [(FLeft, VEmb (nd (Pos "" 4 1 5) KExprRelational [(FLeft, VEmb (nd (Pos "" 4 1 5) KExprShift [(FLeft, VEmb (nd (Pos "" 4 1 5) KExprAdditive [(FLeft, VEmb (nd (Pos "" 4 1 5) KExprMultiplicative [(FLeft, VEmb (nd (Pos "" 4 1 5) KExprUnary [(FRight, VEmb (nd (Pos "" 4 1 5) KExprPostfix [(FValue, VEmb (nd (Pos "" 4 1 5) KExprPrimary [(FValue, VPtr (Some (nd (Pos "" 4 1 5) KValue [(FNumber, VPtr (Some (nd (Pos "" 4 1 5) KValueNumber [(FValue, VFloat (Some (tt, "2"))); (FSource, VStr "2")])))])))]))]))]))]))]))]))]))]))]))])))]))]))]))]))])))])));
("TestExpr_Parsing_BitwiseAnd/Bitwise AND - no spaces", same true KExpr "1&2" (Some (nd (Pos "" 0 1 1) KExpr [(FLeft, VPtr (Some (nd (Pos "" 0 1 1) KExprConditional [(FCondition, VEmb (nd (Pos "" 0 1 1) KExprLogicalOr [(FLeft, VEmb (nd (Pos "" 0 1 1) KExprLogicalAnd [(FLeft, VEmb (nd (Pos "" 0 1 1) KExprBitwiseOr [(FLeft, VEmb (nd (Pos "" 0 1 1) KExprBitwiseXor [(FLeft, VEmb (nd (Pos "" 0 1 1) KExprBitwiseAnd [(FLeft, VEmb (nd (Pos "" 0 1 1) KExprEquality [(FLeft, VEmb (nd (Pos "" 0 1 1) KExprRelational [(FLeft, VEmb (nd (Pos "" 0 1 1) KExprShift [(FLeft, VEmb (nd (Pos "" 0 1 1) KExprAdditive [(FLeft, VEmb (nd (Pos "" 0 1 1) KExprMultiplicative [(FLeft, VEmb (nd (Pos "" 0 1 1) KExprUnary [(FRight, VEmb (nd (Pos "" 0 1 1) KExprPostfix [(FValue, VEmb (nd (Pos "" 0 1 1) KExprPrimary [(FValue, VPtr (Some (nd (Pos "" 0 1 1) KValue [(FNumber, VPtr (Some (nd (Pos "" 0 1 1) KValueNumber [(FValue, VFloat (Some (tt, "1"))); (FSource, VStr "1")])))])))]))]))]))]))]))]))]))])); (FOp, VStr "&"); (FRight, VPtr (Some (nd (Pos "" 2 1 3) KExprBitwiseAnd [(FLeft, VEmb (nd (Pos "" 2 1 3) KExprEquality [(FLeft, VEmb (nd (Pos "" 2 1 3) KExprRelational [(FLeft, VEmb (nd (Pos "" 2 1 3) KExprShift [(FLeft, VEmb (nd (Pos "" 2 1 3) KExprAdditive [(FLeft, VEmb (nd (Pos "" 2 1 3) KExprMultiplicative [(FLeft, VEmb (nd (Pos "" 2 1 3) KExprUnary [(FRight, VEmb (nd (Pos "" 2 1 3) KExprPostfix [(FValue, VEmb (nd (Pos "" 2 1 3) KExprPrimary [(FValue, VPtr (Some (nd (Pos "" 2 1 3) KValue [(FNumber, VPtr (Some (nd (Pos "" 2 1 3) KValueNumber [(FValue, VFloat (Some (tt, "2"))); (FSource, VStr "2")])))])))]))]))]))]))]))]))]))]))])))]))]))]))]))]))])))])));
("TestExpr_Parsing_BitwiseAnd/Bitwise AND - spaces", same true KExpr "1 & 2" (Some (nd (Pos "" 0 1 1) KExpr [(FLeft, VPtr (Some (nd (Pos "" 0 1 1) KExprConditional [(FCondition, VEmb (nd (Pos "" 0 1 1) KExprLogicalOr [(FLeft, VEmb (nd (Pos "" 0 1 1) KExprLogicalAnd [(FLeft, VEmb (nd (Pos "" 0 1 1) KExprBitwiseOr [(FLeft, VEmb (nd (Pos "" 0 1 1) KExprBitwiseXor [(FLeft, VEmb (nd (Pos "" 0 1 1) KExprBitwiseAnd [(FLeft, VEmb (nd (Pos "" 0 1 1) KExprEquality [(FLeft, VEmb (nd (Pos "" 0 1 1) KExprRelational [(FLeft, VEmb (nd (Pos "" 0 1 1) KExprShift [(FLeft, VEmb (nd (Pos "" 0 1 1) KExprAdditive [(FLeft, VEmb (nd (Pos "" 0 1 1) KExprMultiplicative [(FLeft, VEmb (nd (Pos "" 0 1 1) KExprUnary [(FRight, VEmb (nd (Pos "" 0 1 1) KExprPostfix [(FValue, VEmb (nd (Pos "" 0 1 1) KExprPrimary [(FValue, VPtr (Some (nd (Pos "" 0 1 1) KValue [(FNumber, VPtr (Some (nd (Pos "" 0 1 1) KValueNumber [(FValue, VFloat (Some (tt, "1"))); (FSource, VStr "1")])))])))]))]))]))]))]))]))]))])); (FOp, VStr "&"); (FRight, VPtr (Some (nd (Pos "" 4 1 5) KExprBitwiseAnd [(FLeft, VEmb (nd (Pos "" 4 1 5) KExprEquality [(FLeft, VEmb (nd (Pos "" 4 1 5) KExprRelational [(FLeft, VEmb (nd (Pos "" 4 1 5) KExprShift [(FLeft, VEmb (nd (Pos "" 4 1 5) KExprAdditive [(FLeft, VEmb (nd (Pos "" 4 1 5) KExprMultiplicative [(FLeft, VEmb (nd (Pos "" 4 1 5) KExprUnary [(FRight, VEmb (nd (Pos "" 4 1 5) KExprPostfix [(FValue, VEmb (nd (Pos "" 4 1 5) KExprPrimary [(FValue, VPtr (Some (nd (Pos "" 4 1 5) KValue [(FNumber, VPtr (Some (nd (Pos "" 4 1 5) KValueNumber [(FValue, VFloat (Some (tt, "2"))); (FSource, VStr "2")])))])))]))]))]))]))]))]))]))]))])))]))]))]))]))]))])))])));
("TestExpr_Parsing_Equality/Equality - Equal - no spaces", same true KExpr "1==2" (Some (nd (Pos "" 0 1 1) KExpr [(FLeft, VPtr (Some (nd (Pos "" 0 1 1) KExprConditional [(FCondition, VEmb (nd (Pos "" 0 1 1) KExprLogicalOr [(FLeft, VEmb (nd (Pos "" 0 1 1) KExprLogicalAnd [(FLeft, VEmb (nd (Pos "" 0 1 1) KExprBitwiseOr [(FLeft, VEmb (nd (Pos "" 0 1 1) KExprBitwiseXor [(FLeft, VEmb (nd (Pos "" 0 1 1) KExprBitwiseAnd [(FLeft, VEmb (nd (Pos "" 0 1 1) KExprEquality [(FLeft, VEmb (nd (Pos "" 0 1 1) KExprRelational [(FLeft, VEmb (nd (Pos "" 0 1 1) KExprShift [(FLeft, VEmb (nd (Pos "" 0 1 1) KExprAdditive [(FLeft, VEmb (nd (Pos "" 0 1 1) KExprMultiplicative [(FLeft, VEmb (nd (Pos "" 0 1 1) KExprUnary [(FRight, VEmb (nd (Pos "" 0 1 1) KExprPostfix [(FValue, VEmb (nd (Pos "" 0 1 1) KExprPrimary [(FValue, VPtr (Some (nd (Pos "" 0 1 1) KValue [(FNumber, VPtr (Some (nd (Pos "" 0 1 1) KValueNumber [(FValue, VFloat (Some (tt, "1"))); (FSource, VStr "1")])))])))]))]))]))]))]))]))])); (FOp, VStr "=="); (FRight, VPtr (Some (nd (Pos "" 3 1 4) KExprEquality [(FLeft, VEmb (nd (Pos "" 3 1 4) KExprRelational [(FLeft, VEmb (nd (Pos "" 3 1 4) KExprShift [(FLeft, VEmb (nd (Pos "" 3 1 4) KExprAdditive [(FLeft, VEmb (nd (Pos "" 3 1 4) KExprMultiplicative [(FLeft, VEmb (nd (Pos "" 3 1 4) KExprUnary [(FRight, VEmb (nd (Pos "" 3 1 4) KExprPostfix [(FValue, VEmb (nd (Pos "" 3 1 4) KExprPrimary [(FValue, VPtr (Some (nd (Pos "" 3 1 4) KValue [(FNumber, VPtr (Some (nd (Pos "" 3 1 4) KValueNumber [(FValue, VFloat (Some (tt, "2"))); (FSource, VStr "2")])))])))]))]))]))]))]))]))]))])))]))]))]))]))]))]))])))])));
("TestExpr_Parsing_Equality/Equality - Equal - spaces", same true KExpr "1 == 2" (Some (nd (Pos "" 0 1 1) KExpr [(FLeft, VPtr (Some (nd (Pos "" 0 1 1) KExprConditional [(FCondition, VEmb (nd (Pos "" 0 1 1) KExprLogicalOr [(FLeft, VEmb (nd (Pos "" 0 1 1) KExprLogicalAnd [(FLeft, VEmb (nd (Pos "" 0 1 1) KExprBitwiseOr [(FLeft, VEmb (nd (Pos "" 0 1 1) KExprBitwiseXor [(FLeft, VEmb (nd (Pos "" 0 1 1) KExprBitwiseAnd [(FLeft, VEmb (nd (Pos "" 0 1 1) KExprEquality [(FLeft, VEmb (nd (Pos "" 0 1 1) KExprRelational [(FLeft, VEmb (nd (Pos "" 0 1 1) KExprShift [(FLeft, VEmb (nd (Pos "" 0 1 1) KExprAdditive [(FLeft, VEmb (nd (Pos "" 0 1 1) KExprMultiplicative [(FLeft, VEmb (nd (Pos "" 0 1 1) KExprUnary [(FRight, VEmb (nd (Pos "" 0 1 1) KExprPostfix [(FValue, VEmb (nd (Pos "" 0 1 1) KExprPrimary [(FValue, VPtr (Some (nd (Pos "" 0 1 1) KValue [(FNumber, VPtr (Some (nd (Pos "" 0 1 1) KValueNumber [(FValue, VFloat (Some (tt, "1"))); (FSource, VStr "1")])))])))]))]))]))]))]))]))])); (FOp, VStr "=="); (FRight, VPtr (Some (nd (Pos "" 5 1 6) KExprEquality [(FLeft, VEmb (nd (Pos "" 5 1 6) KExprRelational [(FLeft, VEmb (nd (Pos "" 5 1 6) KExprShift [(FLeft, VEmb (nd (Pos "" 5 1 6) KExprAdditive [(FLeft, VEmb (nd (Pos "" 5 1 6) KExprMultiplicative [(FLeft, VEmb (nd (Pos "" 5 1 6) KExprUnary [(FRight, VEmb (nd (Pos "" 5 1 6) KExprPostfix [(FValue, VEmb (nd (Pos "" 5 1 6) KExprPrimary [(FValue, VPtr (Some (nd (Pos "" 5 1 6) KValue [(FNumber, VPtr (Some (nd (Pos "" 5 1 6) KValueNumber [(FValue, VFloat (Some (tt, "2"))); (FSource, VStr "2")])))])))]))]))]))]))]))]))]))])))]))]))]))]))]))]))])))])));
("TestExpr_Parsing_Equality/Equality - Not Equal - no spaces", same true KExpr "1!=2" (Some (nd (Pos "" 0 1 1) KExpr [(FLeft, VPtr (Some (nd (Pos "" 0 1 1) KExprConditional [(FCondition, VEmb (nd (Pos "" 0 1 1) KExprLogicalOr [(FLeft, VEmb (nd (Pos "" 0 1 1) KExprLogicalAnd [(FLeft, VEmb (nd (Pos "" 0 1 1) KExprBitwiseOr [(FLeft, VEmb (nd (Pos "" 0 1 1) KExprBitwiseXor [(FLeft, VEmb (nd (Pos "" 0 1 1) KExprBitwiseAnd [(FLeft, VEmb (nd (Pos "" 0 1 1) KExprEquality [(FLeft, VEmb (nd (Pos "" 0 1 1) KExprRelational [(FLeft, VEmb (nd (Pos "" 0 1 1) KExprShift [(FLeft, VEmb (nd (Pos "" 0 1 1) KExprAdditive [(FLeft, VEmb (nd (Pos "" 0 1 1) KExprMultiplicative [(FLeft, VEmb (nd (Pos "" 0 1 1) KExprUnary [(FRight, VEmb (nd (Pos "" 0 1 1) KExprPostfix [(FValue, VEmb (nd (Pos "" 0 1 1) KExprPrimary [(FValue, VPtr (Some (nd (Pos "" 0 1 1) KValue [(FNumber, VPtr (Some (nd (Pos "" 0 1 1) KValueNumber [(FValue, VFloat (Some (tt, "1"))); (FSource, VStr "1")])))])))]))]))]))]))]))]))])); (FOp, VStr "!="); (FRight, VPtr (Some (nd (Pos "" 3 1 4) KExprEquality [(FLeft, VEmb (nd (Pos "" 3 1 4) KExprRelational [(FLeft, VEmb (nd (Pos "" 3 1 4) KExprShift [(FLeft, VEmb (nd (Pos "" 3 1 4) KExprAdditive [(FLeft, VEmb (nd (Pos "" 3 1 4) KExprMultiplicative [(FLeft, VEmb (nd (Pos "" 3 1 4) KExprUnary [(FRight, VEmb (nd (Pos "" 3 1 4) KExprPostfix [(FValue, VEmb (nd (Pos "" 3 1 4) KExprPrimary [(FValue, VPtr (Some (nd (Pos "" 3 1 4) KValue [(FNumber, VPtr (Some (nd (Pos "" 3 1 4) KValueNumber [(FValue, VFloat (Some (tt, "2"))); (FSource, VStr "2")])))])))]))]))]))]))]))]))]))])))]))]))]))]))]))]))])))])));
("TestExpr_Parsing_Equality/Equality - Not Equal - spaces", same true KExpr "1 != 2" (Some (nd (Pos "" 0 1 1) KExpr [(FLeft, VPtr (Some (nd (Pos "" 0 1 1) KExprConditional [(FCondition, VEmb (nd (Pos "" 0 1 1) KExprLogicalOr [(FLeft, VEmb (nd (Pos "" 0 1 1) KExprLogicalAnd [(FLeft, VEmb (nd (Pos "" 0 1 1) KExprBitwiseOr [(FLeft, VEmb (nd (Pos "" 0 1 1) KExprBitwiseXor [(FLeft, VEmb (nd (Pos "" 0 1 1) KExprBitwiseAnd [(FLeft, VEmb (nd (Pos "" 0 1 1) KExprEquality [(FLeft, VEmb (nd (Pos "" 0 1 1) KExprRelational [(FLeft, VEmb (nd (Pos "" 0 1 1) KExprShift [(FLeft, VEmb (nd (Pos "" 0 1 1) KExprAdditive [(FLeft, VEmb (nd (Pos "" 0 1 1) KExprMultiplicative [(FLeft, VEmb (nd (Pos "" 0 1 1) KExprUnary [(FRight, VEmb (nd (Pos "" 0 1 1) KExprPostfix [(FValue, VEmb (nd (Pos "" 0 1 1) KExprPrimary [(FValue, VPtr (Some (nd (Pos "" 0 1 1) KValue [(FNumber, VPtr (Some (nd (Pos "" 0 1 1) KValueNumber [(FValue, VFloat (Some (tt, "1"))); (FSource, VStr "1")])))])))]))]))]))]))]))]))])); (FOp, VStr "!="); (FRight, VPtr (Some (nd (Pos "" 5 1 6) KExprEquality [(FLeft, VEmb (nd (Pos "" 5 1 6) KExprRelational [(FLeft, VEmb (nd (Pos "" 5 1 6) KExprShift [(FLeft, VEmb (nd (Pos "" 5 1 6) KExprAdditive [(FLeft, VEmb (nd (Pos "" 5 1 6) KExprMultiplicative [(FLeft, VEmb (nd (Pos "" 5 1 6) KExprUnary [(FRight, VEmb (nd (Pos "" 5 1 6) KExprPostfix [(FValue, VEmb (nd (Pos "" 5 1 6) KExprPrimary [(FValue, VPtr (Some (nd (Pos "" 5 1 6) KValue [(FNumber, VPtr (Some (nd (Pos "" 5 1 6) KValueNumber [(FValue, VFloat (Some (tt, "2"))); (FSource, VStr "2")])))])))]))]))]))]))]))]))]))])))]))]))]))]))]))]))])))])));
("TestExpr_Parsing_Relational/Relational - More - no spaces", same true KExpr "1>2" (Some (nd (Pos "" 0 1 1) KExpr [(FLeft, VPtr (Some (nd (Pos "" 0 1 1) KExprConditional [(FCondition, VEmb (nd (Pos "" 0 1 1) KExprLogicalOr [(FLeft, VEmb (nd (Pos "" 0 1 1) KExprLogicalAnd [(FLeft, VEmb (nd (Pos "" 0 1 1) KExprBitwiseOr [(FLeft, VEmb (nd (Pos "" 0 1 1) KExprBitwiseXor [(FLeft, VEmb (nd (Pos "" 0 1 1) KExprBitwiseAnd [(FLeft, VEmb (nd (Pos "" 0 1 1) KExprEquality [(FLeft, VEmb (nd (Pos "" 0 1 1) KExprRelational [(FLeft, VEmb (nd (Pos "" 0 1 1) KExprShift [(FLeft, VEmb (nd (Pos "" 0 1 1) KExprAdditive [(FLeft, VEmb (nd (Pos "" 0 1 1) KExprMultiplicative [(FLeft, VEmb (nd (Pos "" 0 1 1) KExprUnary [(FRight, VEmb (nd (Pos "" 0 1 1) KExprPostfix [(FValue, VEmb (nd (Pos "" 0 1 1) KExprPrimary [(FValue, VPtr (Some (nd (Pos "" 0 1 1) KValue [(FNumber, VPtr (Some (nd (Pos "" 0 1 1) KValueNumber [(FValue, VFloat (Some (tt, "1"))); (FSource, VStr "1")])))])))]))]))]))]))]))])); (FOp, VStr ">"); (FRight, VPtr (Some (nd (Pos "" 2 1 3) KExprRelational [(FLeft, VEmb (nd (Pos "" 2 1 3) KExprShift [(FLeft, VEmb (nd (Pos "" 2 1 3) KExprAdditive [(FLeft, VEmb (nd (Pos "" 2 1 3) KExprMultiplicative [(FLeft, VEmb (nd (Pos "" 2 1 3) KExprUnary [(FRight, VEmb (nd (Pos "" 2 1 3) KExprPostfix [(FValue, VEmb (nd (Pos "" 2 1 3) KExprPrimary [(FValue, VPtr (Some (nd (Pos "" 2 1 3) KValue [(FNumber, VPtr (Some (nd (Pos "" 2 1 3) KValueNumber [(FValue, VFloat (Some (tt, "2"))); (FSource, VStr "2")])))])))]))]))]))]))]))]))])))]))]))]))]))]))]))]))])))])));
("TestExpr_Parsing_Relational/Relational - More - spaces", same true KExpr "1 > 2" (Some (nd (Pos "" 0 1 1) KExpr [(FLeft, VPtr (Some (nd (Pos "" 0 1 1) KExprConditional [(FCondition, VEmb (nd (Pos "" 0 1 1) KExprLogicalOr [(FLeft, VEmb (nd (Pos "" 0 1 1) KExprLogicalAnd [(FLeft, VEmb (nd (Pos "" 0 1 1) KExprBitwiseOr [(FLeft, VEmb (nd (Pos "" 0 1 1) KExprBitwiseXor [(FLeft, VEmb (nd (Pos "" 0 1 1) KExprBitwiseAnd [(FLeft, VEmb (nd (Pos "" 0 1 1) KExprEquality [(FLeft, VEmb (nd (Pos "" 0 1 1) KExprRelational [(FLeft, VEmb (nd (Pos "" 0 1 1) KExprShift [(FLeft, VEmb (nd (Pos "" 0 1 1) KExprAdditive [(FLeft, VEmb (nd (Pos "" 0 1 1) KExprMultiplicative [(FLeft, VEmb (nd (Pos "" 0 1 1) KExprUnary [(FRight, VEmb (nd (Pos "" 0 1 1) KExprPostfix [(FValue, VEmb (nd (Pos "" 0 1 1) KExprPrimary [(FValue, VPtr (Some (nd (Pos "" 0 1 1) KValue [(FNumber, VPtr (Some (nd (Pos "" 0 1 1) KValueNumber [(FValue, VFloat (Some (tt, "1"))); (FSource, VStr "1")])))])))]))]))]))]))]))])); (FOp, VStr ">"); (FRight, VPtr (Some (nd (Pos "" 4 1 5) KExprRelational [(FLeft, VEmb (nd (Pos "" 4 1 5) KExprShift [(FLeft, VEmb (nd (Pos "" 4 1 5) KExprAdditive [(FLeft, VEmb (nd (Pos "" 4 1 5) KExprMultiplicative [(FLeft, VEmb (nd (Pos "" 4 1 5) KExprUnary [(FRight, VEmb (nd (Pos "" 4 1 5) KExprPostfix [(FValue, VEmb (nd (Pos "" 4 1 5) KExprPrimary [(FValue, VPtr (Some (nd (Pos "" 4 1 5) KValue [(FNumber, VPtr (Some (nd (Pos "" 4 1 5) KValueNumber [(FValue, VFloat (Some (tt, "2"))); (FSource, VStr "2")])))])))]))]))]))]))]))]))])))]))]))]))]))]))]))]))])))])));
("TestExpr_Parsing_Relational/Relational - Less - no spaces", same true KExpr "1<2" (Some (nd (Pos "" 0 1 1) KExpr [(FLeft, VPtr (Some (nd (Pos "" 0 1 1) KExprConditional [(FCondition, VEmb (nd (Pos "" 0 1 1) KExprLogicalOr [(FLeft, VEmb (nd (Pos "" 0 1 1) KExprLogicalAnd [(FLeft, VEmb (nd (Pos "" 0 1 1) KExprBitwiseOr [(FLeft, VEmb (nd (Pos "" 0 1 1) KExprBitwiseXor [(FLeft, VEmb (nd (Pos "" 0 1 1) KExprBitwiseAnd [(FLeft, VEmb (nd (Pos "" 0 1 1) KExprEquality [(FLeft, VEmb (nd (Pos "" 0 1 1) KExprRelational [(FLeft, VEmb (nd (Pos "" 0 1 1) KExprShift [(FLeft, VEmb (nd (Pos "" 0 1 1) KExprAdditive [(FLeft, VEmb (nd (Pos "" 0 1 1) KExprMultiplicative [(FLeft, VEmb (nd (Pos "" 0 1 1) KExprUnary [(FRight, VEmb (nd (Pos "" 0 1 1) KExprPostfix [(FValue, VEmb (nd (Pos "" 0 1 1) KExprPrimary [(FValue, VPtr (Some (nd (Pos "" 0 1 1) KValue [(FNumber, VPtr (Some (nd (Pos "" 0 1 1) KValueNumber [(FValue, VFloat (Some (tt, "1"))); (FSource, VStr "1")])))])))]))]))]))]))]))])); (FOp, VStr "<"); (FRight, VPtr (Some (nd (Pos "" 2 1 3) KExprRelational [(FLeft, VEmb (nd (Pos "" 2 1 3) KExprShift [(FLeft, VEmb (nd (Pos "" 2 1 3) KExprAdditive [(FLeft, VEmb (nd (Pos "" 2 1 3) KExprMultiplicative [(FLeft, VEmb (nd (Pos "" 2 1 3) KExprUnary [(FRight, VEmb (nd (Pos "" 2 1 3) KExprPostfix [(FValue, VEmb (nd (Pos "" 2 1 3) KExprPrimary [(FValue, VPtr (Some (nd (Pos "" 2 1 3) KValue [(FNumber, VPtr (Some (nd (Pos "" 2 1 3) KValueNumber [(FValue, VFloat (Some (tt, "2"))); (FSource, VStr "2")])))])))]))]))]))]))]))]))])))]))]))]))]))]))]))]))])))])));
("TestExpr_Parsing_Relational/Relational - Less - spaces", same true KExpr "1 < 2" (Some (nd (Pos "" 0 1 1) KExpr [(FLeft, VPtr (Some (nd (Pos "" 0 1 1) KExprConditional [(FCondition, VEmb (nd (Pos "" 0 1 1) KExprLogicalOr [(FLeft, VEmb (nd (Pos "" 0 1 1) KExprLogicalAnd [(FLeft, VEmb (nd (Pos "" 0 1 1) KExprBitwiseOr [(FLeft, VEmb (nd (Pos "" 0 1 1) KExprBitwiseXor [(FLeft, VEmb (nd (Pos "" 0 1 1) KExprBitwiseAnd [(FLeft, VEmb (nd (Pos "" 0 1 1) KExprEquality [(FLeft, VEmb (nd (Pos "" 0 1 1) KExprRelational [(FLeft, VEmb (nd (Pos "" 0 1 1) KExprShift [(FLeft, VEmb (nd (Pos "" 0 1 1) KExprAdditive [(FLeft, VEmb (nd (Pos "" 0 1 1) KExprMultiplicative [(FLeft, VEmb (nd (Pos "" 0 1 1) KExprUnary [(FRight, VEmb (nd (Pos "" 0 1 1) KExprPostfix [(FValue, VEmb (nd (Pos "" 0 1 1) KExprPrimary [(FValue, VPtr (Some (nd (Pos "" 0 1 1) KValue [(FNumber, VPtr (Some (nd (Pos "" 0 1 1) KValueNumber [(FValue, VFloat (Some (tt, "1"))); (FSource, VStr "1")])))])))]))]))]))]))]))])); (FOp, VStr "<"); (FRight, VPtr (Some (nd (Pos "" 4 1 5) KExprRelational [(FLeft, VEmb (nd (Pos "" 4 1 5) KExprShift [(FLeft, VEmb (nd (Pos "" 4 1 5) KExprAdditive [(FLeft, VEmb (nd (Pos "" 4 1 5) KExprMultiplicative [(FLeft, VEmb (nd (Pos "" 4 1 5) KExprUnary [(FRight, VEmb (nd (Pos "" 4 1 5) KExprPostfix [(FValue, VEmb (nd (Pos "" 4 1 5) KExprPrimary [(FValue, VPtr (Some (nd (Pos "" 4 1 5) KValue [(FNumber, VPtr (Some (nd (Pos "" 4 1 5) KValueNumber [(FValue, VFloat (Some (tt, "2"))); (FSource, VStr "2")])))])))]))]))]))]))]))]))])))]))]))]))]))]))]))]))])))])));
("TestExpr_Parsing_Relational/Relational - More Or Equal - no spaces", same true KExpr "1>=2" (Some (nd (Pos "" 0 1 1) KExpr [(FLeft, VPtr (Some (nd (Pos "" 0 1 1) KExprConditional [(FCondition, VEmb (nd (Pos "" 0 1 1) KExprLogicalOr [(FLeft, VEmb (nd (Pos "" 0 1 1) KExprLogicalAnd [(FLeft, VEmb (nd (Pos "" 0 1 1) KExprBitwiseOr [(FLeft, VEmb (nd (Pos "" 0 1 1) KExprBitwiseXor [(FLeft, VEmb (nd (Pos "" 0 1 1) KExprBitwiseAnd [(FLeft, VEmb (nd (Pos "" 0 1 1) KExprEquality [(FLeft, VEmb (nd (Pos "" 0 1 1) KExprRelational [(FLeft, VEmb (nd (Pos "" 0 1 1) KExprShift [(FLeft, VEmb (nd (Pos "" 0 1 1) KExprAdditive [(FLeft, VEmb (nd (Pos "" 0 1 1) KExprMultiplicative [(FLeft, VEmb (nd (Pos "" 0 1 1) KExprUnary [(FRight, VEmb (nd (Pos "" 0 1 1) KExprPostfix [(FValue, VEmb (nd (Pos "" 0 1 1) KExprPrimary [(FValue, VPtr (Some (nd (Pos "" 0 1 1) KValue [(FNumber, VPtr (Some (nd (Pos "" 0 1 1) KValueNumber [(FValue, VFloat (Some (tt, "1"))); (FSource, VStr "1")])))])))]))]))]))]))]))])); (FOp, VStr ">="); (FRight, VPtr (Some (nd (Pos "" 3 1 4) KExprRelational [(FLeft, VEmb (nd (Pos "" 3 1 4) KExprShift [(FLeft, VEmb (nd (Pos "" 3 1 4) KExprAdditive [(FLeft, VEmb (nd (Pos "" 3 1 4) KExprMultiplicative [(FLeft, VEmb (nd (Pos "" 3 1 4) KExprUnary [(FRight, VEmb (nd (Pos "" 3 1 4) KExprPostfix [(FValue, VEmb (nd (Pos "" 3 1 4) KExprPrimary [(FValue, VPtr (Some (nd (Pos "" 3 1 4) KValue [(FNumber, VPtr (Some (nd (Pos "" 3 1 4) KValueNumber [(FValue, VFloat (Some (tt, "2"))); (FSource, VStr "2")])))])))]))]))]))]))]))]))])))]))]))]))]))]))]))]))])))])));
("TestExpr_Parsing_Relational/Relational - More Or Equal - spaces", same true KExpr "1 >= 2" (Some (nd (Pos "" 0 1 1) KExpr [(FLeft, VPtr (Some (nd (Pos "" 0 1 1) KExprConditional [(FCondition, VEmb (nd (Pos "" 0 1 1) KExprLogicalOr [(FLeft, VEmb (nd (Pos "" 0 1 1) KExprLogicalAnd [(FLeft, VEmb (nd (Pos "" 0 1 1) KExprBitwiseOr [(FLeft, VEmb (nd (Pos "" 0 1 1) KExprBitwiseXor [(FLeft, VEmb (nd (Pos "" 0 1 1) KExprBitwiseAnd [(FLeft, VEmb (nd (Pos "" 0 1 1) KExprEquality [(FLeft, VEmb (nd (Pos "" 0 1 1) KExprRelational [(FLeft, VEmb (nd (Pos "" 0 1 1) KExprShift [(FLeft, VEmb (nd (Pos "" 0 1 1) KExprAdditive [(FLeft, VEmb (nd (Pos "" 0 1 1) KExprMultiplicative [(FLeft, VEmb (nd (Pos "" 0 1 1) KExprUnary [(FRight, VEmb (nd (Pos "" 0 1 1) KExprPostfix [(FValue, VEmb (nd (Pos "" 0 1 1) KExprPrimary [(FValue, VPtr (Some (nd (Pos "" 0 1 1) KValue [(FNumber, VPtr (Some (nd (Pos "" 0 1 1) KValueNumber [(FValue, VFloat (Some (tt, "1"))); (FSource, VStr "1")])))])))]))]))]))]))]))])); (FOp, VStr ">="); (FRight, VPtr (Some (nd (Pos "" 5 1 6) KExprRelational [(FLeft, VEmb (nd (Pos "" 5 1 6) KExprShift [(FLeft, VEmb (nd (Pos "" 5 1 6) KExprAdditive [(FLeft, VEmb (nd (Pos "" 5 1 6) KExprMultiplicative [(FLeft, VEmb (nd (Pos "" 5 1 6) KExprUnary [(FRight, VEmb (nd (Pos "" 5 1 6) KExprPostfix [(FValue, VEmb (nd (Pos "" 5 1 6) KExprPrimary [(FValue, VPtr (Some (nd (Pos "" 5 1 6) KValue [(FNumber, VPtr (Some (nd (Pos "" 5 1 6) KValueNumber [(FValue, VFloat (Some (tt, "2"))); (FSource, VStr "2")])))])))]))]))]))]))]))]))])))]))]))]))]))]))]))]))])))])));
("TestExpr_Parsing_Relational/Relational - Less Or Equal - no spaces", same true KExpr "1<=2" (Some (nd (Pos "" 0 1 1) KExpr [(FLeft, VPtr (Some (nd (Pos "" 0 1 1) KExprConditional [(FCondition, VEmb (nd (Pos "" 0 1 1) KExprLogicalOr [(FLeft, VEmb (nd (Pos "" 0 1 1) KExprLogicalAnd [(FLeft, VEmb (nd (Pos "" 0 1 1) KExprBitwiseOr [(FLeft, VEmb (nd (Pos "" 0 1 1) KExprBitwiseXor [(FLeft, VEmb (nd (Pos "" 0 1 1) KExprBitwiseAnd [(FLeft, VEmb (nd (Pos "" 0 1 1) KExprEquality [(FLeft, VEmb (nd (Pos "" 0 1 1) KExprRelational [(FLeft, VEmb (nd (Pos "" 0 1 1) KExprShift [(FLeft, VEmb (nd (Pos "" 0 1 1) KExprAdditive [(FLeft, VEmb (nd (Pos "" 0 1 1) KExprMultiplicative [(FLeft, VEmb (nd (Pos "" 0 1 1) KExprUnary [(FRight, VEmb (nd (Pos "" 0 1 1) KExprPostfix [(FValue, VEmb (nd (Pos "" 0 1 1) KExprPrimary [(FValue, VPtr (Some (nd (Pos "" 0 1 1) KValue [(FNumber, VPtr (Some (nd (Pos "" 0 1 1) KValueNumber [(FValue, VFloat (Some (tt, "1"))); (FSource, VStr "1")])))])))]))]))]))]))]))])); (FOp, VStr "<="); (FRight, VPtr (Some (nd (Pos "" 3 1 4) KExprRelational [(FLeft, VEmb (nd (Pos "" 3 1 4) KExprShift [(FLeft, VEmb (nd (Pos "" 3 1 4) KExprAdditive [(FLeft, VEmb (nd (Pos "" 3 1 4) KExprMultiplicative [(FLeft, VEmb (nd (Pos "" 3 1 4) KExprUnary [(FRight, VEmb (nd (Pos "" 3 1 4) KExprPostfix [(FValue, VEmb (nd (Pos "" 3 1 4) KExprPrimary [(FValue, VPtr (Some (nd (Pos "" 3 1 4) KValue [(FNumber, VPtr (Some (nd (Pos "" 3 1 4) KValueNumber [(FValue, VFloat (Some (tt, "2"))); (FSource, VStr "2")])))])))]))]))]))]))]))]))])))]))]))]))]))]))]))]))])))])));
("TestExpr_Parsing_Relational/Relational - Less Or Equal - spaces", same true KExpr "1 <= 2" (Some (nd (Pos "" 0 1 1) KExpr [(FLeft, VPtr (Some (nd (Pos "" 0 1 1) KExprConditional [(FCondition, VEmb (nd (Pos "" 0 1 1) KExprLogicalOr [(FLeft, VEmb (nd (Pos "" 0 1 1) KExprLogicalAnd [(FLeft, VEmb (nd (Pos "" 0 1 1) KExprBitwiseOr [(FLeft, VEmb (nd (Pos "" 0 1 1) KExprBitwiseXor [(FLeft, VEmb (nd (Pos "" 0 1 1) KExprBitwiseAnd [(FLeft, VEmb (nd (Pos "" 0 1 1) KExprEquality [(FLeft, VEmb (nd (Pos "" 0 1 1) KExprRelational [(FLeft, VEmb (nd (Pos "" 0 1 1) KExprShift [(FLeft, VEmb (nd (Pos "" 0 1 1) KExprAdditive [(FLeft, VEmb (nd (Pos "" 0 1 1) KExprMultiplicative [(FLeft, VEmb (nd (Pos "" 0 1 1) KExprUnary [(FRight, VEmb (nd (Pos "" 0 1 1) KExprPostfix [(FValue, VEmb (nd (Pos "" 0 1 1) KExprPrimary [(FValue, VPtr (Some (nd (Pos "" 0 1 1) KValue [(FNumber, VPtr (Some (nd (Pos "" 0 1 1) KValueNumber [(FValue, VFloat (Some (tt, "1"))); (FSource, VStr "1")])))])))]))]))]))]))]))])); (FOp, VStr "<="); (FRight, VPtr (Some (nd (Pos "" 5 1 6) KExprRelational [(FLeft, VEmb (nd (Pos "" 5 1 6) KExprShift [(FLeft, VEmb (nd (Pos "" 5 1 6) KExprAdditive [(FLeft, VEmb (nd (Pos "" 5 1 6) KExprMultiplicative [(FLeft, VEmb (nd (Pos "" 5 1 6) KExprUnary [(FRight, VEmb (nd (Pos "" 5 1 6) KExprPostfix [(FValue, VEmb (nd (Pos "" 5 1 6) KExprPrimary [(FValue, VPtr (Some (nd (Pos "" 5 1 6) KValue [(FNumber, VPtr (Some (nd (Pos "" 5 1 6) KValueNumber [(FValue, VFloat (Some (tt, "2"))); (FSource, VStr "2")])))])))]))]))]))]))]))]))])))]))]))]))]))]))]))]))])))])));
("TestExpr_Parsing_Shift/Shift - Left - no spaces", same true KExpr "1<<2" (Some (nd (Pos "" 0 1 1) KExpr [(FLeft, VPtr (Some (nd (Pos "" 0 1 1) KExprConditional [(FCondition, VEmb (nd (Pos "" 0 1 1) KExprLogicalOr [(FLeft, VEmb (nd (Pos "" 0 1 1) KExprLogicalAnd [(FLeft, VEmb (nd (Pos "" 0 1 1) KExprBitwiseOr [(FLeft, VEmb (nd (Pos "" 0 1 1) KExprBitwiseXor [(FLeft, VEmb (nd (Pos "" 0 1 1) KExprBitwiseAnd [(FLeft, VEmb (nd (Pos "" 0 1 1) KExprEquality [(FLeft, VEmb (nd (Pos "" 0 1 1) KExprRelational [(FLeft, VEmb (nd (Pos "" 0 1 1) KExprShift [(FLeft, VEmb (nd (Pos "" 0 1 1) KExprAdditive [(FLeft, VEmb (nd (Pos "" 0 1 1) KExprMultiplicative [(FLeft, VEmb (nd (Pos "" 0 1 1) KExprUnary [(FRight, VEmb (nd (Pos "" 0 1 1) KExprPostfix [(FValue, VEmb (nd (Pos "" 0 1 1) KExprPrimary [(FValue, VPtr (Some (nd (Pos "" 0 1 1) KValue [(FNumber, VPtr (Some (nd (Pos "" 0 1 1) KValueNumber [(FValue, VFloat (Some (tt, "1"))); (FSource, VStr "1")])))])))]))]))]))]))])); (FOp, VStr "<<"); (FRight, VPtr (Some (nd (Pos "" 3 1 4) KExprShift [(FLeft, VEmb (nd (Pos "" 3 1 4) KExprAdditive [(FLeft, VEmb (nd (Pos "" 3 1 4) KExprMultiplicative [(FLeft, VEmb (nd (Pos "" 3 1 4) KExprUnary [(FRight, VEmb (nd (Pos "" 3 1 4) KExprPostfix [(FValue, VEmb (nd (Pos "" 3 1 4) KExprPrimary [(FValue, VPtr (Some (nd (Pos "" 3 1 4) KValue [(FNumber, VPtr (Some (nd (Pos "" 3 1 4) KValueNumber [(FValue, VFloat (Some (tt, "2"))); (FSource, VStr "2")])))])))]))]))]))]))]))])))]))]))]))]))]))]))]))]))])))])));
("TestExpr_Parsing_Shift/Shift - Left - spaces", same true KExpr "1 << 2" (Some (nd (Pos "" 0 1 1) KExpr [(FLeft, VPtr (Some (nd (Pos "" 0 1 1) KExprConditional [(FCondition, VEmb (nd (Pos "" 0 1 1) KExprLogicalOr [(FLeft, VEmb (nd (Pos "" 0 1 1) KExprLogicalAnd [(FLeft, VEmb (nd (Pos "" 0 1 1) KExprBitwiseOr [(FLeft, VEmb (nd (Pos "" 0 1 1) KExprBitwiseXor [(FLeft, VEmb (nd (Pos "" 0 1 1) KExprBitwiseAnd [(FLeft, VEmb (nd (Pos "" 0 1 1) KExprEquality [(FLeft, VEmb (nd (Pos "" 0 1 1) KExprRelational [(FLeft, VEmb (nd (Pos "" 0 1 1) KExprShift [(FLeft, VEmb (nd (Pos "" 0 1 1) KExprAdditive [(FLeft, VEmb (nd (Pos "" 0 1 1) KExprMultiplicative [(FLeft, VEmb (nd (Pos "" 0 1 1) KExprUnary [(FRight, VEmb (nd (Pos "" 0 1 1) KExprPostfix [(FValue, VEmb (nd (Pos "" 0 1 1) KExprPrimary [(FValue, VPtr (Some (nd (Pos "" 0 1 1) KValue [(FNumber, VPtr (Some (nd (Pos "" 0 1 1) KValueNumber [(FValue, VFloat (Some (tt, "1"))); (FSource, VStr "1")])))])))]))]))]))]))])); (FOp, VStr "<<"); (FRight, VPtr (Some (nd (Pos "" 5 1 6) KExprShift [(FLeft, VEmb (nd (Pos "" 5 1 6) KExprAdditive [(FLeft, VEmb (nd (Pos "" 5 1 6) KExprMultiplicative [(FLeft, VEmb (nd (Pos "" 5 1 6) KExprUnary [(FRight, VEmb (nd (Pos "" 5 1 6) KExprPostfix [(FValue, VEmb (nd (Pos "" 5 1 6) KExprPrimary [(FValue, VPtr (Some (nd (Pos "" 5 1 6) KValue [(FNumber, VPtr (Some (nd (Pos "" 5 1 6) KValueNumber [(FValue, VFloat (Some (tt, "2"))); (FSource, VStr "2")])))])))]))]))]))]))]))])))]))]))]))]))]))]))]))]))])))])));
("TestExpr_Parsing_Shift/Shift - Right - no spaces", same true KExpr "1>>2" (Some (nd (Pos "" 0 1 1) KExpr [(FLeft, VPtr (Some (nd (Pos "" 0 1 1) KExprConditional [(FCondition, VEmb (nd (Pos "" 0 1 1) KExprLogicalOr [(FLeft, VEmb (nd (Pos "" 0 1 1) KExprLogicalAnd [(FLeft, VEmb (nd (Pos "" 0 1 1) KExprBitwiseOr [(FLeft, VEmb (nd (Pos "" 0 1 1) KExprBitwiseXor [(FLeft, VEmb (nd (Pos "" 0 1 1) KExprBitwiseAnd [(FLeft, VEmb (nd (Pos "" 0 1 1) KExprEquality [(FLeft, VEmb (nd (Pos "" 0 1 1) KExprRelational [(FLeft, VEmb (nd (Pos "" 0 1 1) KExprShift [(FLeft, VEmb (nd (Pos "" 0 1 1) KExprAdditive [(FLeft, VEmb (nd (Pos "" 0 1 1) KExprMultiplicative [(FLeft, VEmb (nd (Pos "" 0 1 1) KExprUnary [(FRight, VEmb (nd (Pos "" 0 1 1) KExprPostfix [(FValue, VEmb (nd (Pos "" 0 1 1) KExprPrimary [(FValue, VPtr (Some (nd (Pos "" 0 1 1) KValue [(FNumber, VPtr (Some (nd (Pos "" 0 1 1) KValueNumber [(FValue, VFloat (Some (tt, "1"))); (FSource, VStr "1")])))])))]))]))]))]))])); (FOp, VStr ">>"); (FRight, VPtr (Some (nd (Pos "" 3 1 4) KExprShift [(FLeft, VEmb (nd (Pos "" 3 1 4) KExprAdditive [(FLeft, VEmb (nd (Pos "" 3 1 4) KExprMultiplicative [(FLeft, VEmb (nd (Pos "" 3 1 4) KExprUnary [(FRight, VEmb (nd (Pos "" 3 1 4) KExprPostfix [(FValue, VEmb (nd (Pos "" 3 1 4) KExprPrimary [(FValue, VPtr (Some (nd (Pos "" 3 1 4) KValue [(FNumber, VPtr (Some (nd (Pos "" 3 1 4) KValueNumber [(FValue, VFloat (Some (tt, "2"))); (FSource, VStr "2")])))])))]))]))]))]))]))])))]))]))]))]))]))]))]))]))])))])));
("TestExpr_Parsing_Shift/Shift - Right - spaces", same true KExpr "1 >> 2" (Some (nd (Pos "" 0 1 1) KExpr [(FLeft, VPtr (Some (nd (Pos "" 0 1 1) KExprConditional [(FCondition, VEmb (nd (Pos "" 0 1 1) KExprLogicalOr [(FLeft, VEmb (nd (Pos "" 0 1 1) KExprLogicalAnd [(FLeft, VEmb (nd (Pos "" 0 1 1) KExprBitwiseOr [(FLeft, VEmb (nd (Pos "" 0 1 1) KExprBitwiseXor [(FLeft, VEmb (nd (Pos "" 0 1 1) KExprBitwiseAnd [(FLeft, VEmb (nd (Pos "" 0 1 1) KExprEquality [(FLeft, VEmb (nd (Pos "" 0 1 1) KExprRelational [(FLeft, VEmb (nd (Pos "" 0 1 1) KExprShift [(FLeft, VEmb (nd (Pos "" 0 1 1) KExprAdditive [(FLeft, VEmb (nd (Pos "" 0 1 1) KExprMultiplicative [(FLeft, VEmb (nd (Pos "" 0 1 1) KExprUnary [(FRight, VEmb (nd (Pos "" 0 1 1) KExprPostfix [(FValue, VEmb (nd (Pos "" 0 1 1) KExprPrimary [(FValue, VPtr (Some (nd (Pos "" 0 1 1) KValue [(FNumber, VPtr (Some (nd (Pos "" 0 1 1) KValueNumber [(FValue, VFloat (Some (tt, "1"))); (FSource, VStr "1")])))])))]))]))]))]))])); (FOp, VStr ">>"); (FRight, VPtr (Some (nd (Pos "" 5 1 6) KExprShift [(FLeft, VEmb (nd (Pos "" 5 1 6) KExprAdditive [(FLeft, VEmb (nd (Pos "" 5 1 6) KExprMultiplicative [(FLeft, VEmb (nd (Pos "" 5 1 6) KExprUnary [(FRight, VEmb (nd (Pos "" 5 1 6) KExprPostfix [(FValue, VEmb (nd (Pos "" 5 1 6) KExprPrimary [(FValue, VPtr (Some (nd (Pos "" 5 1 6) KValue [(FNumber, VPtr (Some (nd (Pos "" 5 1 6) KValueNumber [(FValue, VFloat (Some (tt, "2"))); (FSource, VStr "2")])))])))]))]))]))]))]))])))]))]))]))]))]))]))]))]))])))])));
("TestExpr_Parsing_Additive/Additive - Plus - no spaces", same true KExpr "1+2" (Some (nd (Pos "" 0 1 1) KExpr [(FLeft, VPtr (Some (nd (Pos "" 0 1 1) KExprConditional [(FCondition, VEmb (nd (Pos "" 0 1 1) KExprLogicalOr [(FLeft, VEmb (nd (Pos "" 0 1 1) KExprLogicalAnd [(FLeft, VEmb (nd (Pos "" 0 1 1) KExprBitwiseOr [(FLeft, VEmb (nd (Pos "" 0 1 1) KExprBitwiseXor [(FLeft, VEmb (nd (Pos "" 0 1 1) KExprBitwiseAnd [(FLeft, VEmb (nd (Pos "" 0 1 1) KExprEquality [(FLeft, VEmb (nd (Pos "" 0 1 1) KExprRelational [(FLeft, VEmb (nd (Pos "" 0 1 1) KExprShift [(FLeft, VEmb (nd (Pos "" 0 1 1) KExprAdditive [(FLeft, VEmb (nd (Pos "" 0 1 1) KExprMultiplicative [(FLeft, VEmb (nd (Pos "" 0 1 1) KExprUnary [(FRight, VEmb (nd (Pos "" 0 1 1) KExprPostfix [(FValue, VEmb (nd (Pos "" 0 1 1) KExprPrimary [(FValue, VPtr (Some (nd (Pos "" 0 1 1) KValue [(FNumber, VPtr (Some (nd (Pos "" 0 1 1) KValueNumber [(FValue, VFloat (Some (tt, "1"))); (FSource, VStr "1")])))])))]))]))]))])); (FOp, VStr "+"); (FRight, VPtr (Some (nd (Pos "" 2 1 3) KExprAdditive [(FLeft, VEmb (nd (Pos "" 2 1 3) KExprMultiplicative [(FLeft, VEmb (nd (Pos "" 2 1 3) KExprUnary [(FRight, VEmb (nd (Pos "" 2 1 3) KExprPostfix [(FValue, VEmb (nd (Pos "" 2 1 3) KExprPrimary [(FValue, VPtr (Some (nd (Pos "" 2 1 3) KValue [(FNumber, VPtr (Some (nd (Pos "" 2 1 3) KValueNumber [(FValue, VFloat (Some (tt, "2"))); (FSource, VStr "2")])))])))]))]))]))]))])))]))]))]))]))]))]))]))]))]))])))])));
("TestExpr_Parsing_Additive/Additive - Plus - spaces", same true KExpr "1 + 2" (Some (nd (Pos "" 0 1 1) KExpr [(FLeft, VPtr (Some (nd (Pos "" 0 1 1) KExprConditional [(FCondition, VEmb (nd (Pos "" 0 1 1) KExprLogicalOr [(FLeft, VEmb (nd (Pos "" 0 1 1) KExprLogicalAnd [(FLeft, VEmb (nd (Pos "" 0 1 1) KExprBitwiseOr [(FLeft, VEmb (nd (Pos "" 0 1 1) KExprBitwiseXor [(FLeft, VEmb (nd (Pos "" 0 1 1) KExprBitwiseAnd [(FLeft, VEmb (nd (Pos "" 0 1 1) KExprEquality [(FLeft, VEmb (nd (Pos "" 0 1 1) KExprRelational [(FLeft, VEmb (nd (Pos "" 0 1 1) KExprShift [(FLeft, VEmb (nd (Pos "" 0 1 1) KExprAdditive [(FLeft, VEmb (nd (Pos "" 0 1 1) KExprMultiplicative [(FLeft, VEmb (nd (Pos "" 0 1 1) KExprUnary [(FRight, VEmb (nd (Pos "" 0 1 1) KExprPostfix [(FValue, VEmb (nd (Pos "" 0 1 1) KExprPrimary [(FValue, VPtr (Some (nd (Pos "" 0 1 1) KValue [(FNumber, VPtr (Some (nd (Pos "" 0 1 1) KValueNumber [(FValue, VFloat (Some (tt, "1"))); (FSource, VStr "1")])))])))]))]))]))])); (FOp, VStr "+"); (FRight, VPtr (Some (nd (Pos "" 4 1 5) KExprAdditive [(FLeft, VEmb (nd (Pos "" 4 1 5) KExprMultiplicative [(FLeft, VEmb (nd (Pos "" 4 1 5) KExprUnary [(FRight, VEmb (nd (Pos "" 4 1 5) KExprPostfix [(FValue, VEmb (nd (Pos "" 4 1 5) KExprPrimary [(FValue, VPtr (Some (nd (Pos "" 4 1 5) KValue [(FNumber, VPtr (Some (nd (Pos "" 4 1 5) KValueNumber [(FValue, VFloat (Some (tt, "2"))); (FSource, VStr "2")])))])))]))]))]))]))])))]))]))]))]))]))]))]))]))]))])))])));
("TestExpr_Parsing_Additive/Additive - Minus - no spaces", same true KExpr "1-2" (Some (nd (Pos "" 0 1 1) KExpr [(FLeft, VPtr (Some (nd (Pos "" 0 1 1) KExprConditional [(FCondition, VEmb (nd (Pos "" 0 1 1) KExprLogicalOr [(FLeft, VEmb (nd (Pos "" 0 1 1) KExprLogicalAnd [(FLeft, VEmb (nd (Pos "" 0 1 1) KExprBitwiseOr [(FLeft, VEmb (nd (Pos "" 0 1 1) KExprBitwiseXor [(FLeft, VEmb (nd (Pos "" 0 1 1) KExprBitwiseAnd [(FLeft, VEmb (nd (Pos "" 0 1 1) KExprEquality [(FLeft, VEmb (nd (Pos "" 0 1 1) KExprRelational [(FLeft, VEmb (nd (Pos "" 0 1 1) KExprShift [(FLeft, VEmb (nd (Pos "" 0 1 1) KExprAdditive [(FLeft, VEmb (nd (Pos "" 0 1 1) KExprMultiplicative [(FLeft, VEmb (nd (Pos "" 0 1 1) KExprUnary [(FRight, VEmb (nd (Pos "" 0 1 1) KExprPostfix [(FValue, VEmb (nd (Pos "" 0 1 1) KExprPrimary [(FValue, VPtr (Some (nd (Pos "" 0 1 1) KValue [(FNumber, VPtr (Some (nd (Pos "" 0 1 1) KValueNumber [(FValue, VFloat (Some (tt, "1"))); (FSource, VStr "1")])))])))]))]))]))])); (FOp, VStr "-"); (FRight, VPtr (Some (nd (Pos "" 2 1 3) KExprAdditive [(FLeft, VEmb (nd (Pos "" 2 1 3) KExprMultiplicative [(FLeft, VEmb (nd (Pos "" 2 1 3) KExprUnary [(FRight, VEmb (nd (Pos "" 2 1 3) KExprPostfix [(FValue, VEmb (nd (Pos "" 2 1 3) KExprPrimary [(FValue, VPtr (Some (nd (Pos "" 2 1 3) KValue [(FNumber, VPtr (Some (nd (Pos "" 2 1 3) KValueNumber [(FValue, VFloat (Some (tt, "2"))); (FSource, VStr "2")])))])))]))]))]))]))])))]))]))]))]))]))]))]))]))]))])))])));
("TestExpr_Parsing_Additive/Additive - Minus - spaces", same true KExpr "1 - 2" (Some (nd (Pos "" 0 1 1) KExpr [(FLeft, VPtr (Some (nd (Pos "" 0 1 1) KExprConditional [(FCondition, VEmb (nd (Pos "" 0 1 1) KExprLogicalOr [(FLeft, VEmb (nd (Pos "" 0 1 1) KExprLogicalAnd [(FLeft, VEmb (nd (Pos "" 0 1 1) KExprBitwiseOr [(FLeft, VEmb (nd (Pos "" 0 1 1) KExprBitwiseXor [(FLeft, VEmb (nd (Pos "" 0 1 1) KExprBitwiseAnd [(FLeft, VEmb (nd (Pos "" 0 1 1) KExprEquality [(FLeft, VEmb (nd (Pos "" 0 1 1) KExprRelational [(FLeft, VEmb (nd (Pos "" 0 1 1) KExprShift [(FLeft, VEmb (nd (Pos "" 0 1 1) KExprAdditive [(FLeft, VEmb (nd (Pos "" 0 1 1) KExprMultiplicative [(FLeft, VEmb (nd (Pos "" 0 1 1) KExprUnary [(FRight, VEmb (nd (Pos "" 0 1 1) KExprPostfix [(FValue, VEmb (nd (Pos "" 0 1 1) KExprPrimary [(FValue, VPtr (Some (nd (Pos "" 0 1 1) KValue [(FNumber, VPtr (Some (nd (Pos "" 0 1 1) KValueNumber [(FValue, VFloat (Some (tt, "1"))); (FSource, VStr "1")])))])))]))]))]))])); (FOp, VStr "-"); (FRight, VPtr (Some (nd (Pos "" 4 1 5) KExprAdditive [(FLeft, VEmb (nd (Pos "" 4 1 5) KExprMultiplicative [(FLeft, VEmb (nd (Pos "" 4 1 5) KExprUnary [(FRight, VEmb (nd (Pos "" 4 1 5) KExprPostfix [(FValue, VEmb (nd (Pos "" 4 1 5) KExprPrimary [(FValue, VPtr (Some (nd (Pos "" 4 1 5) KValue [(FNumber, VPtr (Some (nd (Pos "" 4 1 5) KValueNumber [(FValue, VFloat (Some (tt, "2"))); (FSource, VStr "2")])))])))]))]))]))]))])))]))]))]))]))]))]))]))]))]))])))])));
("TestExpr_Parsing_Multiplicative/Multiplicative - Division - no spaces", same true KExpr "1/2" (Some (nd (Pos "" 0 1 1) KExpr [(FLeft, VPtr (Some (nd (Pos "" 0 1 1) KExprConditional [(FCondition, VEmb (nd (Pos "" 0 1 1) KExprLogicalOr [(FLeft, VEmb (nd (Pos "" 0 1 1) KExprLogicalAnd [(FLeft, VEmb (nd (Pos "" 0 1 1) KExprBitwiseOr [(FLeft, VEmb (nd (Pos "" 0 1 1) KExprBitwiseXor [(FLeft, VEmb (nd (Pos "" 0 1 1) KExprBitwiseAnd [(FLeft, VEmb (nd (Pos "" 0 1 1) KExprEquality [(FLeft, VEmb (nd (Pos "" 0 1 1) KExprRelational [(FLeft, VEmb (nd (Pos "" 0 1 1) KExprShift [(FLeft, VEmb (nd (Pos "" 0 1 1) KExprAdditive [(FLeft, VEmb (nd (Pos "" 0 1 1) KExprMultiplicative [(FLeft, VEmb (nd (Pos "" 0 1 1) KExprUnary [(FRight, VEmb (nd (Pos "" 0 1 1) KExprPostfix [(FValue, VEmb (nd (Pos "" 0 1 1) KExprPrimary [(FValue, VPtr (Some (nd (Pos "" 0 1 1) KValue [(FNumber, VPtr (Some (nd (Pos "" 0 1 1) KValueNumber [(FValue, VFloat (Some (tt, "1"))); (FSource, VStr "1")])))])))]))]))])); (FOp, VStr "/"); (FRight, VPtr (Some (nd (Pos "" 2 1 3) KExprMultiplicative [(FLeft, VEmb (nd (Pos "" 2 1 3) KExprUnary [(FRight, VEmb (nd (Pos "" 2 1 3) KExprPostfix [(FValue, VEmb (nd (Pos "" 2 1 3) KExprPrimary [(FValue, VPtr (Some (nd (Pos "" 2 1 3) KValue [(FNumber, VPtr (Some (nd (Pos "" 2 1 3) KValueNumber [(FValue, VFloat (Some (tt, "2"))); (FSource, VStr "2")])))])))]))]))]))])))]))]))]))]))]))]))]))]))]))]))])))])));
("TestExpr_Parsing_Multiplicative/Multiplicative - Division - spaces", same true KExpr "1 / 2" (Some (nd (Pos "" 0 1 1) KExpr [(FLeft, VPtr (Some (nd (Pos "" 0 1 1) KExprConditional [(FCondition, VEmb (nd (Pos "" 0 1 1) KExprLogicalOr [(FLeft, VEmb (nd (Pos "" 0 1 1) KExprLogicalAnd [(FLeft, VEmb (nd (Pos "" 0 1 1) KExprBitwiseOr [(FLeft, VEmb (nd (Pos "" 0 1 1) KExprBitwiseXor [(FLeft, VEmb (nd (Pos "" 0 1 1) KExprBitwiseAnd [(FLeft, VEmb (nd (Pos "" 0 1 1) KExprEquality [(FLeft, VEmb (nd (Pos "" 0 1 1) KExprRelational [(FLeft, VEmb (nd (Pos "" 0 1 1) KExprShift [(FLeft, VEmb (nd (Pos "" 0 1 1) KExprAdditive [(FLeft, VEmb (nd (Pos "" 0 1 1) KExprMultiplicative [(FLeft, VEmb (nd (Pos "" 0 1 1) KExprUnary [(FRight, VEmb (nd (Pos "" 0 1 1) KExprPostfix [(FValue, VEmb (nd (Pos "" 0 1 1) KExprPrimary [(FValue, VPtr (Some (nd (Pos "" 0 1 1) KValue [(FNumber, VPtr (Some (nd (Pos "" 0 1 1) KValueNumber [(FValue, VFloat (Some (tt, "1"))); (FSource, VStr "1")])))])))]))]))])); (FOp, VStr "/"); (FRight, VPtr (Some (nd (Pos "" 4 1 5) KExprMultiplicative [(FLeft, VEmb (nd (Pos "" 4 1 5) KExprUnary [(FRight, VEmb (nd (Pos "" 4 1 5) KExprPostfix [(FValue, VEmb (nd (Pos "" 4 1 5) KExprPrimary [(FValue, VPtr (Some (nd (Pos "" 4 1 5) KValue [(FNumber, VPtr (Some (nd (Pos "" 4 1 5) KValueNumber [(FValue, VFloat (Some (tt, "2"))); (FSource, VStr "2")])))])))]))]))]))])))]))]))]))]))]))]))]))]))]))]))])))])));
("TestExpr_Parsing_Multiplicative/Multiplicative - Multiplication - no spaces", same true KExpr "1*2" (Some (nd (Pos "" 0 1 1) KExpr [(FLeft, VPtr (Some (nd (Pos "" 0 1 1) KExprConditional [(FCondition, VEmb (nd (Pos "" 0 1 1) KExprLogicalOr [(FLeft, VEmb (nd (Pos "" 0 1 1) KExprLogicalAnd [(FLeft, VEmb (nd (Pos "" 0 1 1) KExprBitwiseOr [(FLeft, VEmb (nd (Pos "" 0 1 1) KExprBitwiseXor [(FLeft, VEmb (nd (Pos "" 0 1 1) KExprBitwiseAnd [(FLeft, VEmb (nd (Pos "" 0 1 1) KExprEquality [(FLeft, VEmb (nd (Pos "" 0 1 1) KExprRelational [(FLeft, VEmb (nd (Pos "" 0 1 1) KExprShift [(FLeft, VEmb (nd (Pos "" 0 1 1) KExprAdditive [(FLeft, VEmb (nd (Pos "" 0 1 1) KExprMultiplicative [(FLeft, VEmb (nd (Pos "" 0 1 1) KExprUnary [(FRight, VEmb (nd (Pos "" 0 1 1) KExprPostfix [(FValue, VEmb (nd (Pos "" 0 1 1) KExprPrimary [(FValue, VPtr (Some (nd (Pos "" 0 1 1) KValue [(FNumber, VPtr (Some (nd (Pos "" 0 1 1) KValueNumber [(FValue, VFloat (Some (tt, "1"))); (FSource, VStr "1")])))])))]))]))])); (FOp, VStr "*"); (FRight, VPtr (Some (nd (Pos "" 2 1 3) KExprMultiplicative [(FLeft, VEmb (nd (Pos "" 2 1 3) KExprUnary [(FRight, VEmb (nd (Pos "" 2 1 3) KExprPostfix [(FValue, VEmb (nd (Pos "" 2 1 3) KExprPrimary [(FValue, VPtr (Some (nd (Pos "" 2 1 3) KValue [(FNumber, VPtr (Some (nd (Pos "" 2 1 3) KValueNumber [(FValue, VFloat (Some (tt, "2"))); (FSource, VStr "2")])))])))]))]))]))])))]))]))]))]))]))]))]))]))]))]))])))])));
("TestExpr_Parsing_Multiplicative/Multiplicative - Multiplication - spaces", same true KExpr "1 * 2" (Some (nd (Pos "" 0 1 1) KExpr [(FLeft, VPtr (Some (nd (Pos "" 0 1 1) KExprConditional [(FCondition, VEmb (nd (Pos "" 0 1 1) KExprLogicalOr [(FLeft, VEmb (nd (Pos "" 0 1 1) KExprLogicalAnd [(FLeft, VEmb (nd (Pos "" 0 1 1) KExprBitwiseOr [(FLeft, VEmb (nd (Pos "" 0 1 1) KExprBitwiseXor [(FLeft, VEmb (nd (Pos "" 0 1 1) KExprBitwiseAnd [(FLeft, VEmb (nd (Pos "" 0 1 1) KExprEquality [(FLeft, VEmb (nd (Pos "" 0 1 1) KExprRelational [(FLeft, VEmb (nd (Pos "" 0 1 1) KExprShift [(FLeft, VEmb (nd (Pos "" 0 1 1) KExprAdditive [(FLeft, VEmb (nd (Pos "" 0 1 1) KExprMultiplicative [(FLeft, VEmb (nd (Pos "" 0 1 1) KExprUnary [(FRight, VEmb (nd (Pos "" 0 1 1) KExprPostfix [(FValue, VEmb (nd (Pos "" 0 1 1) KExprPrimary [(FValue, VPtr (Some (nd (Pos "" 0 1 1) KValue [(FNumber, VPtr (Some (nd (Pos "" 0 1 1) KValueNumber [(FValue, VFloat (Some (tt, "1"))); (FSource, VStr "1")])))])))]))]))])); (FOp, VStr "*"); (FRight, VPtr (Some (nd (Pos "" 4 1 5) KExprMultiplicative [(FLeft, VEmb (nd (Pos "" 4 1 5) KExprUnary [(FRight, VEmb (nd (Pos "" 4 1 5) KExprPostfix [(FValue, VEmb (nd (Pos "" 4 1 5) KExprPrimary [(FValue, VPtr (Some (nd (Pos "" 4 1 5) KValue [(FNumber, VPtr (Some (nd (Pos "" 4 1 5) KValueNumber [(FValue, VFloat (Some (tt, "2"))); (FSource, VStr "2")])))])))]))]))]))])))]))]))]))]))]))]))]))]))]))]))])))])));
("TestExpr_Parsing_Multiplicative/Multiplicative - Modulo - no spaces", same true KExpr "1%2" (Some (nd (Pos "" 0 1 1) KExpr [(FLeft, VPtr (Some (nd (Pos "" 0 1 1) KExprConditional [(FCondition, VEmb (nd (Pos "" 0 1 1) KExprLogicalOr [(FLeft, VEmb (nd (Pos "" 0 1 1) KExprLogicalAnd [(FLeft, VEmb (nd (Pos "" 0 1 1) KExprBitwiseOr [(FLeft, VEmb (nd (Pos "" 0 1 1) KExprBitwiseXor [(FLeft, VEmb (nd (Pos "" 0 1 1) KExprBitwiseAnd [(FLeft, VEmb (nd (Pos "" 0 1 1) KExprEquality [(FLeft, VEmb (nd (Pos "" 0 1 1) KExprRelational [(FLeft, VEmb (nd (Pos "" 0 1 1) KExprShift [(FLeft, VEmb (nd (Pos "" 0 1 1) KExprAdditive [(FLeft, VEmb (nd (Pos "" 0 1 1) KExprMultiplicative [(FLeft, VEmb (nd (Pos "" 0 1 1) KExprUnary [(FRight, VEmb (nd (Pos "" 0 1 1) KExprPostfix [(FValue, VEmb (nd (Pos "" 0 1 1) KExprPrimary [(FValue, VPtr (Some (nd (Pos "" 0 1 1) KValue [(FNumber, VPtr (Some (nd (Pos "" 0 1 1) KValueNumber [(FValue, VFloat (Some (tt, "1"))); (FSource, VStr "1")])))])))]))]))])); (FOp, VStr "%"); (FRight, VPtr (Some (nd (Pos "" 2 1 3) KExprMultiplicative [(FLeft, VEmb (nd (Pos "" 2 1 3) KExprUnary [(FRight, VEmb (nd (Pos "" 2 1 3) KExprPostfix [(FValue, VEmb (nd (Pos "" 2 1 3) KExprPrimary [(FValue, VPtr (Some (nd (Pos "" 2 1 3) KValue [(FNumber, VPtr (Some (nd (Pos "" 2 1 3) KValueNumber [(FValue, VFloat (Some (tt, "2"))); (FSource, VStr "2")])))])))]))]))]))])))]))]))]))]))]))]))]))]))]))]))])))])));
("TestExpr_Parsing_Multiplicative/Multiplicative - Modulo - spaces", same true KExpr "1 % 2" (Some (nd (Pos "" 0 1 1) KExpr [(FLeft, VPtr (Some (nd (Pos "" 0 1 1) KExprConditional [(FCondition, VEmb (nd (Pos "" 0 1 1) KExprLogicalOr [(FLeft, VEmb (nd (Pos "" 0 1 1) KExprLogicalAnd [(FLeft, VEmb (nd (Pos "" 0 1 1) KExprBitwiseOr [(FLeft, VEmb (nd (Pos "" 0 1 1) KExprBitwiseXor [(FLeft, VEmb (nd (Pos "" 0 1 1) KExprBitwiseAnd [(FLeft, VEmb (nd (Pos "" 0 1 1) KExprEquality [(FLeft, VEmb (nd (Pos "" 0 1 1) KExprRelational [(FLeft, VEmb (nd (Pos "" 0 1 1) KExprShift [(FLeft, VEmb (nd (Pos "" 0 1 1) KExprAdditive [(FLeft, VEmb (nd (Pos "" 0 1 1) KExprMultiplicative [(FLeft, VEmb (nd (Pos "" 0 1 1) KExprUnary [(FRight, VEmb (nd (Pos "" 0 1 1) KExprPostfix [(FValue, VEmb (nd (Pos "" 0 1 1) KExprPrimary [(FValue, VPtr (Some (nd (Pos "" 0 1 1) KValue [(FNumber, VPtr (Some (nd (Pos "" 0 1 1) KValueNumber [(FValue, VFloat (Some (tt, "1"))); (FSource, VStr "1")])))])))]))]))])); (FOp, VStr "%"); (FRight, VPtr (Some (nd (Pos "" 4 1 5) KExprMultiplicative [(FLeft, VEmb (nd (Pos "" 4 1 5) KExprUnary [(FRight, VEmb (nd (Pos "" 4 1 5) KExprPostfix [(FValue, VEmb (nd (Pos "" 4 1 5) KExprPrimary [(FValue, VPtr (Some (nd (Pos "" 4 1 5) KValue [(FNumber, VPtr (Some (nd (Pos "" 4 1 5) KValueNumber [(FValue, VFloat (Some (tt, "2"))); (FSource, VStr "2")])))])))]))]))]))])))]))]))]))]))]))]))]))]))]))]))])))])));
("TestExpr_Parsing_Unary/Unary - Bitwise NOT - no spaces", same true KExpr "~1" (Some (nd (Pos "" 0 1 1) KExpr [(FLeft, VPtr (Some (nd (Pos "" 0 1 1) KExprConditional [(FCondition, VEmb (nd (Pos "" 0 1 1) KExprLogicalOr [(FLeft, VEmb (nd (Pos "" 0 1 1) KExprLogicalAnd [(FLeft, VEmb (nd (Pos "" 0 1 1) KExprBitwiseOr [(FLeft, VEmb (nd (Pos "" 0 1 1) KExprBitwiseXor [(FLeft, VEmb (nd (Pos "" 0 1 1) KExprBitwiseAnd [(FLeft, VEmb (nd (Pos "" 0 1 1) KExprEquality [(FLeft, VEmb (nd (Pos "" 0 1 1) KExprRelational [(FLeft, VEmb (nd (Pos "" 0 1 1) KExprShift [(FLeft, VEmb (nd (Pos "" 0 1 1) KExprAdditive [(FLeft, VEmb (nd (Pos "" 0 1 1) KExprMultiplicative [(FLeft, VEmb (nd (Pos "" 0 1 1) KExprUnary [(FOp, VStr "~"); (FRight, VEmb (nd (Pos "" 1 1 2) KExprPostfix [(FValue, VEmb (nd (Pos "" 1 1 2) KExprPrimary [(FValue, VPtr (Some (nd (Pos "" 1 1 2) KValue [(FNumber, VPtr (Some (nd (Pos "" 1 1 2) KValueNumber [(FValue, VFloat (Some (tt, "1"))); (FSource, VStr "1")])))])))]))]))]))]))]))]))]))]))]))]))]))]))]))])))])));
("TestExpr_Parsing_Unary/Unary - Bitwise NOT - spaces", same true KExpr "~ 1" (Some (nd (Pos "" 0 1 1) KExpr [(FLeft, VPtr (Some (nd (Pos "" 0 1 1) KExprConditional [(FCondition, VEmb (nd (Pos "" 0 1 1) KExprLogicalOr [(FLeft, VEmb (nd (Pos "" 0 1 1) KExprLogicalAnd [(FLeft, VEmb (nd (Pos "" 0 1 1) KExprBitwiseOr [(FLeft, VEmb (nd (Pos "" 0 1 1) KExprBitwiseXor [(FLeft, VEmb (nd (Pos "" 0 1 1) KExprBitwiseAnd [(FLeft, VEmb (nd (Pos "" 0 1 1) KExprEquality [(FLeft, VEmb (nd (Pos "" 0 1 1) KExprRelational [(FLeft, VEmb (nd (Pos "" 0 1 1) KExprShift [(FLeft, VEmb (nd (Pos "" 0 1 1) KExprAdditive [(FLeft, VEmb (nd (Pos "" 0 1 1) KExprMultiplicative [(FLeft, VEmb (nd (Pos "" 0 1 1) KExprUnary [(FOp, VStr "~"); (FRight, VEmb (nd (Pos "" 2 1 3) KExprPostfix [(FValue, VEmb (nd (Pos "" 2 1 3) KExprPrimary [(FValue, VPtr (Some (nd (Pos "" 2 1 3) KValue [(FNumber, VPtr (Some (nd (Pos "" 2 1 3) KValueNumber [(FValue, VFloat (Some (tt, "1"))); (FSource, VStr "1")])))])))]))]))]))]))]))]))]))]))]))]))]))]))]))])))])));
("TestExpr_Parsing_Unary/Unary - Logical NOT - no spaces", same true KExpr "!1" (Some (nd (Pos "" 0 1 1) KExpr [(FLeft, VPtr (Some (nd (Pos "" 0 1 1) KExprConditional [(FCondition, VEmb (nd (Pos "" 0 1 1) KExprLogicalOr [(FLeft, VEmb (nd (Pos "" 0 1 1) KExprLogicalAnd [(FLeft, VEmb (nd (Pos "" 0 1 1) KExprBitwiseOr [(FLeft, VEmb (nd (Pos "" 0 1 1) KExprBitwiseXor [(FLeft, VEmb (nd (Pos "" 0 1 1) KExprBitwiseAnd [(FLeft, VEmb (nd (Pos "" 0 1 1) KExprEquality [(FLeft, VEmb (nd (Pos "" 0 1 1) KExprRelational [(FLeft, VEmb (nd (Pos "" 0 1 1) KExprShift [(FLeft, VEmb (nd (Pos "" 0 1 1) KExprAdditive [(FLeft, VEmb (nd (Pos "" 0 1 1) KExprMultiplicative [(FLeft, VEmb (nd (Pos "" 0 1 1) KExprUnary [(FOp, VStr "!"); (FRight, VEmb (nd (Pos "" 1 1 2) KExprPostfix [(FValue, VEmb (nd (Pos "" 1 1 2) KExprPrimary [(FValue, VPtr (Some (nd (Pos "" 1 1 2) KValue [(FNumber, VPtr (Some (nd (Pos "" 1 1 2) KValueNumber [(FValue, VFloat (Some (tt, "1"))); (FSource, VStr "1")])))])))]))]))]))]))]))]))]))]))]))]))]))]))]))])))])));
("TestExpr_Parsing_Unary/Unary - Logical NOT - spaces", same true KExpr "! 1" (Some (nd (Pos "" 0 1 1) KExpr [(FLeft, VPtr (Some (nd (Pos "" 0 1 1) KExprConditional [(FCondition, VEmb (nd (Pos "" 0 1 1) KExprLogicalOr [(FLeft, VEmb (nd (Pos "" 0 1 1) KExprLogicalAnd [(FLeft, VEmb (nd (Pos "" 0 1 1) KExprBitwiseOr [(FLeft, VEmb (nd (Pos "" 0 1 1) KExprBitwiseXor [(FLeft, VEmb (nd (Pos "" 0 1 1) KExprBitwiseAnd [(FLeft, VEmb (nd (Pos "" 0 1 1) KExprEquality [(FLeft, VEmb (nd (Pos "" 0 1 1) KExprRelational [(FLeft, VEmb (nd (Pos "" 0 1 1) KExprShift [(FLeft, VEmb (nd (Pos "" 0 1 1) KExprAdditive [(FLeft, VEmb (nd (Pos "" 0 1 1) KExprMultiplicative [(FLeft, VEmb (nd (Pos "" 0 1 1) KExprUnary [(FOp, VStr "!"); (FRight, VEmb (nd (Pos "" 2 1 3) KExprPostfix [(FValue, VEmb (nd (Pos "" 2 1 3) KExprPrimary [(FValue, VPtr (Some (nd (Pos "" 2 1 3) KValue [(FNumber, VPtr (Some (nd (Pos "" 2 1 3) KValueNumber [(FValue, VFloat (Some (tt, "1"))); (FSource, VStr "1")])))])))]))]))]))]))]))]))]))]))]))]))]))]))]))])))])));
("TestExpr_Parsing_Unary/Unary - Minus - no spaces", same true KExpr "-1" (Some (nd (Pos "" 0 1 1) KExpr [(FLeft, VPtr (Some (nd (Pos "" 0 1 1) KExprConditional [(FCondition, VEmb (nd (Pos "" 0 1 1) KExprLogicalOr [(FLeft, VEmb (nd (Pos "" 0 1 1) KExprLogicalAnd [(FLeft, VEmb (nd (Pos "" 0 1 1) KExprBitwiseOr [(FLeft, VEmb (nd (Pos "" 0 1 1) KExprBitwiseXor [(FLeft, VEmb (nd (Pos "" 0 1 1) KExprBitwiseAnd [(FLeft, VEmb (nd (Pos "" 0 1 1) KExprEquality [(FLeft, VEmb (nd (Pos "" 0 1 1) KExprRelational [(FLeft, VEmb (nd (Pos "" 0 1 1) KExprShift [(FLeft, VEmb (nd (Pos "" 0 1 1) KExprAdditive [(FLeft, VEmb (nd (Pos "" 0 1 1) KExprMultiplicative [(FLeft, VEmb (nd (Pos "" 0 1 1) KExprUnary [(FOp, VStr "-"); (FRight, VEmb (nd (Pos "" 1 1 2) KExprPostfix [(FValue, VEmb (nd (Pos "" 1 1 2) KExprPrimary [(FValue, VPtr (Some (nd (Pos "" 1 1 2) KValue [(FNumber, VPtr (Some (nd (Pos "" 1 1 2) KValueNumber [(FValue, VFloat (Some (tt, "1"))); (FSource, VStr "1")])))])))]))]))]))]))]))]))]))]))]))]))]))]))]))])))])));
("TestExpr_Parsing_Unary/Unary - Minus - spaces", same true KExpr "- 1" (Some (nd (Pos "" 0 1 1) KExpr [(FLeft, VPtr (Some (nd (Pos "" 0 1 1) KExprConditional [(FCondition, VEmb (nd (Pos "" 0 1 1) KExprLogicalOr [(FLeft, VEmb (nd (Pos "" 0 1 1) KExprLogicalAnd [(FLeft, VEmb (nd (Pos "" 0 1 1) KExprBitwiseOr [(FLeft, VEmb (nd (Pos "" 0 1 1) KExprBitwiseXor [(FLeft, VEmb (nd (Pos "" 0 1 1) KExprBitwiseAnd [(FLeft, VEmb (nd (Pos "" 0 1 1) KExprEquality [(FLeft, VEmb (nd (Pos "" 0 1 1) KExprRelational [(FLeft, VEmb (nd (Pos "" 0 1 1) KExprShift [(FLeft, VEmb (nd (Pos "" 0 1 1) KExprAdditive [(FLeft, VEmb (nd (Pos "" 0 1 1) KExprMultiplicative [(FLeft, VEmb (nd (Pos "" 0 1 1) KExprUnary [(FOp, VStr "-"); (FRight, VEmb (nd (Pos "" 2 1 3) KExprPostfix [(FValue, VEmb (nd (Pos "" 2 1 3) KExprPrimary [(FValue, VPtr (Some (nd (Pos "" 2 1 3) KValue [(FNumber, VPtr (Some (nd (Pos "" 2 1 3) KValueNumber [(FValue, VFloat (Some (tt, "1"))); (FSource, VStr "1")])))])))]))]))]))]))]))]))]))]))]))]))]))]))]))])))])));
("TestExpr_Parsing_Unary/Unary - Plus - no spaces", same true KExpr "+1" (Some (nd (Pos "" 0 1 1) KExpr [(FLeft, VPtr (Some (nd (Pos "" 0 1 1) KExprConditional [(FCondition, VEmb (nd (Pos "" 0 1 1) KExprLogicalOr [(FLeft, VEmb (nd (Pos "" 0 1 1) KExprLogicalAnd [(FLeft, VEmb (nd (Pos "" 0 1 1) KExprBitwiseOr [(FLeft, VEmb (nd (Pos "" 0 1 1) KExprBitwiseXor [(FLeft, VEmb (nd (Pos "" 0 1 1) KExprBitwiseAnd [(FLeft, VEmb (nd (Pos "" 0 1 1) KExprEquality [(FLeft, VEmb (nd (Pos "" 0 1 1) KExprRelational [(FLeft, VEmb (nd (Pos "" 0 1 1) KExprShift [(FLeft, VEmb (nd (Pos "" 0 1 1) KExprAdditive [(FLeft, VEmb (nd (Pos "" 0 1 1) KExprMultiplicative [(FLeft, VEmb (nd (Pos "" 0 1 1) KExprUnary [(FOp, VStr "+"); (FRight, VEmb (nd (Pos "" 1 1 2) KExprPostfix [(FValue, VEmb (nd (Pos "" 1 1 2) KExprPrimary [(FValue, VPtr (Some (nd (Pos "" 1 1 2) KValue [(FNumber, VPtr (Some (nd (Pos "" 1 1 2) KValueNumber [(FValue, VFloat (Some (tt, "1"))); (FSource, VStr "1")])))])))]))]))]))]))]))]))]))]))]))]))]))]))]))])))])));
("TestExpr_Parsing_Unary/Unary - Plus - spaces", same true KExpr "+ 1" (Some (nd (Pos "" 0 1 1) KExpr [(FLeft, VPtr (Some (nd (Pos "" 0 1 1) KExprConditional [(FCondition, VEmb (nd (Pos "" 0 1 1) KExprLogicalOr [(FLeft, VEmb (nd (Pos "" 0 1 1) KExprLogicalAnd [(FLeft, VEmb (nd (Pos "" 0 1 1) KExprBitwiseOr [(FLeft, VEmb (nd (Pos "" 0 1 1) KExprBitwiseXor [(FLeft, VEmb (nd (Pos "" 0 1 1) KExprBitwiseAnd [(FLeft, VEmb (nd (Pos "" 0 1 1) KExprEquality [(FLeft, VEmb (nd (Pos "" 0 1 1) KExprRelational [(FLeft, VEmb (nd (Pos "" 0 1 1) KExprShift [(FLeft, VEmb (nd (Pos "" 0 1 1) KExprAdditive [(FLeft, VEmb (nd (Pos "" 0 1 1) KExprMultiplicative [(FLeft, VEmb (nd (Pos "" 0 1 1) KExprUnary [(FOp, VStr "+"); (FRight, VEmb (nd (Pos "" 2 1 3) KExprPostfix [(FValue, VEmb (nd (Pos "" 2 1 3) KExprPrimary [(FValue, VPtr (Some (nd (Pos "" 2 1 3) KValue [(FNumber, VPtr (Some (nd (Pos "" 2 1 3) KValueNumber [(FValue, VFloat (Some (tt, "1"))); (FSource, VStr "1")])))])))]))]))]))]))]))]))]))]))]))]))]))]))]))])))])));
("TestExpr_Parsing_Postfix/Index - No spaces", same true KExpr "attr[2]" (Some (nd (Pos "" 0 1 1) KExpr [(FLeft, VPtr (Some (nd (Pos "" 0 1 1) KExprConditional [(FCondition, VEmb (nd (Pos "" 0 1 1) KExprLogicalOr [(FLeft, VEmb (nd (Pos "" 0 1 1) KExprLogicalAnd [(FLeft, VEmb (nd (Pos "" 0 1 1) KExprBitwiseOr [(FLeft, VEmb (nd (Pos "" 0 1 1) KExprBitwiseXor [(FLeft, VEmb (nd (Pos "" 0 1 1) KExprBitwiseAnd [(FLeft, VEmb (nd (Pos "" 0 1 1) KExprEquality [(FLeft, VEmb (nd (Pos "" 0 1 1) KExprRelational [(FLeft, VEmb (nd (Pos "" 0 1 1) KExprShift [(FLeft, VEmb (nd (Pos "" 0 1 1) KExprAdditive [(FLeft, VEmb (nd (Pos "" 0 1 1) KExprMultiplicative [(FLeft, VEmb (nd (Pos "" 0 1 1) KExprUnary [(FRight, VEmb (nd (Pos "" 0 1 1) KExprPostfix [(FValue, VEmb (nd (Pos "" 0 1 1) KExprPrimary [(FIdent, VPtr (Some (nd (Pos "" 0 1 1) KIdent [(FParts, VStrs (Some (tt, ["attr"])))])))])); (FIndex, VPtr (Some (nd (Pos "" 5 1 6) KExpr [(FLeft, VPtr (Some (nd (Pos "" 5 1 6) KExprConditional [(FCondition, VEmb (nd (Pos "" 5 1 6) KExprLogicalOr [(FLeft, VEmb (nd (Pos "" 5 1 6) KExprLogicalAnd [(FLeft, VEmb (nd (Pos "" 5 1 6) KExprBitwiseOr [(FLeft, VEmb (nd (Pos "" 5 1 6) KExprBitwiseXor [(FLeft, VEmb (nd (Pos "" 5 1 6) KExprBitwiseAnd [(FLeft, VEmb (nd (Pos "" 5 1 6) KExprEquality [(FLeft, VEmb (nd (Pos "" 5 1 6) KExprRelational [(FLeft, VEmb (nd (Pos "" 5 1 6) KExprShift [(FLeft, VEmb (nd (Pos "" 5 1 6) KExprAdditive [(FLeft, VEmb (nd (Pos "" 5 1 6) KExprMultiplicative [(FLeft, VEmb (nd (Pos "" 5 1 6) KExprUnary [(FRight, VEmb (nd (Pos "" 5 1 6) KExprPostfix [(FValue, VEmb (nd (Pos "" 5 1 6) KExprPrimary [(FValue, VPtr (Some (nd (Pos "" 5 1 6) KValue [(FNumber, VPtr (Some (nd (Pos "" 5 1 6) KValueNumber [(FValue, VFloat (Some (tt, "2"))); (FSource, VStr "2")])))])))]))]))]))]))]))]))]))]))]))]))]))]))]))])))])))]))]))]))]))]))]))]))]))]))]))]))]))])))])));
("TestExpr_Parsing_Postfix/Index - Spaces", same true KExpr "attr [ 2 ]" (Some (nd (Pos "" 0 1 1) KExpr [(FLeft, VPtr (Some (nd (Pos "" 0 1 1) KExprConditional [(FCondition, VEmb (nd (Pos "" 0 1 1) KExprLogicalOr [(FLeft, VEmb (nd (Pos "" 0 1 1) KExprLogicalAnd [(FLeft, VEmb (nd (Pos "" 0 1 1) KExprBitwiseOr [(FLeft, VEmb (nd (Pos "" 0 1 1) KExprBitwiseXor [(FLeft, VEmb (nd (Pos "" 0 1 1) KExprBitwiseAnd [(FLeft, VEmb (nd (Pos "" 0 1 1) KExprEquality [(FLeft, VEmb (nd (Pos "" 0 1 1) KExprRelational [(FLeft, VEmb (nd (Pos "" 0 1 1) KExprShift [(FLeft, VEmb (nd (Pos "" 0 1 1) KExprAdditive [(FLeft, VEmb (nd (Pos "" 0 1 1) KExprMultiplicative [(FLeft, VEmb (nd (Pos "" 0 1 1) KExprUnary [(FRight, VEmb (nd (Pos "" 0 1 1) KExprPostfix [(FValue, VEmb (nd (Pos "" 0 1 1) KExprPrimary [(FIdent, VPtr (Some (nd (Pos "" 0 1 1) KIdent [(FParts, VStrs (Some (tt, ["attr"])))])))])); (FIndex, VPtr (Some (nd (Pos "" 7 1 8) KExpr [(FLeft, VPtr (Some (nd (Pos "" 7 1 8) KExprConditional [(FCondition, VEmb (nd (Pos "" 7 1 8) KExprLogicalOr [(FLeft, VEmb (nd (Pos "" 7 1 8) KExprLogicalAnd [(FLeft, VEmb (nd (Pos "" 7 1 8) KExprBitwiseOr [(FLeft, VEmb (nd (Pos "" 7 1 8) KExprBitwiseXor [(FLeft, VEmb (nd (Pos "" 7 1 8) KExprBitwiseAnd [(FLeft, VEmb (nd (Pos "" 7 1 8) KExprEquality [(FLeft, VEmb (nd (Pos "" 7 1 8) KExprRelational [(FLeft, VEmb (nd (Pos "" 7 1 8) KExprShift [(FLeft, VEmb (nd (Pos "" 7 1 8) KExprAdditive [(FLeft, VEmb (nd (Pos "" 7 1 8) KExprMultiplicative [(FLeft, VEmb (nd (Pos "" 7 1 8) KExprUnary [(FRight, VEmb (nd (Pos "" 7 1 8) KExprPostfix [(FValue, VEmb (nd (Pos "" 7 1 8) KExprPrimary [(FValue, VPtr (Some (nd (Pos "" 7 1 8) KValue [(FNumber, VPtr (Some (nd (Pos "" 7 1 8) KValueNumber [(FValue, VFloat (Some (tt, "2"))); (FSource, VStr "2")])))])))]))]))]))]))]))]))]))]))]))]))]))]))]))])))])))]))]))]))]))]))]))]))]))]))]))]))]))])))])));
("TestExpr_Parsing_Postfix/Single post", same true KExpr "attr[1].field" (Some (nd (Pos "" 0 1 1) KExpr [(FLeft, VPtr (Some (nd (Pos "" 0 1 1) KExprConditional [(FCondition, VEmb (nd (Pos "" 0 1 1) KExprLogicalOr [(FLeft, VEmb (nd (Pos "" 0 1 1) KExprLogicalAnd [(FLeft, VEmb (nd (Pos "" 0 1 1) KExprBitwiseOr [(FLeft, VEmb (nd (Pos "" 0 1 1) KExprBitwiseXor [(FLeft, VEmb (nd (Pos "" 0 1 1) KExprBitwiseAnd [(FLeft, VEmb (nd (Pos "" 0 1 1) KExprEquality [(FLeft, VEmb (nd (Pos "" 0 1 1) KExprRelational [(FLeft, VEmb (nd (Pos "" 0 1 1) KExprShift [(FLeft, VEmb (nd (Pos "" 0 1 1) KExprAdditive [(FLeft, VEmb (nd (Pos "" 0 1 1) KExprMultiplicative [(FLeft, VEmb (nd (Pos "" 0 1 1) KExprUnary [(FRight, VEmb (nd (Pos "" 0 1 1) KExprPostfix [(FValue, VEmb (nd (Pos "" 0 1 1) KExprPrimary [(FIdent, VPtr (Some (nd (Pos "" 0 1 1) KIdent [(FParts, VStrs (Some (tt, ["attr"])))])))])); (FIndex, VPtr (Some (nd (Pos "" 5 1 6) KExpr [(FLeft, VPtr (Some (nd (Pos "" 5 1 6) KExprConditional [(FCondition, VEmb (nd (Pos "" 5 1 6) KExprLogicalOr [(FLeft, VEmb (nd (Pos "" 5 1 6) KExprLogicalAnd [(FLeft, VEmb (nd (Pos "" 5 1 6) KExprBitwiseOr [(FLeft, VEmb (nd (Pos "" 5 1 6) KExprBitwiseXor [(FLeft, VEmb (nd (Pos "" 5 1 6) KExprBitwiseAnd [(FLeft, VEmb (nd (Pos "" 5 1 6) KExprEquality [(FLeft, VEmb (nd (Pos "" 5 1 6) KExprRelational [(FLeft, VEmb (nd (Pos "" 5 1 6) KExprShift [(FLeft, VEmb (nd (Pos "" 5 1 6) KExprAdditive [(FLeft, VEmb (nd (Pos "" 5 1 6) KExprMultiplicative [(FLeft, VEmb (nd (Pos "" 5 1 6) KExprUnary [(FRight, VEmb (nd (Pos "" 5 1 6) KExprPostfix [(FValue, VEmb (nd (Pos "" 5 1 6) KExprPrimary [(FValue, VPtr (Some (nd (Pos "" 5 1 6) KValue [(FNumber, VPtr (Some (nd (Pos "" 5 1 6) KValueNumber [(FValue, VFloat (Some (tt, "1"))); (FSource, VStr "1")])))])))]))]))]))]))]))]))]))]))]))]))]))]))]))])))]))); (FPost, VPtr (Some (nd (Pos "" 8 1 9) KExprPostfix [(FValue, VEmb (nd (Pos "" 8 1 9) KExprPrimary [(FIdent, VPtr (Some (nd (Pos "" 8 1 9) KIdent [(FParts, VStrs (Some (tt, ["field"])))])))]))])))]))]))]))]))]))]))]))]))]))]))]))]))])))])));
("TestExpr_Parsing_Postfix/Post with post", same true KExpr "attr[1].field[2]" (Some (nd (Pos "" 0 1 1) KExpr [(FLeft, VPtr (Some (nd (Pos "" 0 1 1) KExprConditional [(FCondition, VEmb (nd (Pos "" 0 1 1) KExprLogicalOr [(FLeft, VEmb (nd (Pos "" 0 1 1) KExprLogicalAnd [(FLeft, VEmb (nd (Pos "" 0 1 1) KExprBitwiseOr [(FLeft, VEmb (nd (Pos "" 0 1 1) KExprBitwiseXor [(FLeft, VEmb (nd (Pos "" 0 1 1) KExprBitwiseAnd [(FLeft, VEmb (nd (Pos "" 0 1 1) KExprEquality [(FLeft, VEmb (nd (Pos "" 0 1 1) KExprRelational [(FLeft, VEmb (nd (Pos "" 0 1 1) KExprShift [(FLeft, VEmb (nd (Pos "" 0 1 1) KExprAdditive [(FLeft, VEmb (nd (Pos "" 0 1 1) KExprMultiplicative [(FLeft, VEmb (nd (Pos "" 0 1 1) KExprUnary [(FRight, VEmb (nd (Pos "" 0 1 1) KExprPostfix [(FValue, VEmb (nd (Pos "" 0 1 1) KExprPrimary [(FIdent, VPtr (Some (nd (Pos "" 0 1 1) KIdent [(FParts, VStrs (Some (tt, ["attr"])))])))])); (FIndex, VPtr (Some (nd (Pos "" 5 1 6) KExpr [(FLeft, VPtr (Some (nd (Pos "" 5 1 6) KExprConditional [(FCondition, VEmb (nd (Pos "" 5 1 6) KExprLogicalOr [(FLeft, VEmb (nd (Pos "" 5 1 6) KExprLogicalAnd [(FLeft, VEmb (nd (Pos "" 5 1 6) KExprBitwiseOr [(FLeft, VEmb (nd (Pos "" 5 1 6) KExprBitwiseXor [(FLeft, VEmb (nd (Pos "" 5 1 6) KExprBitwiseAnd [(FLeft, VEmb (nd (Pos "" 5 1 6) KExprEquality [(FLeft, VEmb (nd (Pos "" 5 1 6) KExprRelational [(FLeft, VEmb (nd (Pos "" 5 1 6) KExprShift [(FLeft, VEmb (nd (Pos "" 5 1 6) KExprAdditive [(FLeft, VEmb (nd (Pos "" 5 1 6) KExprMultiplicative [(FLeft, VEmb (nd (Pos "" 5 1 6) KExprUnary [(FRight, VEmb (nd (Pos "" 5 1 6) KExprPostfix [(FValue, VEmb (nd (Pos "" 5 1 6) KExprPrimary [(FValue, VPtr (Some (nd (Pos "" 5 1 6) KValue [(FNumber, VPtr (Some (nd (Pos "" 5 1 6) KValueNumber [(FValue, VFloat (Some (tt, "1"))); (FSource, VStr "1")])))])))]))]))]))]))]))]))]))]))]))]))]))]))]))])))]))); (FPost, VPtr (Some (nd (Pos "" 8 1 9) KExprPostfix [(FValue, VEmb (nd (Pos "" 8 1 9) KExprPrimary [(FIdent, VPtr (Some (nd (Pos "" 8 1 9) KIdent [(FParts, VStrs (Some (tt, ["field"])))])))])); (FIndex, VPtr (Some (nd (Pos "" 14 1 15) KExpr [(FLeft, VPtr (Some (nd (Pos "" 14 1 15) KExprConditional [(FCondition, VEmb (nd (Pos "" 14 1 15) KExprLogicalOr [(FLeft, VEmb (nd (Pos "" 14 1 15) KExprLogicalAnd [(FLeft, VEmb (nd (Pos "" 14 1 15) KExprBitwiseOr [(FLeft, VEmb (nd (Pos "" 14 1 15) KExprBitwiseXor [(FLeft, VEmb (nd (Pos "" 14 1 15) KExprBitwiseAnd [(FLeft, VEmb (nd (Pos "" 14 1 15) KExprEquality [(FLeft, VEmb (nd (Pos "" 14 1 15) KExprRelational [(FLeft, VEmb (nd (Pos "" 14 1 15) KExprShift [(FLeft, VEmb (nd (Pos "" 14 1 15) KExprAdditive [(FLeft, VEmb (nd (Pos "" 14 1 15) KExprMultiplicative [(FLeft, VEmb (nd (Pos "" 14 1 15) KExprUnary [(FRight, VEmb (nd (Pos "" 14 1 15) KExprPostfix [(FValue, VEmb (nd (Pos "" 14 1 15) KExprPrimary [(FValue, VPtr (Some (nd (Pos "" 14 1 15) KValue [(FNumber, VPtr (Some (nd (Pos "" 14 1 15) KValueNumber [(FValue, VFloat (Some (tt, "2"))); (FSource, VStr "2")])))])))]))]))]))]))]))]))]))]))]))]))]))]))]))])))])))])))]))]))]))]))]))]))]))]))]))]))]))]))])))])));
("TestExpr_Parsing_Postfix/Post with post with field", same true KExpr "attr[1].field[2].sub" (Some (nd (Pos "" 0 1 1) KExpr [(FLeft, VPtr (Some (nd (Pos "" 0 1 1) KExprConditional [(FCondition, VEmb (nd (Pos "" 0 1 1) KExprLogicalOr [(FLeft, VEmb (nd (Pos "" 0 1 1) KExprLogicalAnd [(FLeft, VEmb (nd (Pos "" 0 1 1) KExprBitwiseOr [(FLeft, VEmb (nd (Pos "" 0 1 1) KExprBitwiseXor [(FLeft, VEmb (nd (Pos "" 0 1 1) KExprBitwiseAnd [(FLeft, VEmb (nd (Pos "" 0 1 1) KExprEquality [(FLeft, VEmb (nd (Pos "" 0 1 1) KExprRelational [(FLeft, VEmb (nd (Pos "" 0 1 1) KExprShift [(FLeft, VEmb (nd (Pos "" 0 1 1) KExprAdditive [(FLeft, VEmb (nd (Pos "" 0 1 1) KExprMultiplicative [(FLeft, VEmb (nd (Pos "" 0 1 1) KExprUnary [(FRight, VEmb (nd (Pos "" 0 1 1) KExprPostfix [(FValue, VEmb (nd (Pos "" 0 1 1) KExprPrimary [(FIdent, VPtr (Some (nd (Pos "" 0 1 1) KIdent [(FParts, VStrs (Some (tt, ["attr"])))])))])); (FIndex, VPtr (Some (nd (Pos "" 5 1 6) KExpr [(FLeft, VPtr (Some (nd (Pos "" 5 1 6) KExprConditional [(FCondition, VEmb (nd (Pos "" 5 1 6) KExprLogicalOr [(FLeft, VEmb (nd (Pos "" 5 1 6) KExprLogicalAnd [(FLeft, VEmb (nd (Pos "" 5 1 6) KExprBitwiseOr [(FLeft, VEmb (nd (Pos "" 5 1 6) KExprBitwiseXor [(FLeft, VEmb (nd (Pos "" 5 1 6) KExprBitwiseAnd [(FLeft, VEmb (nd (Pos "" 5 1 6) KExprEquality [(FLeft, VEmb (nd (Pos "" 5 1 6) KExprRelational [(FLeft, VEmb (nd (Pos "" 5 1 6) KExprShift [(FLeft, VEmb (nd (Pos "" 5 1 6) KExprAdditive [(FLeft, VEmb (nd (Pos "" 5 1 6) KExprMultiplicative [(FLeft, VEmb (nd (Pos "" 5 1 6) KExprUnary [(FRight, VEmb (nd (Pos "" 5 1 6) KExprPostfix [(FValue, VEmb (nd (Pos "" 5 1 6) KExprPrimary [(FValue, VPtr (Some (nd (Pos "" 5 1 6) KValue [(FNumber, VPtr (Some (nd (Pos "" 5 1 6) KValueNumber [(FValue, VFloat (Some (tt, "1"))); (FSource, VStr "1")])))])))]))]))]))]))]))]))]))]))]))]))]))]))]))])))]))); (FPost, VPtr (Some (nd (Pos "" 8 1 9) KExprPostfix [(FValue, VEmb (nd (Pos "" 8 1 9) KExprPrimary [(FIdent, VPtr (Some (nd (Pos "" 8 1 9) KIdent [(FParts, VStrs (Some (tt, ["field"])))])))])); (FIndex, VPtr (Some (nd (Pos "" 14 1 15) KExpr [(FLeft, VPtr (Some (nd (Pos "" 14 1 15) KExprConditional [(FCondition, VEmb (nd (Pos "" 14 1 15) KExprLogicalOr [(FLeft, VEmb (nd (Pos "" 14 1 15) KExprLogicalAnd [(FLeft, VEmb (nd (Pos "" 14 1 15) KExprBitwiseOr [(FLeft, VEmb (nd (Pos "" 14 1 15) KExprBitwiseXor [(FLeft, VEmb (nd (Pos "" 14 1 15) KExprBitwiseAnd [(FLeft, VEmb (nd (Pos "" 14 1 15) KExprEquality [(FLeft, VEmb (nd (Pos "" 14 1 15) KExprRelational [(FLeft, VEmb (nd (Pos "" 14 1 15) KExprShift [(FLeft, VEmb (nd (Pos "" 14 1 15) KExprAdditive [(FLeft, VEmb (nd (Pos "" 14 1 15) KExprMultiplicative [(FLeft, VEmb (nd (Pos "" 14 1 15) KExprUnary [(FRight, VEmb (nd (Pos "" 14 1 15) KExprPostfix [(FValue, VEmb (nd (Pos "" 14 1 15) KExprPrimary [(FValue, VPtr (Some (nd (Pos "" 14 1 15) KValue [(FNumber, VPtr (Some (nd (Pos "" 14 1 15) KValueNumber [(FValue, VFloat (Some (tt, "2"))); (FSource, VStr "2")])))])))]))]))]))]))]))]))]))]))]))]))]))]))]))])))]))); (FPost, VPtr (Some (nd (Pos "" 17 1 18) KExprPostfix [(FValue, VEmb (nd (Pos "" 17 1 18) KExprPrimary [(FIdent, VPtr (Some (nd (Pos "" 17 1 18) KIdent [(FParts, VStrs (Some (tt, ["sub"])))])))]))])))])))]))]))]))]))]))]))]))]))]))]))]))]))])))])));
("TestExpr_Parsing_Postfix/Post with sub", same true KExpr "attr[0].field.sub" (Some (nd (Pos "" 0 1 1) KExpr [(FLeft, VPtr (Some (nd (Pos "" 0 1 1) KExprConditional [(FCondition, VEmb (nd (Pos "" 0 1 1) KExprLogicalOr [(FLeft, VEmb (nd (Pos "" 0 1 1) KExprLogicalAnd [(FLeft, VEmb (nd (Pos "" 0 1 1) KExprBitwiseOr [(FLeft, VEmb (nd (Pos "" 0 1 1) KExprBitwiseXor [(FLeft, VEmb (nd (Pos "" 0 1 1) KExprBitwiseAnd [(FLeft, VEmb (nd (Pos "" 0 1 1) KExprEquality [(FLeft, VEmb (nd (Pos "" 0 1 1) KExprRelational [(FLeft, VEmb (nd (Pos "" 0 1 1) KExprShift [(FLeft, VEmb (nd (Pos "" 0 1 1) KExprAdditive [(FLeft, VEmb (nd (Pos "" 0 1 1) KExprMultiplicative [(FLeft, VEmb (nd (Pos "" 0 1 1) KExprUnary [(FRight, VEmb (nd (Pos "" 0 1 1) KExprPostfix [(FValue, VEmb (nd (Pos "" 0 1 1) KExprPrimary [(FIdent, VPtr (Some (nd (Pos "" 0 1 1) KIdent [(FParts, VStrs (Some (tt, ["attr"])))])))])); (FIndex, VPtr (Some (nd (Pos "" 5 1 6) KExpr [(FLeft, VPtr (Some (nd (Pos "" 5 1 6) KExprConditional [(FCondition, VEmb (nd (Pos "" 5 1 6) KExprLogicalOr [(FLeft, VEmb (nd (Pos "" 5 1 6) KExprLogicalAnd [(FLeft, VEmb (nd (Pos "" 5 1 6) KExprBitwiseOr [(FLeft, VEmb (nd (Pos "" 5 1 6) KExprBitwiseXor [(FLeft, VEmb (nd (Pos "" 5 1 6) KExprBitwiseAnd [(FLeft, VEmb (nd (Pos "" 5 1 6) KExprEquality [(FLeft, VEmb (nd (Pos "" 5 1 6) KExprRelational [(FLeft, VEmb (nd (Pos "" 5 1 6) KExprShift [(FLeft, VEmb (nd (Pos "" 5 1 6) KExprAdditive [(FLeft, VEmb (nd (Pos "" 5 1 6) KExprMultiplicative [(FLeft, VEmb (nd (Pos "" 5 1 6) KExprUnary [(FRight, VEmb (nd (Pos "" 5 1 6) KExprPostfix [(FValue, VEmb (nd (Pos "" 5 1 6) KExprPrimary [(FValue, VPtr (Some (nd (Pos "" 5 1 6) KValue [(FNumber, VPtr (Some (nd (Pos "" 5 1 6) KValueNumber [(FValue, VFloat (Some (tt, "0"))); (FSource, VStr "0")])))])))]))]))]))]))]))]))]))]))]))]))]))]))]))])))]))); (FPost, VPtr (Some (nd (Pos "" 8 1 9) KExprPostfix [(FValue, VEmb (nd (Pos "" 8 1 9) KExprPrimary [(FIdent, VPtr (Some (nd (Pos "" 8 1 9) KIdent [(FParts, VStrs (Some (tt, ["field"; "sub"])))])))]))])))]))]))]))]))]))]))]))]))]))]))]))]))])))])));
("TestExpr_Parsing_Primary/Value", same true KExpr "1" (Some (nd (Pos "" 0 1 1) KExpr [(FLeft, VPtr (Some (nd (Pos "" 0 1 1) KExprConditional [(FCondition, VEmb (nd (Pos "" 0 1 1) KExprLogicalOr [(FLeft, VEmb (nd (Pos "" 0 1 1) KExprLogicalAnd [(FLeft, VEmb (nd (Pos "" 0 1 1) KExprBitwiseOr [(FLeft, VEmb (nd (Pos "" 0 1 1) KExprBitwiseXor [(FLeft, VEmb (nd (Pos "" 0 1 1) KExprBitwiseAnd [(FLeft, VEmb (nd (Pos "" 0 1 1) KExprEquality [(FLeft, VEmb (nd (Pos "" 0 1 1) KExprRelational [(FLeft, VEmb (nd (Pos "" 0 1 1) KExprShift [(FLeft, VEmb (nd (Pos "" 0 1 1) KExprAdditive [(FLeft, VEmb (nd (Pos "" 0 1 1) KExprMultiplicative [(FLeft, VEmb (nd (Pos "" 0 1 1) KExprUnary [(FRight, VEmb (nd (Pos "" 0 1 1) KExprPostfix [(FValue, VEmb (nd (Pos "" 0 1 1) KExprPrimary [(FValue, VPtr (Some (nd (Pos "" 0 1 1) KValue [(FNumber, VPtr (Some (nd (Pos "" 0 1 1) KValueNumber [(FValue, VFloat (Some (tt, "1"))); (FSource, VStr "1")])))])))]))]))]))]))]))]))]))]))]))]))]))]))]))])))])));
("TestExpr_Parsing_Primary/SubExpression - no spaces", same true KExpr "(1)" (Some (nd (Pos "" 0 1 1) KExpr [(FLeft, VPtr (Some (nd (Pos "" 0 1 1) KExprConditional [(FCondition, VEmb (nd (Pos "" 0 1 1) KExprLogicalOr [(FLeft, VEmb (nd (Pos "" 0 1 1) KExprLogicalAnd [(FLeft, VEmb (nd (Pos "" 0 1 1) KExprBitwiseOr [(FLeft, VEmb (nd (Pos "" 0 1 1) KExprBitwiseXor [(FLeft, VEmb (nd (Pos "" 0 1 1) KExprBitwiseAnd [(FLeft, VEmb (nd (Pos "" 0 1 1) KExprEquality [(FLeft, VEmb (nd (Pos "" 0 1 1) KExprRelational [(FLeft, VEmb (nd (Pos "" 0 1 1) KExprShift [(FLeft, VEmb (nd (Pos "" 0 1 1) KExprAdditive [(FLeft, VEmb (nd (Pos "" 0 1 1) KExprMultiplicative [(FLeft, VEmb (nd (Pos "" 0 1 1) KExprUnary [(FRight, VEmb (nd (Pos "" 0 1 1) KExprPostfix [(FValue, VEmb (nd (Pos "" 0 1 1) KExprPrimary [(FSubExpression, VPtr (Some (nd (Pos "" 1 1 2) KExpr [(FLeft, VPtr (Some (nd (Pos "" 1 1 2) KExprConditional [(FCondition, VEmb (nd (Pos "" 1 1 2) KExprLogicalOr [(FLeft, VEmb (nd (Pos "" 1 1 2) KExprLogicalAnd [(FLeft, VEmb (nd (Pos "" 1 1 2) KExprBitwiseOr [(FLeft, VEmb (nd (Pos "" 1 1 2) KExprBitwiseXor [(FLeft, VEmb (nd (Pos "" 1 1 2) KExprBitwiseAnd [(FLeft, VEmb (nd (Pos "" 1 1 2) KExprEquality [(FLeft, VEmb (nd (Pos "" 1 1 2) KExprRelational [(FLeft, VEmb (nd (Pos "" 1 1 2) KExprShift [(FLeft, VEmb (nd (Pos "" 1 1 2) KExprAdditive [(FLeft, VEmb (nd (Pos "" 1 1 2) KExprMultiplicative [(FLeft, VEmb (nd (Pos "" 1 1 2) KExprUnary [(FRight, VEmb (nd (Pos "" 1 1 2) KExprPostfix [(FValue, VEmb (nd (Pos "" 1 1 2) KExprPrimary [(FValue, VPtr (Some (nd (Pos "" 1 1 2) KValue [(FNumber, VPtr (Some (nd (Pos "" 1 1 2) KValueNumber [(FValue, VFloat (Some (tt, "1"))); (FSource, VStr "1")])))])))]))]))]))]))]))]))]))]))]))]))]))]))]))])))])))]))]))]))]))]))]))]))]))]))]))]))]))]))])))])));
("TestExpr_Parsing_Primary/SubExpression - spaces", same true KExpr "( 1 )" (Some (nd (Pos "" 0 1 1) KExpr [(FLeft, VPtr (Some (nd (Pos "" 0 1 1) KExprConditional [(FCondition, VEmb (nd (Pos "" 0 1 1) KExprLogicalOr [(FLeft, VEmb (nd (Pos "" 0 1 1) KExprLogicalAnd [(FLeft, VEmb (nd (Pos "" 0 1 1) KExprBitwiseOr [(FLeft, VEmb (nd (Pos "" 0 1 1) KExprBitwiseXor [(FLeft, VEmb (nd (Pos "" 0 1 1) KExprBitwiseAnd [(FLeft, VEmb (nd (Pos "" 0 1 1) KExprEquality [(FLeft, VEmb (nd (Pos "" 0 1 1) KExprRelational [(FLeft, VEmb (nd (Pos "" 0 1 1) KExprShift [(FLeft, VEmb (nd (Pos "" 0 1 1) KExprAdditive [(FLeft, VEmb (nd (Pos "" 0 1 1) KExprMultiplicative [(FLeft, VEmb (nd (Pos "" 0 1 1) KExprUnary [(FRight, VEmb (nd (Pos "" 0 1 1) KExprPostfix [(FValue, VEmb (nd (Pos "" 0 1 1) KExprPrimary [(FSubExpression, VPtr (Some (nd (Pos "" 2 1 3) KExpr [(FLeft, VPtr (Some (nd (Pos "" 2 1 3) KExprConditional [(FCondition, VEmb (nd (Pos "" 2 1 3) KExprLogicalOr [(FLeft, VEmb (nd (Pos "" 2 1 3) KExprLogicalAnd [(FLeft, VEmb (nd (Pos "" 2 1 3) KExprBitwiseOr [(FLeft, VEmb (nd (Pos "" 2 1 3) KExprBitwiseXor [(FLeft, VEmb (nd (Pos "" 2 1 3) KExprBitwiseAnd [(FLeft, VEmb (nd (Pos "" 2 1 3) KExprEquality [(FLeft, VEmb (nd (Pos "" 2 1 3) KExprRelational [(FLeft, VEmb (nd (Pos "" 2 1 3) KExprShift [(FLeft, VEmb (nd (Pos "" 2 1 3) KExprAdditive [(FLeft, VEmb (nd (Pos "" 2 1 3) KExprMultiplicative [(FLeft, VEmb (nd (Pos "" 2 1 3) KExprUnary [(FRight, VEmb (nd (Pos "" 2 1 3) KExprPostfix [(FValue, VEmb (nd (Pos "" 2 1 3) KExprPrimary [(FValue, VPtr (Some (nd (Pos "" 2 1 3) KValue [(FNumber, VPtr (Some (nd (Pos "" 2 1 3) KValueNumber [(FValue, VFloat (Some (tt, "1"))); (FSource, VStr "1")])))])))]))]))]))]))]))]))]))]))]))]))]))]))]))])))])))]))]))]))]))]))]))]))]))]))]))]))]))]))])))])));
("TestExpr_Parsing_Primary/Invocation - No parameters", same true KExpr "foo()" (Some (nd (Pos "" 0 1 1) KExpr [(FLeft, VPtr (Some (nd (Pos "" 0 1 1) KExprConditional [(FCondition, VEmb (nd (Pos "" 0 1 1) KExprLogicalOr [(FLeft, VEmb (nd (Pos "" 0 1 1) KExprLogicalAnd [(FLeft, VEmb (nd (Pos "" 0 1 1) KExprBitwiseOr [(FLeft, VEmb (nd (Pos "" 0 1 1) KExprBitwiseXor [(FLeft, VEmb (nd (Pos "" 0 1 1) KExprBitwiseAnd [(FLeft, VEmb (nd (Pos "" 0 1 1) KExprEquality [(FLeft, VEmb (nd (Pos "" 0 1 1) KExprRelational [(FLeft, VEmb (nd (Pos "" 0 1 1) KExprShift [(FLeft, VEmb (nd (Pos "" 0 1 1) KExprAdditive [(FLeft, VEmb (nd (Pos "" 0 1 1) KExprMultiplicative [(FLeft, VEmb (nd (Pos "" 0 1 1) KExprUnary [(FRight, VEmb (nd (Pos "" 0 1 1) KExprPostfix [(FValue, VEmb (nd (Pos "" 0 1 1) KExprPrimary [(FIdent, VPtr (Some (nd (Pos "" 0 1 1) KIdent [(FParts, VStrs (Some (tt, ["foo"])))]))); (FMonads, VList (Some (tt, [Some (nd (Pos "" 4 1 5) KExprInvocationParams [])])))]))]))]))]))]))]))]))]))]))]))]))]))]))])))])));
("TestExpr_Parsing_Primary/Invocation - Parameters", same true KExpr "foo(bar, baz)" (Some (nd (Pos "" 0 1 1) KExpr [(FLeft, VPtr (Some (nd (Pos "" 0 1 1) KExprConditional [(FCondition, VEmb (nd (Pos "" 0 1 1) KExprLogicalOr [(FLeft, VEmb (nd (Pos "" 0 1 1) KExprLogicalAnd [(FLeft, VEmb (nd (Pos "" 0 1 1) KExprBitwiseOr [(FLeft, VEmb (nd (Pos "" 0 1 1) KExprBitwiseXor [(FLeft, VEmb (nd (Pos "" 0 1 1) KExprBitwiseAnd [(FLeft, VEmb (nd (Pos "" 0 1 1) KExprEquality [(FLeft, VEmb (nd (Pos "" 0 1 1) KExprRelational [(FLeft, VEmb (nd (Pos "" 0 1 1) KExprShift [(FLeft, VEmb (nd (Pos "" 0 1 1) KExprAdditive [(FLeft, VEmb (nd (Pos "" 0 1 1) KExprMultiplicative [(FLeft, VEmb (nd (Pos "" 0 1 1) KExprUnary [(FRight, VEmb (nd (Pos "" 0 1 1) KExprPostfix [(FValue, VEmb (nd (Pos "" 0 1 1) KExprPrimary [(FIdent, VPtr (Some (nd (Pos "" 0 1 1) KIdent [(FParts, VStrs (Some (tt, ["foo"])))]))); (FMonads, VList (Some (tt, [Some (nd (Pos "" 4 1 5) KExprInvocationParams [(FValues, VList (Some (tt, [Some (nd (Pos "" 4 1 5) KExpr [(FLeft, VPtr (Some (nd (Pos "" 4 1 5) KExprConditional [(FCondition, VEmb (nd (Pos "" 4 1 5) KExprLogicalOr [(FLeft, VEmb (nd (Pos "" 4 1 5) KExprLogicalAnd [(FLeft, VEmb (nd (Pos "" 4 1 5) KExprBitwiseOr [(FLeft, VEmb (nd (Pos "" 4 1 5) KExprBitwiseXor [(FLeft, VEmb (nd (Pos "" 4 1 5) KExprBitwiseAnd [(FLeft, VEmb (nd (Pos "" 4 1 5) KExprEquality [(FLeft, VEmb (nd (Pos "" 4 1 5) KExprRelational [(FLeft, VEmb (nd (Pos "" 4 1 5) KExprShift [(FLeft, VEmb (nd (Pos "" 4 1 5) KExprAdditive [(FLeft, VEmb (nd (Pos "" 4 1 5) KExprMultiplicative [(FLeft, VEmb (nd (Pos "" 4 1 5) KExprUnary [(FRight, VEmb (nd (Pos "" 4 1 5) KExprPostfix [(FValue, VEmb (nd (Pos "" 4 1 5) KExprPrimary [(FIdent, VPtr (Some (nd (Pos "" 4 1 5) KIdent [(FParts, VStrs (Some (tt, ["bar"])))])))]))]))]))]))]))]))]))]))]))]))]))]))]))])))]); Some (nd (Pos "" 9 1 10) KExpr [(FLeft, VPtr (Some (nd (Pos "" 9 1 10) KExprConditional [(FCondition, VEmb (nd (Pos "" 9 1 10) KExprLogicalOr [(FLeft, VEmb (nd (Pos "" 9 1 10) KExprLogicalAnd [(FLeft, VEmb (nd (Pos "" 9 1 10) KExprBitwiseOr [(FLeft, VEmb (nd (Pos "" 9 1 10) KExprBitwiseXor [(FLeft, VEmb (nd (Pos "" 9 1 10) KExprBitwiseAnd [(FLeft, VEmb (nd (Pos "" 9 1 10) KExprEquality [(FLeft, VEmb (nd (Pos "" 9 1 10) KExprRelational [(FLeft, VEmb (nd (Pos "" 9 1 10) KExprShift [(FLeft, VEmb (nd (Pos "" 9 1 10) KExprAdditive [(FLeft, VEmb (nd (Pos "" 9 1 10) KExprMultiplicative [(FLeft, VEmb (nd (Pos "" 9 1 10) KExprUnary [(FRight, VEmb (nd (Pos "" 9 1 10) KExprPostfix [(FValue, VEmb (nd (Pos "" 9 1 10) KExprPrimary [(FIdent, VPtr (Some (nd (Pos "" 9 1 10) KIdent [(FParts, VStrs (Some (tt, ["baz"])))])))]))]))]))]))]))]))]))]))]))]))]))]))]))])))])])))])])))]))]))]))]))]))]))]))]))]))]))]))]))]))])))])));
("TestExpr_Parsing_Primary/Invocation - Dot Invocation", same true KExpr "foo.bar(baz, qux)" (Some (nd (Pos "" 0 1 1) KExpr [(FLeft, VPtr (Some (nd (Pos "" 0 1 1) KExprConditional [(FCondition, VEmb (nd (Pos "" 0 1 1) KExprLogicalOr [(FLeft, VEmb (nd (Pos "" 0 1 1) KExprLogicalAnd [(FLeft, VEmb (nd (Pos "" 0 1 1) KExprBitwiseOr [(FLeft, VEmb (nd (Pos "" 0 1 1) KExprBitwiseXor [(FLeft, VEmb (nd (Pos "" 0 1 1) KExprBitwiseAnd [(FLeft, VEmb (nd (Pos "" 0 1 1) KExprEquality [(FLeft, VEmb (nd (Pos "" 0 1 1) KExprRelational [(FLeft, VEmb (nd (Pos "" 0 1 1) KExprShift [(FLeft, VEmb (nd (Pos "" 0 1 1) KExprAdditive [(FLeft, VEmb (nd (Pos "" 0 1 1) KExprMultiplicative [(FLeft, VEmb (nd (Pos "" 0 1 1) KExprUnary [(FRight, VEmb (nd (Pos "" 0 1 1) KExprPostfix [(FValue, VEmb (nd (Pos "" 0 1 1) KExprPrimary [(FIdent, VPtr (Some (nd (Pos "" 0 1 1) KIdent [(FParts, VStrs (Some (tt, ["foo"; "bar"])))]))); (FMonads, VList (Some (tt, [Some (nd (Pos "" 8 1 9) KExprInvocationParams [(FValues, VList (Some (tt, [Some (nd (Pos "" 8 1 9) KExpr [(FLeft, VPtr (Some (nd (Pos "" 8 1 9) KExprConditional [(FCondition, VEmb (nd (Pos "" 8 1 9) KExprLogicalOr [(FLeft, VEmb (nd (Pos "" 8 1 9) KExprLogicalAnd [(FLeft, VEmb (nd (Pos "" 8 1 9) KExprBitwiseOr [(FLeft, VEmb (nd (Pos "" 8 1 9) KExprBitwiseXor [(FLeft, VEmb (nd (Pos "" 8 1 9) KExprBitwiseAnd [(FLeft, VEmb (nd (Pos "" 8 1 9) KExprEquality [(FLeft, VEmb (nd (Pos "" 8 1 9) KExprRelational [(FLeft, VEmb (nd (Pos "" 8 1 9) KExprShift [(FLeft, VEmb (nd (Pos "" 8 1 9) KExprAdditive [(FLeft, VEmb (nd (Pos "" 8 1 9) KExprMultiplicative [(FLeft, VEmb (nd (Pos "" 8 1 9) KExprUnary [(FRight, VEmb (nd (Pos "" 8 1 9) KExprPostfix [(FValue, VEmb (nd (Pos "" 8 1 9) KExprPrimary [(FIdent, VPtr (Some (nd (Pos "" 8 1 9) KIdent [(FParts, VStrs (Some (tt, ["baz"])))])))]))]))]))]))]))]))]))]))]))]))]))]))]))])))]); Some (nd (Pos "" 13 1 14) KExpr [(FLeft, VPtr (Some (nd (Pos "" 13 1 14) KExprConditional [(FCondition, VEmb (nd (Pos "" 13 1 14) KExprLogicalOr [(FLeft, VEmb (nd (Pos "" 13 1 14) KExprLogicalAnd [(FLeft, VEmb (nd (Pos "" 13 1 14) KExprBitwiseOr [(FLeft, VEmb (nd (Pos "" 13 1 14) KExprBitwiseXor [(FLeft, VEmb (nd (Pos "" 13 1 14) KExprBitwiseAnd [(FLeft, VEmb (nd (Pos "" 13 1 14) KExprEquality [(FLeft, VEmb (nd (Pos "" 13 1 14) KExprRelational [(FLeft, VEmb (nd (Pos "" 13 1 14) KExprShift [(FLeft, VEmb (nd (Pos "" 13 1 14) KExprAdditive [(FLeft, VEmb (nd (Pos "" 13 1 14) KExprMultiplicative [(FLeft, VEmb (nd (Pos "" 13 1 14) KExprUnary [(FRight, VEmb (nd (Pos "" 13 1 14) KExprPostfix [(FValue, VEmb (nd (Pos "" 13 1 14) KExprPrimary [(FIdent, VPtr (Some (nd (Pos "" 13 1 14) KIdent [(FParts, VStrs (Some (tt, ["qux"])))])))]))]))]))]))]))]))]))]))]))]))]))]))]))])))])])))])])))]))]))]))]))]))]))]))]))]))]))]))]))]))])))])));
("TestExpr_Parsing_Primary/Invocation - Monadic invocation", same true KExpr "foo(bar)(baz)" (Some (nd (Pos "" 0 1 1) KExpr [(FLeft, VPtr (Some (nd (Pos "" 0 1 1) KExprConditional [(FCondition, VEmb (nd (Pos "" 0 1 1) KExprLogicalOr [(FLeft, VEmb (nd (Pos "" 0 1 1) KExprLogicalAnd [(FLeft, VEmb (nd (Pos "" 0 1 1) KExprBitwiseOr [(FLeft, VEmb (nd (Pos "" 0 1 1) KExprBitwiseXor [(FLeft, VEmb (nd (Pos "" 0 1 1) KExprBitwiseAnd [(FLeft, VEmb (nd (Pos "" 0 1 1) KExprEquality [(FLeft, VEmb (nd (Pos "" 0 1 1) KExprRelational [(FLeft, VEmb (nd (Pos "" 0 1 1) KExprShift [(FLeft, VEmb (nd (Pos "" 0 1 1) KExprAdditive [(FLeft, VEmb (nd (Pos "" 0 1 1) KExprMultiplicative [(FLeft, VEmb (nd (Pos "" 0 1 1) KExprUnary [(FRight, VEmb (nd (Pos "" 0 1 1) KExprPostfix [(FValue, VEmb (nd (Pos "" 0 1 1) KExprPrimary [(FIdent, VPtr (Some (nd (Pos "" 0 1 1) KIdent [(FParts, VStrs (Some (tt, ["foo"])))]))); (FMonads, VList (Some (tt, [Some (nd (Pos "" 4 1 5) KExprInvocationParams [(FValues, VList (Some (tt, [Some (nd (Pos "" 4 1 5) KExpr [(FLeft, VPtr (Some (nd (Pos "" 4 1 5) KExprConditional [(FCondition, VEmb (nd (Pos "" 4 1 5) KExprLogicalOr [(FLeft, VEmb (nd (Pos "" 4 1 5) KExprLogicalAnd [(FLeft, VEmb (nd (Pos "" 4 1 5) KExprBitwiseOr [(FLeft, VEmb (nd (Pos "" 4 1 5) KExprBitwiseXor [(FLeft, VEmb (nd (Pos "" 4 1 5) KExprBitwiseAnd [(FLeft, VEmb (nd (Pos "" 4 1 5) KExprEquality [(FLeft, VEmb (nd (Pos "" 4 1 5) KExprRelational [(FLeft, VEmb (nd (Pos "" 4 1 5) KExprShift [(FLeft, VEmb (nd (Pos "" 4 1 5) KExprAdditive [(FLeft, VEmb (nd (Pos "" 4 1 5) KExprMultiplicative [(FLeft, VEmb (nd (Pos "" 4 1 5) KExprUnary [(FRight, VEmb (nd (Pos "" 4 1 5) KExprPostfix [(FValue, VEmb (nd (Pos "" 4 1 5) KExprPrimary [(FIdent, VPtr (Some (nd (Pos "" 4 1 5) KIdent [(FParts, VStrs (Some (tt, ["bar"])))])))]))]))]))]))]))]))]))]))]))]))]))]))]))])))])])))]); Some (nd (Pos "" 9 1 10) KExprInvocationParams [(FValues, VList (Some (tt, [Some (nd (Pos "" 9 1 10) KExpr [(FLeft, VPtr (Some (nd (Pos "" 9 1 10) KExprConditional [(FCondition, VEmb (nd (Pos "" 9 1 10) KExprLogicalOr [(FLeft, VEmb (nd (Pos "" 9 1 10) KExprLogicalAnd [(FLeft, VEmb (nd (Pos "" 9 1 10) KExprBitwiseOr [(FLeft, VEmb (nd (Pos "" 9 1 10) KExprBitwiseXor [(FLeft, VEmb (nd (Pos "" 9 1 10) KExprBitwiseAnd [(FLeft, VEmb (nd (Pos "" 9 1 10) KExprEquality [(FLeft, VEmb (nd (Pos "" 9 1 10) KExprRelational [(FLeft, VEmb (nd (Pos "" 9 1 10) KExprShift [(FLeft, VEmb (nd (Pos "" 9 1 10) KExprAdditive [(FLeft, VEmb (nd (Pos "" 9 1 10) KExprMultiplicative [(FLeft, VEmb (nd (Pos "" 9 1 10) KExprUnary [(FRight, VEmb (nd (Pos "" 9 1 10) KExprPostfix [(FValue, VEmb (nd (Pos "" 9 1 10) KExprPrimary [(FIdent, VPtr (Some (nd (Pos "" 9 1 10) KIdent [(FParts, VStrs (Some (tt, ["baz"])))])))]))]))]))]))]))]))]))]))]))]))]))]))]))])))])])))])])))]))]))]))]))]))]))]))]))]))]))]))]))]))])))])));
("TestExpr_Parsing_Primary/Invocation - Dot reference on invocation", same true KExpr "foo().bar" (Some (nd (Pos "" 0 1 1) KExpr [(FLeft, VPtr (Some (nd (Pos "" 0 1 1) KExprConditional [(FCondition, VEmb (nd (Pos "" 0 1 1) KExprLogicalOr [(FLeft, VEmb (nd (Pos "" 0 1 1) KExprLogicalAnd [(FLeft, VEmb (nd (Pos "" 0 1 1) KExprBitwiseOr [(FLeft, VEmb (nd (Pos "" 0 1 1) KExprBitwiseXor [(FLeft, VEmb (nd (Pos "" 0 1 1) KExprBitwiseAnd [(FLeft, VEmb (nd (Pos "" 0 1 1) KExprEquality [(FLeft, VEmb (nd (Pos "" 0 1 1) KExprRelational [(FLeft, VEmb (nd (Pos "" 0 1 1) KExprShift [(FLeft, VEmb (nd (Pos "" 0 1 1) KExprAdditive [(FLeft, VEmb (nd (Pos "" 0 1 1) KExprMultiplicative [(FLeft, VEmb (nd (Pos "" 0 1 1) KExprUnary [(FRight, VEmb (nd (Pos "" 0 1 1) KExprPostfix [(FValue, VEmb (nd (Pos "" 0 1 1) KExprPrimary [(FIdent, VPtr (Some (nd (Pos "" 0 1 1) KIdent [(FParts, VStrs (Some (tt, ["foo"])))]))); (FMonads, VList (Some (tt, [Some (nd (Pos "" 4 1 5) KExprInvocationParams [])]))); (FPost, VPtr (Some (nd (Pos "" 6 1 7) KExprPostfix [(FValue, VEmb (nd (Pos "" 6 1 7) KExprPrimary [(FIdent, VPtr (Some (nd (Pos "" 6 1 7) KIdent [(FParts, VStrs (Some (tt, ["bar"])))])))]))])))]))]))]))]))]))]))]))]))]))]))]))]))]))])))])));
("TestExpr_Parsing_Primary/Invocation - Dot reference invocation on invocation", same true KExpr "foo().bar()" (Some (nd (Pos "" 0 1 1) KExpr [(FLeft, VPtr (Some (nd (Pos "" 0 1 1) KExprConditional [(FCondition, VEmb (nd (Pos "" 0 1 1) KExprLogicalOr [(FLeft, VEmb (nd (Pos "" 0 1 1) KExprLogicalAnd [(FLeft, VEmb (nd (Pos "" 0 1 1) KExprBitwiseOr [(FLeft, VEmb (nd (Pos "" 0 1 1) KExprBitwiseXor [(FLeft, VEmb (nd (Pos "" 0 1 1) KExprBitwiseAnd [(FLeft, VEmb (nd (Pos "" 0 1 1) KExprEquality [(FLeft, VEmb (nd (Pos "" 0 1 1) KExprRelational [(FLeft, VEmb (nd (Pos "" 0 1 1) KExprShift [(FLeft, VEmb (nd (Pos "" 0 1 1) KExprAdditive [(FLeft, VEmb (nd (Pos "" 0 1 1) KExprMultiplicative [(FLeft, VEmb (nd (Pos "" 0 1 1) KExprUnary [(FRight, VEmb (nd (Pos "" 0 1 1) KExprPostfix [(FValue, VEmb (nd (Pos "" 0 1 1) KExprPrimary [(FIdent, VPtr (Some (nd (Pos "" 0 1 1) KIdent [(FParts, VStrs (Some (tt, ["foo"])))]))); (FMonads, VList (Some (tt, [Some (nd (Pos "" 4 1 5) KExprInvocationParams [])]))); (FPost, VPtr (Some (nd (Pos "" 6 1 7) KExprPostfix [(FValue, VEmb (nd (Pos "" 6 1 7) KExprPrimary [(FIdent, VPtr (Some (nd (Pos "" 6 1 7) KIdent [(FParts, VStrs (Some (tt, ["bar"])))]))); (FMonads, VList (Some (tt, [Some (nd (Pos "" 10 1 11) KExprInvocationParams [])])))]))])))]))]))]))]))]))]))]))]))]))]))]))]))]))])))])));
("TestFunc_Parsing/Empty body, no params, no return", same true KFunc "def foo() {}" (Some (nd (Pos "" 0 1 1) KFunc [(FLabel, VStr "foo")])));
("TestFunc_Parsing/Empty body, one ident param, no return", same true KFunc "def foo(bar: bool) {}" (Some (nd (Pos "" 0 1 1) KFunc [(FLabel, VStr "foo"); (FParameters, VList (Some (tt, [Some (nd (Pos "" 8 1 9) KFuncParameter [(FLabel, VStr "bar"); (FType, VPtr (Some (nd (Pos "" 13 1 14) KParameterType [(FIdent, VPtr (Some (nd (Pos "" 13 1 14) KIdent [(FParts, VStrs (Some (tt, ["bool"])))])))])))])])))])));
("TestFunc_Parsing/Empty body, two ident param, no return", same true KFunc "def foo(bar: bool, baz: number) {}" (Some (nd (Pos "" 0 1 1) KFunc [(FLabel, VStr "foo"); (FParameters, VList (Some (tt, [Some (nd (Pos "" 8 1 9) KFuncParameter [(FLabel, VStr "bar"); (FType, VPtr (Some (nd (Pos "" 13 1 14) KParameterType [(FIdent, VPtr (Some (nd (Pos "" 13 1 14) KIdent [(FParts, VStrs (Some (tt, ["bool"])))])))])))]); Some (nd (Pos "" 19 1 20) KFuncParameter [(FLabel, VStr "baz"); (FType, VPtr (Some (nd (Pos "" 24 1 25) KParameterType [(FIdent, VPtr (Some (nd (Pos "" 24 1 25) KIdent [(FParts, VStrs (Some (tt, ["number"])))])))])))])])))])));
("TestFunc_Parsing/Empty body, no params, one return", same true KFunc "def foo() bool {}" (Some (nd (Pos "" 0 1 1) KFunc [(FLabel, VStr "foo"); (FReturn, VList (Some (tt, [Some (nd (Pos "" 10 1 11) KParameterType [(FIdent, VPtr (Some (nd (Pos "" 10 1 11) KIdent [(FParts, VStrs (Some (tt, ["bool"])))])))])])))])));
("TestFunc_Parsing/Empty body, no params, two returns", same true KFunc "def foo() (bool, number) {}" (Some (nd (Pos "" 0 1 1) KFunc [(FLabel, VStr "foo"); (FReturn, VList (Some (tt, [Some (nd (Pos "" 11 1 12) KParameterType [(FIdent, VPtr (Some (nd (Pos "" 11 1 12) KIdent [(FParts, VStrs (Some (tt, ["bool"])))])))]); Some (nd (Pos "" 17 1 18) KParameterType [(FIdent, VPtr (Some (nd (Pos "" 17 1 18) KIdent [(FParts, VStrs (Some (tt, ["number"])))])))])])))])));
("TestFunc_Parsing/Empty body, one func param, no return", same true KFunc "def foo(bar: (int) -> bool) {}" (Some (nd (Pos "" 0 1 1) KFunc [(FLabel, VStr "foo"); (FParameters, VList (Some (tt, [Some (nd (Pos "" 8 1 9) KFuncParameter [(FLabel, VStr "bar"); (FType, VPtr (Some (nd (Pos "" 13 1 14) KParameterType [(FFunc, VPtr (Some (nd (Pos "" 13 1 14) KFuncSignature [(FParameters, VList (Some (tt, [Some (nd (Pos "" 14 1 15) KParameterType [(FIdent, VPtr (Some (nd (Pos "" 14 1 15) KIdent [(FParts, VStrs (Some (tt, ["int"])))])))])]))); (FReturn, VEmb (nd (Pos "" 22 1 23) KParameterType [(FIdent, VPtr (Some (nd (Pos "" 22 1 23) KIdent [(FParts, VStrs (Some (tt, ["bool"])))])))]))])))])))])])))])));
("TestFunc_Parsing/Empty body, two func params, no return", same true KFunc "def foo(bar: (int) -> bool, baz: (bool) -> int) {}" (Some (nd (Pos "" 0 1 1) KFunc [(FLabel, VStr "foo"); (FParameters, VList (Some (tt, [Some (nd (Pos "" 8 1 9) KFuncParameter [(FLabel, VStr "bar"); (FType, VPtr (Some (nd (Pos "" 13 1 14) KParameterType [(FFunc, VPtr (Some (nd (Pos "" 13 1 14) KFuncSignature [(FParameters, VList (Some (tt, [Some (nd (Pos "" 14 1 15) KParameterType [(FIdent, VPtr (Some (nd (Pos "" 14 1 15) KIdent [(FParts, VStrs (Some (tt, ["int"])))])))])]))); (FReturn, VEmb (nd (Pos "" 22 1 23) KParameterType [(FIdent, VPtr (Some (nd (Pos "" 22 1 23) KIdent [(FParts, VStrs (Some (tt, ["bool"])))])))]))])))])))]); Some (nd (Pos "" 28 1 29) KFuncParameter [(FLabel, VStr "baz"); (FType, VPtr (Some (nd (Pos "" 33 1 34) KParameterType [(FFunc, VPtr (Some (nd (Pos "" 33 1 34) KFuncSignature [(FParameters, VList (Some (tt, [Some (nd (Pos "" 34 1 35) KParameterType [(FIdent, VPtr (Some (nd (Pos "" 34 1 35) KIdent [(FParts, VStrs (Some (tt, ["bool"])))])))])]))); (FReturn, VEmb (nd (Pos "" 43 1 44) KParameterType [(FIdent, VPtr (Some (nd (Pos "" 43 1 44) KIdent [(FParts, VStrs (Some (tt, ["int"])))])))]))])))])))])])))])));
("TestFunc_Parsing/Empty body, no params, func return", same true KFunc "def foo() ((int) -> bool) {}" (Some (nd (Pos "" 0 1 1) KFunc [(FLabel, VStr "foo"); (FReturn, VList (Some (tt, [Some (nd (Pos "" 11 1 12) KParameterType [(FFunc, VPtr (Some (nd (Pos "" 11 1 12) KFuncSignature [(FParameters, VList (Some (tt, [Some (nd (Pos "" 12 1 13) KParameterType [(FIdent, VPtr (Some (nd (Pos "" 12 1 13) KIdent [(FParts, VStrs (Some (tt, ["int"])))])))])]))); (FReturn, VEmb (nd (Pos "" 20 1 21) KParameterType [(FIdent, VPtr (Some (nd (Pos "" 20 1 21) KIdent [(FParts, VStrs (Some (tt, ["bool"])))])))]))])))])])))])));
("TestFunc_Parsing/One Expr statement, no params, no return", same true KFunc ("def foo() {" +:+ (String "010" "") +:+ (String "009" "") +:+ "a" +:+ (String "010" "") +:+ "}") (Some (nd (Pos "" 0 1 1) KFunc [(FLabel, VStr "foo"); (FBody, VList (Some (tt, [Some (nd (Pos "" 13 2 2) KFuncStatement [(FExpr, VPtr (Some (nd (Pos "" 13 2 2) KExpr [(FLeft, VPtr (Some (nd (Pos "" 13 2 2) KExprConditional [(FCondition, VEmb (nd (Pos "" 13 2 2) KExprLogicalOr [(FLeft, VEmb (nd (Pos "" 13 2 2) KExprLogicalAnd [(FLeft, VEmb (nd (Pos "" 13 2 2) KExprBitwiseOr [(FLeft, VEmb (nd (Pos "" 13 2 2) KExprBitwiseXor [(FLeft, VEmb (nd (Pos "" 13 2 2) KExprBitwiseAnd [(FLeft, VEmb (nd (Pos "" 13 2 2) KExprEquality [(FLeft, VEmb (nd (Pos "" 13 2 2) KExprRelational [(FLeft, VEmb (nd (Pos "" 13 2 2) KExprShift [(FLeft, VEmb (nd (Pos "" 13 2 2) KExprAdditive [(FLeft, VEmb (nd (Pos "" 13 2 2) KExprMultiplicative [(FLeft, VEmb (nd (Pos "" 13 2 2) KExprUnary [(FRight, VEmb (nd (Pos "" 13 2 2) KExprPostfix [(FValue, VEmb (nd (Pos "" 13 2 2) KExprPrimary [(FIdent, VPtr (Some (nd (Pos "" 13 2 2) KIdent [(FParts, VStrs (Some (tt, ["a"])))])))]))]))]))]))]))]))]))]))]))]))]))]))]))])))])))])])))])));
("TestFunc_Parsing/One val Decl statement, no params, no return", same true KFunc ("def foo() {" +:+ (String "010" "") +:+ (String "009" "") +:+ "val a: number = 1" +:+ (String "010" "") +:+ "}") (Some (nd (Pos "" 0 1 1) KFunc [(FLabel, VStr "foo"); (FBody, VList (Some (tt, [Some (nd (Pos "" 13 2 2) KFuncStatement [(FDecl, VPtr (Some (nd (Pos "" 13 2 2) KFuncDecl [(FDeclType, VStr "val"); (FLabel, VStr "a"); (FType, VPtr (Some (nd (Pos "" 20 2 9) KParameterType [(FIdent, VPtr (Some (nd (Pos "" 20 2 9) KIdent [(FParts, VStrs (Some (tt, ["number"])))])))]))); (FValue, VPtr (Some (nd (Pos "" 29 2 18) KExpr [(FLeft, VPtr (Some (nd (Pos "" 29 2 18) KExprConditional [(FCondition, VEmb (nd (Pos "" 29 2 18) KExprLogicalOr [(FLeft, VEmb (nd (Pos "" 29 2 18) KExprLogicalAnd [(FLeft, VEmb (nd (Pos "" 29 2 18) KExprBitwiseOr [(FLeft, VEmb (nd (Pos "" 29 2 18) KExprBitwiseXor [(FLeft, VEmb (nd (Pos "" 29 2 18) KExprBitwiseAnd [(FLeft, VEmb (nd (Pos "" 29 2 18) KExprEquality [(FLeft, VEmb (nd (Pos "" 29 2 18) KExprRelational [(FLeft, VEmb (nd (Pos "" 29 2 18) KExprShift [(FLeft, VEmb (nd (Pos "" 29 2 18) KExprAdditive [(FLeft, VEmb (nd (Pos "" 29 2 18) KExprMultiplicative [(FLeft, VEmb (nd (Pos "" 29 2 18) KExprUnary [(FRight, VEmb (nd (Pos "" 29 2 18) KExprPostfix [(FValue, VEmb (nd (Pos "" 29 2 18) KExprPrimary [(FValue, VPtr (Some (nd (Pos "" 29 2 18) KValue [(FNumber, VPtr (Some (nd (Pos "" 29 2 18) KValueNumber [(FValue, VFloat (Some (tt, "1"))); (FSource, VStr "1")])))])))]))]))]))]))]))]))]))]))]))]))]))]))]))])))])))])))])])))])));
("TestFunc_Parsing/Val decl and return expr statements, no params, no return", same true KFunc ("def foo() {" +:+ (String "010" "") +:+ (String "009" "") +:+ "val a: number = 1" +:+ (String "010" "") +:+ (String "009" "") +:+ "a" +:+ (String "010" "") +:+ "}") (Some (nd (Pos "" 0 1 1) KFunc [(FLabel, VStr "foo"); (FBody, VList (Some (tt, [Some (nd (Pos "" 13 2 2) KFuncStatement [(FDecl, VPtr (Some (nd (Pos "" 13 2 2) KFuncDecl [(FDeclType, VStr "val"); (FLabel, VStr "a"); (FType, VPtr (Some (nd (Pos "" 20 2 9) KParameterType [(FIdent, VPtr (Some (nd (Pos "" 20 2 9) KIdent [(FParts, VStrs (Some (tt, ["number"])))])))]))); (FValue, VPtr (Some (nd (Pos "" 29 2 18) KExpr [(FLeft, VPtr (Some (nd (Pos "" 29 2 18) KExprConditional [(FCondition, VEmb (nd (Pos "" 29 2 18) KExprLogicalOr [(FLeft, VEmb (nd (Pos "" 29 2 18) KExprLogicalAnd [(FLeft, VEmb (nd (Pos "" 29 2 18) KExprBitwiseOr [(FLeft, VEmb (nd (Pos "" 29 2 18) KExprBitwiseXor [(FLeft, VEmb (nd (Pos "" 29 2 18) KExprBitwiseAnd [(FLeft, VEmb (nd (Pos "" 29 2 18) KExprEquality [(FLeft, VEmb (nd (Pos "" 29 2 18) KExprRelational [(FLeft, VEmb (nd (Pos "" 29 2 18) KExprShift [(FLeft, VEmb (nd (Pos "" 29 2 18) KExprAdditive [(FLeft, VEmb (nd (Pos "" 29 2 18) KExprMultiplicative [(FLeft, VEmb (nd (Pos "" 29 2 18) KExprUnary [(FRight, VEmb (nd (Pos "" 29 2 18) KExprPostfix [(FValue, VEmb (nd (Pos "" 29 2 18) KExprPrimary [(FValue, VPtr (Some (nd (Pos "" 29 2 18) KValue [(FNumber, VPtr (Some (nd (Pos "" 29 2 18) KValueNumber [(FValue, VFloat (Some (tt, "1"))); (FSource, VStr "1")])))])))]))]))]))]))]))]))]))]))]))]))]))]))]))])))])))])))]); Some (nd (Pos "" 32 3 2) KFuncStatement [(FExpr, VPtr (Some (nd (Pos "" 32 3 2) KExpr [(FLeft, VPtr (Some (nd (Pos "" 32 3 2) KExprConditional [(FCondition, VEmb (nd (Pos "" 32 3 2) KExprLogicalOr [(FLeft, VEmb (nd (Pos "" 32 3 2) KExprLogicalAnd [(FLeft, VEmb (nd (Pos "" 32 3 2) KExprBitwiseOr [(FLeft, VEmb (nd (Pos "" 32 3 2) KExprBitwiseXor [(FLeft, VEmb (nd (Pos "" 32 3 2) KExprBitwiseAnd [(FLeft, VEmb (nd (Pos "" 32 3 2) KExprEquality [(FLeft, VEmb (nd (Pos "" 32 3 2) KExprRelational [(FLeft, VEmb (nd (Pos "" 32 3 2) KExprShift [(FLeft, VEmb (nd (Pos "" 32 3 2) KExprAdditive [(FLeft, VEmb (nd (Pos "" 32 3 2) KExprMultiplicative [(FLeft, VEmb (nd (Pos "" 32 3 2) KExprUnary [(FRight, VEmb (nd (Pos "" 32 3 2) KExprPostfix [(FValue, VEmb (nd (Pos "" 32 3 2) KExprPrimary [(FIdent, VPtr (Some (nd (Pos "" 32 3 2) KIdent [(FParts, VStrs (Some (tt, ["a"])))])))]))]))]))]))]))]))]))]))]))]))]))]))]))])))])))])])))])));
("TestFunc_Parsing/Single-line comment - separated", same true KFunc ("// foo" +:+ (String "010" "") +:+ (String "010" "") +:+ "def foo() {}") None);
("TestFuncParameter_Parsing/ident - no type", same true KFuncParameter "foo" (Some (nd (Pos "" 0 1 1) KFuncParameter [(FLabel, VStr "foo")])));
("TestFuncParameter_Parsing/ident - type", same true KFuncParameter "foo: number" (Some (nd (Pos "" 0 1 1) KFuncParameter [(FLabel, VStr "foo"); (FType, VPtr (Some (nd (Pos "" 5 1 6) KParameterType [(FIdent, VPtr (Some (nd (Pos "" 5 1 6) KIdent [(FParts, VStrs (Some (tt, ["number"])))])))])))])));
("TestFuncStatement_Parsing/Decl", same true KFuncStatement "val foo" (Some (nd (Pos "" 0 1 1) KFuncStatement [(FDecl, VPtr (Some (nd (Pos "" 0 1 1) KFuncDecl [(FDeclType, VStr "val"); (FLabel, VStr "foo")])))])));
("TestFuncStatement_Parsing/Expr", same true KFuncStatement "1" (Some (nd (Pos "" 0 1 1) KFuncStatement [(FExpr, VPtr (Some (nd (Pos "" 0 1 1) KExpr [(FLeft, VPtr (Some (nd (Pos "" 0 1 1) KExprConditional [(FCondition, VEmb (nd (Pos "" 0 1 1) KExprLogicalOr [(FLeft, VEmb (nd (Pos "" 0 1 1) KExprLogicalAnd [(FLeft, VEmb (nd (Pos "" 0 1 1) KExprBitwiseOr [(FLeft, VEmb (nd (Pos "" 0 1 1) KExprBitwiseXor [(FLeft, VEmb (nd (Pos "" 0 1 1) KExprBitwiseAnd [(FLeft, VEmb (nd (Pos "" 0 1 1) KExprEquality [(FLeft, VEmb (nd (Pos "" 0 1 1) KExprRelational [(FLeft, VEmb (nd (Pos "" 0 1 1) KExprShift [(FLeft, VEmb (nd (Pos "" 0 1 1) KExprAdditive [(FLeft, VEmb (nd (Pos "" 0 1 1) KExprMultiplicative [(FLeft, VEmb (nd (Pos "" 0 1 1) KExprUnary [(FRight, VEmb (nd (Pos "" 0 1 1) KExprPostfix [(FValue, VEmb (nd (Pos "" 0 1 1) KExprPrimary [(FValue, VPtr (Some (nd (Pos "" 0 1 1) KValue [(FNumber, VPtr (Some (nd (Pos "" 0 1 1) KValueNumber [(FValue, VFloat (Some (tt, "1"))); (FSource, VStr "1")])))])))]))]))]))]))]))]))]))]))]))]))]))]))]))])))])))])));
("TestFuncStatement_Parsing/Single-line comment", same true KFuncStatement "// foo" (Some (nd (Pos "" 0 1 1) KFuncStatement [(FComment, VPtr (Some (nd (Pos "" 0 1 1) KComment [(FSingleLine, VStrs (Some (tt, ["// foo"])))])))])));
("TestFuncStatement_Parsing/Multi-line comment", same true KFuncStatement "/* foo */" (Some (nd (Pos "" 0 1 1) KFuncStatement [(FComment, VPtr (Some (nd (Pos "" 0 1 1) KComment [(FMultiline, VStr "/* foo */")])))])));
("TestFuncDecl_Parsing/const - no type", same true KFuncDecl "const foo" (Some (nd (Pos "" 0 1 1) KFuncDecl [(FDeclType, VStr "const"); (FLabel, VStr "foo")])));
("TestFuncDecl_Parsing/val - no type", same true KFuncDecl "val foo" (Some (nd (Pos "" 0 1 1) KFuncDecl [(FDeclType, VStr "val"); (FLabel, VStr "foo")])));
("TestFuncDecl_Parsing/unknown - no type", same true KFuncDecl "foo bar" None);
("TestFuncDecl_Parsing/type - no value", same true KFuncDecl "val foo: number" (Some (nd (Pos "" 0 1 1) KFuncDecl [(FDeclType, VStr "val"); (FLabel, VStr "foo"); (FType, VPtr (Some (nd (Pos "" 9 1 10) KParameterType [(FIdent, VPtr (Some (nd (Pos "" 9 1 10) KIdent [(FParts, VStrs (Some (tt, ["number"])))])))])))])));
("TestFuncDecl_Parsing/no type - value", same true KFuncDecl "val foo = 1" (Some (nd (Pos "" 0 1 1) KFuncDecl [(FDeclType, VStr "val"); (FLabel, VStr "foo"); (FValue, VPtr (Some (nd (Pos "" 10 1 11) KExpr [(FLeft, VPtr (Some (nd (Pos "" 10 1 11) KExprConditional [(FCondition, VEmb (nd (Pos "" 10 1 11) KExprLogicalOr [(FLeft, VEmb (nd (Pos "" 10 1 11) KExprLogicalAnd [(FLeft, VEmb (nd (Pos "" 10 1 11) KExprBitwiseOr [(FLeft, VEmb (nd (Pos "" 10 1 11) KExprBitwiseXor [(FLeft, VEmb (nd (Pos "" 10 1 11) KExprBitwiseAnd [(FLeft, VEmb (nd (Pos "" 10 1 11) KExprEquality [(FLeft, VEmb (nd (Pos "" 10 1 11) KExprRelational [(FLeft, VEmb (nd (Pos "" 10 1 11) KExprShift [(FLeft, VEmb (nd (Pos "" 10 1 11) KExprAdditive [(FLeft, VEmb (nd (Pos "" 10 1 11) KExprMultiplicative [(FLeft, VEmb (nd (Pos "" 10 1 11) KExprUnary [(FRight, VEmb (nd (Pos "" 10 1 11) KExprPostfix [(FValue, VEmb (nd (Pos "" 10 1 11) KExprPrimary [(FValue, VPtr (Some (nd (Pos "" 10 1 11) KValue [(FNumber, VPtr (Some (nd (Pos "" 10 1 11) KValueNumber [(FValue, VFloat (Some (tt, "1"))); (FSource, VStr "1")])))])))]))]))]))]))]))]))]))]))]))]))]))]))]))])))])))])));
("TestFuncDecl_Parsing/type - value", same true KFuncDecl "val foo: number = 1" (Some (nd (Pos "" 0 1 1) KFuncDecl [(FDeclType, VStr "val"); (FLabel, VStr "foo"); (FType, VPtr (Some (nd (Pos "" 9 1 10) KParameterType [(FIdent, VPtr (Some (nd (Pos "" 9 1 10) KIdent [(FParts, VStrs (Some (tt, ["number"])))])))]))); (FValue, VPtr (Some (nd (Pos "" 18 1 19) KExpr [(FLeft, VPtr (Some (nd (Pos "" 18 1 19) KExprConditional [(FCondition, VEmb (nd (Pos "" 18 1 19) KExprLogicalOr [(FLeft, VEmb (nd (Pos "" 18 1 19) KExprLogicalAnd [(FLeft, VEmb (nd (Pos "" 18 1 19) KExprBitwiseOr [(FLeft, VEmb (nd (Pos "" 18 1 19) KExprBitwiseXor [(FLeft, VEmb (nd (Pos "" 18 1 19) KExprBitwiseAnd [(FLeft, VEmb (nd (Pos "" 18 1 19) KExprEquality [(FLeft, VEmb (nd (Pos "" 18 1 19) KExprRelational [(FLeft, VEmb (nd (Pos "" 18 1 19) KExprShift [(FLeft, VEmb (nd (Pos "" 18 1 19) KExprAdditive [(FLeft, VEmb (nd (Pos "" 18 1 19) KExprMultiplicative [(FLeft, VEmb (nd (Pos "" 18 1 19) KExprUnary [(FRight, VEmb (nd (Pos "" 18 1 19) KExprPostfix [(FValue, VEmb (nd (Pos "" 18 1 19) KExprPrimary [(FValue, VPtr (Some (nd (Pos "" 18 1 19) KValue [(FNumber, VPtr (Some (nd (Pos "" 18 1 19) KValueNumber [(FValue, VFloat (Some (tt, "1"))); (FSource, VStr "1")])))])))]))]))]))]))]))]))]))]))]))]))]))]))]))])))])))])));
("TestIdent_Parsing/one part", same true KIdent "foo" (Some (nd (Pos "" 0 1 1) KIdent [(FParts, VStrs (Some (tt, ["foo"])))])));
("TestIdent_Parsing/several parts", same true KIdent "foo.bar.baz" (Some (nd (Pos "" 0 1 1) KIdent [(FParts, VStrs (Some (tt, ["foo"; "bar"; "baz"])))])));
("TestLambda_Parsing/No parameters, simple expression", same true KLambda "() => 1" (Some (nd (Pos "" 0 1 1) KLambda [(FParameters, VList None); (FExpr, VEmb (nd (Pos "" 6 1 7) KExpr [(FLeft, VPtr (Some (nd (Pos "" 6 1 7) KExprConditional [(FCondition, VEmb (nd (Pos "" 6 1 7) KExprLogicalOr [(FLeft, VEmb (nd (Pos "" 6 1 7) KExprLogicalAnd [(FLeft, VEmb (nd (Pos "" 6 1 7) KExprBitwiseOr [(FLeft, VEmb (nd (Pos "" 6 1 7) KExprBitwiseXor [(FLeft, VEmb (nd (Pos "" 6 1 7) KExprBitwiseAnd [(FLeft, VEmb (nd (Pos "" 6 1 7) KExprEquality [(FLeft, VEmb (nd (Pos "" 6 1 7) KExprRelational [(FLeft, VEmb (nd (Pos "" 6 1 7) KExprShift [(FLeft, VEmb (nd (Pos "" 6 1 7) KExprAdditive [(FLeft, VEmb (nd (Pos "" 6 1 7) KExprMultiplicative [(FLeft, VEmb (nd (Pos "" 6 1 7) KExprUnary [(FRight, VEmb (nd (Pos "" 6 1 7) KExprPostfix [(FValue, VEmb (nd (Pos "" 6 1 7) KExprPrimary [(FValue, VPtr (Some (nd (Pos "" 6 1 7) KValue [(FNumber, VPtr (Some (nd (Pos "" 6 1 7) KValueNumber [(FValue, VFloat (Some (tt, "1"))); (FSource, VStr "1")])))])))]))]))]))]))]))]))]))]))]))]))]))]))]))])))]))])));
("TestLambda_Parsing/One parameter, no type, simple expression", same true KLambda "(x) => 1" (Some (nd (Pos "" 0 1 1) KLambda [(FParameters, VList (Some (tt, [Some (nd (Pos "" 1 1 2) KLambdaParameter [(FLabel, VStr "x")])]))); (FExpr, VEmb (nd (Pos "" 7 1 8) KExpr [(FLeft, VPtr (Some (nd (Pos "" 7 1 8) KExprConditional [(FCondition, VEmb (nd (Pos "" 7 1 8) KExprLogicalOr [(FLeft, VEmb (nd (Pos "" 7 1 8) KExprLogicalAnd [(FLeft, VEmb (nd (Pos "" 7 1 8) KExprBitwiseOr [(FLeft, VEmb (nd (Pos "" 7 1 8) KExprBitwiseXor [(FLeft, VEmb (nd (Pos "" 7 1 8) KExprBitwiseAnd [(FLeft, VEmb (nd (Pos "" 7 1 8) KExprEquality [(FLeft, VEmb (nd (Pos "" 7 1 8) KExprRelational [(FLeft, VEmb (nd (Pos "" 7 1 8) KExprShift [(FLeft, VEmb (nd (Pos "" 7 1 8) KExprAdditive [(FLeft, VEmb (nd (Pos "" 7 1 8) KExprMultiplicative [(FLeft, VEmb (nd (Pos "" 7 1 8) KExprUnary [(FRight, VEmb (nd (Pos "" 7 1 8) KExprPostfix [(FValue, VEmb (nd (Pos "" 7 1 8) KExprPrimary [(FValue, VPtr (Some (nd (Pos "" 7 1 8) KValue [(FNumber, VPtr (Some (nd (Pos "" 7 1 8) KValueNumber [(FValue, VFloat (Some (tt, "1"))); (FSource, VStr "1")])))])))]))]))]))]))]))]))]))]))]))]))]))]))]))])))]))])));
("TestLambda_Parsing/Two parameters, no type, simple expression", same true KLambda "(x, y) => 1" (Some (nd (Pos "" 0 1 1) KLambda [(FParameters, VList (Some (tt, [Some (nd (Pos "" 1 1 2) KLambdaParameter [(FLabel, VStr "x")]); Some (nd (Pos "" 4 1 5) KLambdaParameter [(FLabel, VStr "y")])]))); (FExpr, VEmb (nd (Pos "" 10 1 11) KExpr [(FLeft, VPtr (Some (nd (Pos "" 10 1 11) KExprConditional [(FCondition, VEmb (nd (Pos "" 10 1 11) KExprLogicalOr [(FLeft, VEmb (nd (Pos "" 10 1 11) KExprLogicalAnd [(FLeft, VEmb (nd (Pos "" 10 1 11) KExprBitwiseOr [(FLeft, VEmb (nd (Pos "" 10 1 11) KExprBitwiseXor [(FLeft, VEmb (nd (Pos "" 10 1 11) KExprBitwiseAnd [(FLeft, VEmb (nd (Pos "" 10 1 11) KExprEquality [(FLeft, VEmb (nd (Pos "" 10 1 11) KExprRelational [(FLeft, VEmb (nd (Pos "" 10 1 11) KExprShift [(FLeft, VEmb (nd (Pos "" 10 1 11) KExprAdditive [(FLeft, VEmb (nd (Pos "" 10 1 11) KExprMultiplicative [(FLeft, VEmb (nd (Pos "" 10 1 11) KExprUnary [(FRight, VEmb (nd (Pos "" 10 1 11) KExprPostfix [(FValue, VEmb (nd (Pos "" 10 1 11) KExprPrimary [(FValue, VPtr (Some (nd (Pos "" 10 1 11) KValue [(FNumber, VPtr (Some (nd (Pos "" 10 1 11) KValueNumber [(FValue, VFloat (Some (tt, "1"))); (FSource, VStr "1")])))])))]))]))]))]))]))]))]))]))]))]))]))]))]))])))]))])));
("TestLambda_Parsing/One parameter, type, simple expression", same true KLambda "(x: number) => 1" (Some (nd (Pos "" 0 1 1) KLambda [(FParameters, VList (Some (tt, [Some (nd (Pos "" 1 1 2) KLambdaParameter [(FLabel, VStr "x"); (FType, VPtr (Some (nd (Pos "" 4 1 5) KParameterType [(FIdent, VPtr (Some (nd (Pos "" 4 1 5) KIdent [(FParts, VStrs (Some (tt, ["number"])))])))])))])]))); (FExpr, VEmb (nd (Pos "" 15 1 16) KExpr [(FLeft, VPtr (Some (nd (Pos "" 15 1 16) KExprConditional [(FCondition, VEmb (nd (Pos "" 15 1 16) KExprLogicalOr [(FLeft, VEmb (nd (Pos "" 15 1 16) KExprLogicalAnd [(FLeft, VEmb (nd (Pos "" 15 1 16) KExprBitwiseOr [(FLeft, VEmb (nd (Pos "" 15 1 16) KExprBitwiseXor [(FLeft, VEmb (nd (Pos "" 15 1 16) KExprBitwiseAnd [(FLeft, VEmb (nd (Pos "" 15 1 16) KExprEquality [(FLeft, VEmb (nd (Pos "" 15 1 16) KExprRelational [(FLeft, VEmb (nd (Pos "" 15 1 16) KExprShift [(FLeft, VEmb (nd (Pos "" 15 1 16) KExprAdditive [(FLeft, VEmb (nd (Pos "" 15 1 16) KExprMultiplicative [(FLeft, VEmb (nd (Pos "" 15 1 16) KExprUnary [(FRight, VEmb (nd (Pos "" 15 1 16) KExprPostfix [(FValue, VEmb (nd (Pos "" 15 1 16) KExprPrimary [(FValue, VPtr (Some (nd (Pos "" 15 1 16) KValue [(FNumber, VPtr (Some (nd (Pos "" 15 1 16) KValueNumber [(FValue, VFloat (Some (tt, "1"))); (FSource, VStr "1")])))])))]))]))]))]))]))]))]))]))]))]))]))]))]))])))]))])));
("TestLambda_Parsing/Two parameters, type on both, simple expression", same true KLambda "(x: number, y: string) => 1" (Some (nd (Pos "" 0 1 1) KLambda [(FParameters, VList (Some (tt, [Some (nd (Pos "" 1 1 2) KLambdaParameter [(FLabel, VStr "x"); (FType, VPtr (Some (nd (Pos "" 4 1 5) KParameterType [(FIdent, VPtr (Some (nd (Pos "" 4 1 5) KIdent [(FParts, VStrs (Some (tt, ["number"])))])))])))]); Some (nd (Pos "" 12 1 13) KLambdaParameter [(FLabel, VStr "y"); (FType, VPtr (Some (nd (Pos "" 15 1 16) KParameterType [(FIdent, VPtr (Some (nd (Pos "" 15 1 16) KIdent [(FParts, VStrs (Some (tt, ["string"])))])))])))])]))); (FExpr, VEmb (nd (Pos "" 26 1 27) KExpr [(FLeft, VPtr (Some (nd (Pos "" 26 1 27) KExprConditional [(FCondition, VEmb (nd (Pos "" 26 1 27) KExprLogicalOr [(FLeft, VEmb (nd (Pos "" 26 1 27) KExprLogicalAnd [(FLeft, VEmb (nd (Pos "" 26 1 27) KExprBitwiseOr [(FLeft, VEmb (nd (Pos "" 26 1 27) KExprBitwiseXor [(FLeft, VEmb (nd (Pos "" 26 1 27) KExprBitwiseAnd [(FLeft, VEmb (nd (Pos "" 26 1 27) KExprEquality [(FLeft, VEmb (nd (Pos "" 26 1 27) KExprRelational [(FLeft, VEmb (nd (Pos "" 26 1 27) KExprShift [(FLeft, VEmb (nd (Pos "" 26 1 27) KExprAdditive [(FLeft, VEmb (nd (Pos "" 26 1 27) KExprMultiplicative [(FLeft, VEmb (nd (Pos "" 26 1 27) KExprUnary [(FRight, VEmb (nd (Pos "" 26 1 27) KExprPostfix [(FValue, VEmb (nd (Pos "" 26 1 27) KExprPrimary [(FValue, VPtr (Some (nd (Pos "" 26 1 27) KValue [(FNumber, VPtr (Some (nd (Pos "" 26 1 27) KValueNumber [(FValue, VFloat (Some (tt, "1"))); (FSource, VStr "1")])))])))]))]))]))]))]))]))]))]))]))]))]))]))]))])))]))])));
("TestLambda_Parsing/Two parameters, type on first, simple expression", same true KLambda "(x: number, y) => 1" (Some (nd (Pos "" 0 1 1) KLambda [(FParameters, VList (Some (tt, [Some (nd (Pos "" 1 1 2) KLambdaParameter [(FLabel, VStr "x"); (FType, VPtr (Some (nd (Pos "" 4 1 5) KParameterType [(FIdent, VPtr (Some (nd (Pos "" 4 1 5) KIdent [(FParts, VStrs (Some (tt, ["number"])))])))])))]); Some (nd (Pos "" 12 1 13) KLambdaParameter [(FLabel, VStr "y")])]))); (FExpr, VEmb (nd (Pos "" 18 1 19) KExpr [(FLeft, VPtr (Some (nd (Pos "" 18 1 19) KExprConditional [(FCondition, VEmb (nd (Pos "" 18 1 19) KExprLogicalOr [(FLeft, VEmb (nd (Pos "" 18 1 19) KExprLogicalAnd [(FLeft, VEmb (nd (Pos "" 18 1 19) KExprBitwiseOr [(FLeft, VEmb (nd (Pos "" 18 1 19) KExprBitwiseXor [(FLeft, VEmb (nd (Pos "" 18 1 19) KExprBitwiseAnd [(FLeft, VEmb (nd (Pos "" 18 1 19) KExprEquality [(FLeft, VEmb (nd (Pos "" 18 1 19) KExprRelational [(FLeft, VEmb (nd (Pos "" 18 1 19) KExprShift [(FLeft, VEmb (nd (Pos "" 18 1 19) KExprAdditive [(FLeft, VEmb (nd (Pos "" 18 1 19) KExprMultiplicative [(FLeft, VEmb (nd (Pos "" 18 1 19) KExprUnary [(FRight, VEmb (nd (Pos "" 18 1 19) KExprPostfix [(FValue, VEmb (nd (Pos "" 18 1 19) KExprPrimary [(FValue, VPtr (Some (nd (Pos "" 18 1 19) KValue [(FNumber, VPtr (Some (nd (Pos "" 18 1 19) KValueNumber [(FValue, VFloat (Some (tt, "1"))); (FSource, VStr "1")])))])))]))]))]))]))]))]))]))]))]))]))]))]))]))])))]))])));
("TestLambda_Parsing/Two parameters, type on second, simple expression", same true KLambda "(x, y: string) => 1" (Some (nd (Pos "" 0 1 1) KLambda [(FParameters, VList (Some (tt, [Some (nd (Pos "" 1 1 2) KLambdaParameter [(FLabel, VStr "x")]); Some (nd (Pos "" 4 1 5) KLambdaParameter [(FLabel, VStr "y"); (FType, VPtr (Some (nd (Pos "" 7 1 8) KParameterType [(FIdent, VPtr (Some (nd (Pos "" 7 1 8) KIdent [(FParts, VStrs (Some (tt, ["string"])))])))])))])]))); (FExpr, VEmb (nd (Pos "" 18 1 19) KExpr [(FLeft, VPtr (Some (nd (Pos "" 18 1 19) KExprConditional [(FCondition, VEmb (nd (Pos "" 18 1 19) KExprLogicalOr [(FLeft, VEmb (nd (Pos "" 18 1 19) KExprLogicalAnd [(FLeft, VEmb (nd (Pos "" 18 1 19) KExprBitwiseOr [(FLeft, VEmb (nd (Pos "" 18 1 19) KExprBitwiseXor [(FLeft, VEmb (nd (Pos "" 18 1 19) KExprBitwiseAnd [(FLeft, VEmb (nd (Pos "" 18 1 19) KExprEquality [(FLeft, VEmb (nd (Pos "" 18 1 19) KExprRelational [(FLeft, VEmb (nd (Pos "" 18 1 19) KExprShift [(FLeft, VEmb (nd (Pos "" 18 1 19) KExprAdditive [(FLeft, VEmb (nd (Pos "" 18 1 19) KExprMultiplicative [(FLeft, VEmb (nd (Pos "" 18 1 19) KExprUnary [(FRight, VEmb (nd (Pos "" 18 1 19) KExprPostfix [(FValue, VEmb (nd (Pos "" 18 1 19) KExprPrimary [(FValue, VPtr (Some (nd (Pos "" 18 1 19) KValue [(FNumber, VPtr (Some (nd (Pos "" 18 1 19) KValueNumber [(FValue, VFloat (Some (tt, "1"))); (FSource, VStr "1")])))])))]))]))]))]))]))]))]))]))]))]))]))]))]))])))]))])));
("TestLambda_Parsing/Complete declaration", same true KLambda "(x: number) => x + 1" (Some (nd (Pos "" 0 1 1) KLambda [(FParameters, VList (Some (tt, [Some (nd (Pos "" 1 1 2) KLambdaParameter [(FLabel, VStr "x"); (FType, VPtr (Some (nd (Pos "" 4 1 5) KParameterType [(FIdent, VPtr (Some (nd (Pos "" 4 1 5) KIdent [(FParts, VStrs (Some (tt, ["number"])))])))])))])]))); (FExpr, VEmb (nd (Pos "" 15 1 16) KExpr [(FLeft, VPtr (Some (nd (Pos "" 15 1 16) KExprConditional [(FCondition, VEmb (nd (Pos "" 15 1 16) KExprLogicalOr [(FLeft, VEmb (nd (Pos "" 15 1 16) KExprLogicalAnd [(FLeft, VEmb (nd (Pos "" 15 1 16) KExprBitwiseOr [(FLeft, VEmb (nd (Pos "" 15 1 16) KExprBitwiseXor [(FLeft, VEmb (nd (Pos "" 15 1 16) KExprBitwiseAnd [(FLeft, VEmb (nd (Pos "" 15 1 16) KExprEquality [(FLeft, VEmb (nd (Pos "" 15 1 16) KExprRelational [(FLeft, VEmb (nd (Pos "" 15 1 16) KExprShift [(FLeft, VEmb (nd (Pos "" 15 1 16) KExprAdditive [(FLeft, VEmb (nd (Pos "" 15 1 16) KExprMultiplicative [(FLeft, VEmb (nd (Pos "" 15 1 16) KExprUnary [(FRight, VEmb (nd (Pos "" 15 1 16) KExprPostfix [(FValue, VEmb (nd (Pos "" 15 1 16) KExprPrimary [(FIdent, VPtr (Some (nd (Pos "" 15 1 16) KIdent [(FParts, VStrs (Some (tt, ["x"])))])))]))]))]))])); (FOp, VStr "+"); (FRight, VPtr (Some (nd (Pos "" 19 1 20) KExprAdditive [(FLeft, VEmb (nd (Pos "" 19 1 20) KExprMultiplicative [(FLeft, VEmb (nd (Pos "" 19 1 20) KExprUnary [(FRight, VEmb (nd (Pos "" 19 1 20) KExprPostfix [(FValue, VEmb (nd (Pos "" 19 1 20) KExprPrimary [(FValue, VPtr (Some (nd (Pos "" 19 1 20) KValue [(FNumber, VPtr (Some (nd (Pos "" 19 1 20) KValueNumber [(FValue, VFloat (Some (tt, "1"))); (FSource, VStr "1")])))])))]))]))]))]))])))]))]))]))]))]))]))]))]))]))])))]))])));
("TestLambda_Parsing/Single-line comment", same true KLambda ("// foo" +:+ (String "010" "") +:+ "() => 1") (Some (nd (Pos "" 0 1 1) KLambda [(FComment, VPtr (Some (nd (Pos "" 0 1 1) KComment [(FSingleLine, VStrs (Some (tt, ["// foo"])))]))); (FParameters, VList None); (FExpr, VEmb (nd (Pos "" 13 2 7) KExpr [(FLeft, VPtr (Some (nd (Pos "" 13 2 7) KExprConditional [(FCondition, VEmb (nd (Pos "" 13 2 7) KExprLogicalOr [(FLeft, VEmb (nd (Pos "" 13 2 7) KExprLogicalAnd [(FLeft, VEmb (nd (Pos "" 13 2 7) KExprBitwiseOr [(FLeft, VEmb (nd (Pos "" 13 2 7) KExprBitwiseXor [(FLeft, VEmb (nd (Pos "" 13 2 7) KExprBitwiseAnd [(FLeft, VEmb (nd (Pos "" 13 2 7) KExprEquality [(FLeft, VEmb (nd (Pos "" 13 2 7) KExprRelational [(FLeft, VEmb (nd (Pos "" 13 2 7) KExprShift [(FLeft, VEmb (nd (Pos "" 13 2 7) KExprAdditive [(FLeft, VEmb (nd (Pos "" 13 2 7) KExprMultiplicative [(FLeft, VEmb (nd (Pos "" 13 2 7) KExprUnary [(FRight, VEmb (nd (Pos "" 13 2 7) KExprPostfix [(FValue, VEmb (nd (Pos "" 13 2 7) KExprPrimary [(FValue, VPtr (Some (nd (Pos "" 13 2 7) KValue [(FNumber, VPtr (Some (nd (Pos "" 13 2 7) KValueNumber [(FValue, VFloat (Some (tt, "1"))); (FSource, VStr "1")])))])))]))]))]))]))]))]))]))]))]))]))]))]))]))])))]))])));
("TestLambda_Parsing/Single-line comment - separated", same true KLambda ("// foo" +:+ (String "010" "") +:+ (String "010" "") +:+ "() => 1") None);
("TestLambda_Parsing/Multi-line comment", same true KLambda ("/* foo */" +:+ (String "010" "") +:+ "() => 1") (Some (nd (Pos "" 0 1 1) KLambda [(FComment, VPtr (Some (nd (Pos "" 0 1 1) KComment [(FMultiline, VStr ("/* foo */" +:+ (String "010" "")))]))); (FParameters, VList None); (FExpr, VEmb (nd (Pos "" 16 2 7) KExpr [(FLeft, VPtr (Some (nd (Pos "" 16 2 7) KExprConditional [(FCondition, VEmb (nd (Pos "" 16 2 7) KExprLogicalOr [(FLeft, VEmb (nd (Pos "" 16 2 7) KExprLogicalAnd [(FLeft, VEmb (nd (Pos "" 16 2 7) KExprBitwiseOr [(FLeft, VEmb (nd (Pos "" 16 2 7) KExprBitwiseXor [(FLeft, VEmb (nd (Pos "" 16 2 7) KExprBitwiseAnd [(FLeft, VEmb (nd (Pos "" 16 2 7) KExprEquality [(FLeft, VEmb (nd (Pos "" 16 2 7) KExprRelational [(FLeft, VEmb (nd (Pos "" 16 2 7) KExprShift [(FLeft, VEmb (nd (Pos "" 16 2 7) KExprAdditive [(FLeft, VEmb (nd (Pos "" 16 2 7) KExprMultiplicative [(FLeft, VEmb (nd (Pos "" 16 2 7) KExprUnary [(FRight, VEmb (nd (Pos "" 16 2 7) KExprPostfix [(FValue, VEmb (nd (Pos "" 16 2 7) KExprPrimary [(FValue, VPtr (Some (nd (Pos "" 16 2 7) KValue [(FNumber, VPtr (Some (nd (Pos "" 16 2 7) KValueNumber [(FValue, VFloat (Some (tt, "1"))); (FSource, VStr "1")])))])))]))]))]))]))]))]))]))]))]))]))]))]))]))])))]))])));
("TestLambdaParameter_Parsing/Only label", same true KLambdaParameter "foo" (Some (nd (Pos "" 0 1 1) KLambdaParameter [(FLabel, VStr "foo")])));
("TestLambdaParameter_Parsing/Label and type", same true KLambdaParameter "foo: number" (Some (nd (Pos "" 0 1 1) KLambdaParameter [(FLabel, VStr "foo"); (FType, VPtr (Some (nd (Pos "" 5 1 6) KParameterType [(FIdent, VPtr (Some (nd (Pos "" 5 1 6) KIdent [(FParts, VStrs (Some (tt, ["number"])))])))])))])));
("TestParseString/Empty string", same true KAST "" (Some (nd no_pos KAST [])));
("TestType_Parsing/Enum - Empty", same true KType "type foo enum {}" (Some (nd (Pos "" 0 1 1) KType [(FLabel, VStr "foo"); (FEnum, VPtr (Some (nd (Pos "" 15 1 16) KTypeEnum []))); (FObject, VPtr None)])));
("TestType_Parsing/Enum", same true KType ("type foo enum {" +:+ (String "010" "") +:+ "  bar: 1" +:+ (String "010" "") +:+ "}") (Some (nd (Pos "" 0 1 1) KType [(FLabel, VStr "foo"); (FEnum, VPtr (Some (nd (Pos "" 18 2 3) KTypeEnum [(FItems, VList (Some (tt, [Some (nd (Pos "" 18 2 3) KTypeEnumItem [(FLabel, VStr "bar"); (FValue, VEmb (nd (Pos "" 23 2 8) KExpr [(FLeft, VPtr (Some (nd (Pos "" 23 2 8) KExprConditional [(FCondition, VEmb (nd (Pos "" 23 2 8) KExprLogicalOr [(FLeft, VEmb (nd (Pos "" 23 2 8) KExprLogicalAnd [(FLeft, VEmb (nd (Pos "" 23 2 8) KExprBitwiseOr [(FLeft, VEmb (nd (Pos "" 23 2 8) KExprBitwiseXor [(FLeft, VEmb (nd (Pos "" 23 2 8) KExprBitwiseAnd [(FLeft, VEmb (nd (Pos "" 23 2 8) KExprEquality [(FLeft, VEmb (nd (Pos "" 23 2 8) KExprRelational [(FLeft, VEmb (nd (Pos "" 23 2 8) KExprShift [(FLeft, VEmb (nd (Pos "" 23 2 8) KExprAdditive [(FLeft, VEmb (nd (Pos "" 23 2 8) KExprMultiplicative [(FLeft, VEmb (nd (Pos "" 23 2 8) KExprUnary [(FRight, VEmb (nd (Pos "" 23 2 8) KExprPostfix [(FValue, VEmb (nd (Pos "" 23 2 8) KExprPrimary [(FValue, VPtr (Some (nd (Pos "" 23 2 8) KValue [(FNumber, VPtr (Some (nd (Pos "" 23 2 8) KValueNumber [(FValue, VFloat (Some (tt, "1"))); (FSource, VStr "1")])))])))]))]))]))]))]))]))]))]))]))]))]))]))]))])))]))])])))]))); (FObject, VPtr None)])));
("TestType_Parsing/Object - Empty", same true KType "type foo object {}" (Some (nd (Pos "" 0 1 1) KType [(FLabel, VStr "foo"); (FEnum, VPtr None); (FObject, VPtr (Some (nd (Pos "" 17 1 18) KTypeObject [])))])));
("TestType_Parsing/Object", same true KType ("type foo object {" +:+ (String "010" "") +:+ (String "009" "") +:+ "foo: number" +:+ (String "010" "") +:+ "}") (Some (nd (Pos "" 0 1 1) KType [(FLabel, VStr "foo"); (FEnum, VPtr None); (FObject, VPtr (Some (nd (Pos "" 19 2 2) KTypeObject [(FItems, VList (Some (tt, [Some (nd (Pos "" 19 2 2) KTypeObjectItem [(FLabel, VStr "foo"); (FType, VEmb (nd (Pos "" 24 2 7) KParameterType [(FIdent, VPtr (Some (nd (Pos "" 24 2 7) KIdent [(FParts, VStrs (Some (tt, ["number"])))])))]))])])))])))])));
("TestType_Parsing/Single-line comment - separated", same true KType ("// foo" +:+ (String "010" "") +:+ (String "010" "") +:+ "type foo enum {}") None);
("TestTypeEnum_Parsing/Empty", same true KTypeEnum "" (Some (nd (Pos "" 0 1 1) KTypeEnum [(FItems, VList None)])));
("TestTypeEnum_Parsing/One value", same true KTypeEnum "foo: 1" (Some (nd (Pos "" 0 1 1) KTypeEnum [(FItems, VList (Some (tt, [Some (nd (Pos "" 0 1 1) KTypeEnumItem [(FLabel, VStr "foo"); (FValue, VEmb (nd (Pos "" 5 1 6) KExpr [(FLeft, VPtr (Some (nd (Pos "" 5 1 6) KExprConditional [(FCondition, VEmb (nd (Pos "" 5 1 6) KExprLogicalOr [(FLeft, VEmb (nd (Pos "" 5 1 6) KExprLogicalAnd [(FLeft, VEmb (nd (Pos "" 5 1 6) KExprBitwiseOr [(FLeft, VEmb (nd (Pos "" 5 1 6) KExprBitwiseXor [(FLeft, VEmb (nd (Pos "" 5 1 6) KExprBitwiseAnd [(FLeft, VEmb (nd (Pos "" 5 1 6) KExprEquality [(FLeft, VEmb (nd (Pos "" 5 1 6) KExprRelational [(FLeft, VEmb (nd (Pos "" 5 1 6) KExprShift [(FLeft, VEmb (nd (Pos "" 5 1 6) KExprAdditive [(FLeft, VEmb (nd (Pos "" 5 1 6) KExprMultiplicative [(FLeft, VEmb (nd (Pos "" 5 1 6) KExprUnary [(FRight, VEmb (nd (Pos "" 5 1 6) KExprPostfix [(FValue, VEmb (nd (Pos "" 5 1 6) KExprPrimary [(FValue, VPtr (Some (nd (Pos "" 5 1 6) KValue [(FNumber, VPtr (Some (nd (Pos "" 5 1 6) KValueNumber [(FValue, VFloat (Some (tt, "1"))); (FSource, VStr "1")])))])))]))]))]))]))]))]))]))]))]))]))]))]))]))])))]))])])))])));
("TestTypeEnum_Parsing/Two values", same true KTypeEnum ("foo: 1" +:+ (String "010" "") +:+ "bar: 2") (Some (nd (Pos "" 0 1 1) KTypeEnum [(FItems, VList (Some (tt, [Some (nd (Pos "" 0 1 1) KTypeEnumItem [(FLabel, VStr "foo"); (FValue, VEmb (nd (Pos "" 5 1 6) KExpr [(FLeft, VPtr (Some (nd (Pos "" 5 1 6) KExprConditional [(FCondition, VEmb (nd (Pos "" 5 1 6) KExprLogicalOr [(FLeft, VEmb (nd (Pos "" 5 1 6) KExprLogicalAnd [(FLeft, VEmb (nd (Pos "" 5 1 6) KExprBitwiseOr [(FLeft, VEmb (nd (Pos "" 5 1 6) KExprBitwiseXor [(FLeft, VEmb (nd (Pos "" 5 1 6) KExprBitwiseAnd [(FLeft, VEmb (nd (Pos "" 5 1 6) KExprEquality [(FLeft, VEmb (nd (Pos "" 5 1 6) KExprRelational [(FLeft, VEmb (nd (Pos "" 5 1 6) KExprShift [(FLeft, VEmb (nd (Pos "" 5 1 6) KExprAdditive [(FLeft, VEmb (nd (Pos "" 5 1 6) KExprMultiplicative [(FLeft, VEmb (nd (Pos "" 5 1 6) KExprUnary [(FRight, VEmb (nd (Pos "" 5 1 6) KExprPostfix [(FValue, VEmb (nd (Pos "" 5 1 6) KExprPrimary [(FValue, VPtr (Some (nd (Pos "" 5 1 6) KValue [(FNumber, VPtr (Some (nd (Pos "" 5 1 6) KValueNumber [(FValue, VFloat (Some (tt, "1"))); (FSource, VStr "1")])))])))]))]))]))]))]))]))]))]))]))]))]))]))]))])))]))]); Some (nd (Pos "" 7 2 1) KTypeEnumItem [(FLabel, VStr "bar"); (FValue, VEmb (nd (Pos "" 12 2 6) KExpr [(FLeft, VPtr (Some (nd (Pos "" 12 2 6) KExprConditional [(FCondition, VEmb (nd (Pos "" 12 2 6) KExprLogicalOr [(FLeft, VEmb (nd (Pos "" 12 2 6) KExprLogicalAnd [(FLeft, VEmb (nd (Pos "" 12 2 6) KExprBitwiseOr [(FLeft, VEmb (nd (Pos "" 12 2 6) KExprBitwiseXor [(FLeft, VEmb (nd (Pos "" 12 2 6) KExprBitwiseAnd [(FLeft, VEmb (nd (Pos "" 12 2 6) KExprEquality [(FLeft, VEmb (nd (Pos "" 12 2 6) KExprRelational [(FLeft, VEmb (nd (Pos "" 12 2 6) KExprShift [(FLeft, VEmb (nd (Pos "" 12 2 6) KExprAdditive [(FLeft, VEmb (nd (Pos "" 12 2 6) KExprMultiplicative [(FLeft, VEmb (nd (Pos "" 12 2 6) KExprUnary [(FRight, VEmb (nd (Pos "" 12 2 6) KExprPostfix [(FValue, VEmb (nd (Pos "" 12 2 6) KExprPrimary [(FValue, VPtr (Some (nd (Pos "" 12 2 6) KValue [(FNumber, VPtr (Some (nd (Pos "" 12 2 6) KValueNumber [(FValue, VFloat (Some (tt, "2"))); (FSource, VStr "2")])))])))]))]))]))]))]))]))]))]))]))]))]))]))]))])))]))])])))])));
("TestTypeEnumItem_Parsing/Value", same true KTypeEnumItem "foo: 1" (Some (nd (Pos "" 0 1 1) KTypeEnumItem [(FLabel, VStr "foo"); (FValue, VEmb (nd (Pos "" 5 1 6) KExpr [(FLeft, VPtr (Some (nd (Pos "" 5 1 6) KExprConditional [(FCondition, VEmb (nd (Pos "" 5 1 6) KExprLogicalOr [(FLeft, VEmb (nd (Pos "" 5 1 6) KExprLogicalAnd [(FLeft, VEmb (nd (Pos "" 5 1 6) KExprBitwiseOr [(FLeft, VEmb (nd (Pos "" 5 1 6) KExprBitwiseXor [(FLeft, VEmb (nd (Pos "" 5 1 6) KExprBitwiseAnd [(FLeft, VEmb (nd (Pos "" 5 1 6) KExprEquality [(FLeft, VEmb (nd (Pos "" 5 1 6) KExprRelational [(FLeft, VEmb (nd (Pos "" 5 1 6) KExprShift [(FLeft, VEmb (nd (Pos "" 5 1 6) KExprAdditive [(FLeft, VEmb (nd (Pos "" 5 1 6) KExprMultiplicative [(FLeft, VEmb (nd (Pos "" 5 1 6) KExprUnary [(FRight, VEmb (nd (Pos "" 5 1 6) KExprPostfix [(FValue, VEmb (nd (Pos "" 5 1 6) KExprPrimary [(FValue, VPtr (Some (nd (Pos "" 5 1 6) KValue [(FNumber, VPtr (Some (nd (Pos "" 5 1 6) KValueNumber [(FValue, VFloat (Some (tt, "1"))); (FSource, VStr "1")])))])))]))]))]))]))]))]))]))]))]))]))]))]))]))])))]))])));
("TestTypeEnumItem_Parsing/Single-line comment", same true KTypeEnumItem "// foo" (Some (nd (Pos "" 0 1 1) KTypeEnumItem [(FComment, VPtr (Some (nd (Pos "" 0 1 1) KComment [(FSingleLine, VStrs (Some (tt, ["// foo"])))])))])));
("TestTypeEnumItem_Parsing/Multi-line comment", same true KTypeEnumItem "/* foo */" (Some (nd (Pos "" 0 1 1) KTypeEnumItem [(FComment, VPtr (Some (nd (Pos "" 0 1 1) KComment [(FMultiline, VStr "/* foo */")])))])));
("TestTypeObject_Parsing/Empty", same true KTypeObject "" (Some (nd (Pos "" 0 1 1) KTypeObject [(FItems, VList None)])));
("TestTypeObject_Parsing/One declaration", same true KTypeObject "foo: number" (Some (nd (Pos "" 0 1 1) KTypeObject [(FItems, VList (Some (tt, [Some (nd (Pos "" 0 1 1) KTypeObjectItem [(FLabel, VStr "foo"); (FType, VEmb (nd (Pos "" 5 1 6) KParameterType [(FIdent, VPtr (Some (nd (Pos "" 5 1 6) KIdent [(FParts, VStrs (Some (tt, ["number"])))])))]))])])))])));
("TestTypeObject_Parsing/Two declarations", same true KTypeObject ("foo: number" +:+ (String "010" "") +:+ "bar: bool") (Some (nd (Pos "" 0 1 1) KTypeObject [(FItems, VList (Some (tt, [Some (nd (Pos "" 0 1 1) KTypeObjectItem [(FLabel, VStr "foo"); (FType, VEmb (nd (Pos "" 5 1 6) KParameterType [(FIdent, VPtr (Some (nd (Pos "" 5 1 6) KIdent [(FParts, VStrs (Some (tt, ["number"])))])))]))]); Some (nd (Pos "" 12 2 1) KTypeObjectItem [(FLabel, VStr "bar"); (FType, VEmb (nd (Pos "" 17 2 6) KParameterType [(FIdent, VPtr (Some (nd (Pos "" 17 2 6) KIdent [(FParts, VStrs (Some (tt, ["bool"])))])))]))])])))])));
("TestTypeObjectItem_Parsing/Item", same true KTypeObjectItem "foo: number" (Some (nd (Pos "" 0 1 1) KTypeObjectItem [(FLabel, VStr "foo"); (FType, VEmb (nd (Pos "" 5 1 6) KParameterType [(FIdent, VPtr (Some (nd (Pos "" 5 1 6) KIdent [(FParts, VStrs (Some (tt, ["number"])))])))]))])));
("TestTypeObjectItem_Parsing/Single-line comment", same true KTypeObjectItem "// foo" (Some (nd (Pos "" 0 1 1) KTypeObjectItem [(FComment, VPtr (Some (nd (Pos "" 0 1 1) KComment [(FSingleLine, VStrs (Some (tt, ["// foo"])))])))])));
("TestTypeObjectItem_Parsing/Multi-line comment", same true KTypeObjectItem "/* foo */" (Some (nd (Pos "" 0 1 1) KTypeObjectItem [(FComment, VPtr (Some (nd (Pos "" 0 1 1) KComment [(FMultiline, VStr "/* foo */")])))])));
("TestHeredoc_Parsing/Empty", same true KHeredoc ("<<EOF" +:+ (String "010" "") +:+ "EOF") (Some (nd (Pos "" 0 1 1) KHeredoc [(FFragments, VList None); (FDelimiter, VStr "EOF"); (FLeadingTabs, VBool false)])));
("TestHeredoc_Parsing/Only linebreaks", same true KHeredoc ("<<EOF" +:+ (String "010" "") +:+ (String "010" "") +:+ "EOF") (Some (nd (Pos "" 0 1 1) KHeredoc [(FFragments, VList (Some (tt, [Some (nd (Pos "" 6 2 1) KHeredocFragment [(FText, VStr ((String "010" "")))])]))); (FDelimiter, VStr "EOF"); (FLeadingTabs, VBool false)])));
("TestHeredoc_Parsing/value with leading linebreaks", same true KHeredoc ("<<EOF" +:+ (String "010" "") +:+ (String "010" "") +:+ "foo" +:+ (String "010" "") +:+ "EOF") (Some (nd (Pos "" 0 1 1) KHeredoc [(FFragments, VList (Some (tt, [Some (nd (Pos "" 6 2 1) KHeredocFragment [(FText, VStr ((String "010" "") +:+ "foo" +:+ (String "010" "")))])]))); (FDelimiter, VStr "EOF"); (FLeadingTabs, VBool false)])));
("TestHeredoc_Parsing/value with trailing linebreaks", same true KHeredoc ("<<EOF" +:+ (String "010" "") +:+ "foo" +:+ (String "010" "") +:+ (String "010" "") +:+ "EOF") (Some (nd (Pos "" 0 1 1) KHeredoc [(FFragments, VList (Some (tt, [Some (nd (Pos "" 6 2 1) KHeredocFragment [(FText, VStr ("foo" +:+ (String "010" "") +:+ (String "010" "")))])]))); (FDelimiter, VStr "EOF"); (FLeadingTabs, VBool false)])));
("TestHeredoc_Parsing/value - no trailing tabs", same true KHeredoc ("<<EOF" +:+ (String "010" "") +:+ "foo" +:+ (String "010" "") +:+ "EOF") (Some (nd (Pos "" 0 1 1) KHeredoc [(FFragments, VList (Some (tt, [Some (nd (Pos "" 6 2 1) KHeredocFragment [(FText, VStr ("foo" +:+ (String "010" "")))])]))); (FDelimiter, VStr "EOF"); (FLeadingTabs, VBool false)])));
("TestHeredoc_Parsing/value - trailing tabs", same true KHeredoc ("<<-EOF" +:+ (String "010" "") +:+ "foo" +:+ (String "010" "") +:+ "EOF") (Some (nd (Pos "" 0 1 1) KHeredoc [(FFragments, VList (Some (tt, [Some (nd (Pos "" 7 2 1) KHeredocFragment [(FText, VStr ("foo" +:+ (String "010" "")))])]))); (FDelimiter, VStr "EOF"); (FLeadingTabs, VBool true)])));
("TestHeredoc_Parsing/value - expression", same true KHeredoc ("<<EOF" +:+ (String "010" "") +:+ "foo ${ 1 } bar" +:+ (String "010" "") +:+ "EOF") (Some (nd (Pos "" 0 1 1) KHeredoc [(FFragments, VList (Some (tt, [Some (nd (Pos "" 6 2 1) KHeredocFragment [(FText, VStr "foo ")]); Some (nd (Pos "" 10 2 5) KHeredocFragment [(FExpr, VPtr (Some (nd (Pos "" 13 2 8) KExpr [(FLeft, VPtr (Some (nd (Pos "" 13 2 8) KExprConditional [(FCondition, VEmb (nd (Pos "" 13 2 8) KExprLogicalOr [(FLeft, VEmb (nd (Pos "" 13 2 8) KExprLogicalAnd [(FLeft, VEmb (nd (Pos "" 13 2 8) KExprBitwiseOr [(FLeft, VEmb (nd (Pos "" 13 2 8) KExprBitwiseXor [(FLeft, VEmb (nd (Pos "" 13 2 8) KExprBitwiseAnd [(FLeft, VEmb (nd (Pos "" 13 2 8) KExprEquality [(FLeft, VEmb (nd (Pos "" 13 2 8) KExprRelational [(FLeft, VEmb (nd (Pos "" 13 2 8) KExprShift [(FLeft, VEmb (nd (Pos "" 13 2 8) KExprAdditive [(FLeft, VEmb (nd (Pos "" 13 2 8) KExprMultiplicative [(FLeft, VEmb (nd (Pos "" 13 2 8) KExprUnary [(FRight, VEmb (nd (Pos "" 13 2 8) KExprPostfix [(FValue, VEmb (nd (Pos "" 13 2 8) KExprPrimary [(FValue, VPtr (Some (nd (Pos "" 13 2 8) KValue [(FNumber, VPtr (Some (nd (Pos "" 13 2 8) KValueNumber [(FValue, VFloat (Some (tt, "1"))); (FSource, VStr "1")])))])))]))]))]))]))]))]))]))]))]))]))]))]))]))])))])))]); Some (nd (Pos "" 16 2 11) KHeredocFragment [(FText, VStr (" bar" +:+ (String "010" "")))])]))); (FDelimiter, VStr "EOF"); (FLeadingTabs, VBool false)])));
("TestHeredoc_Parsing/value - directive", same true KHeredoc ("<<EOF" +:+ (String "010" "") +:+ "foo %{ 1 } bar" +:+ (String "010" "") +:+ "EOF") (Some (nd (Pos "" 0 1 1) KHeredoc [(FFragments, VList (Some (tt, [Some (nd (Pos "" 6 2 1) KHeredocFragment [(FText, VStr "foo ")]); Some (nd (Pos "" 10 2 5) KHeredocFragment [(FDirective, VPtr (Some (nd (Pos "" 13 2 8) KExpr [(FLeft, VPtr (Some (nd (Pos "" 13 2 8) KExprConditional [(FCondition, VEmb (nd (Pos "" 13 2 8) KExprLogicalOr [(FLeft, VEmb (nd (Pos "" 13 2 8) KExprLogicalAnd [(FLeft, VEmb (nd (Pos "" 13 2 8) KExprBitwiseOr [(FLeft, VEmb (nd (Pos "" 13 2 8) KExprBitwiseXor [(FLeft, VEmb (nd (Pos "" 13 2 8) KExprBitwiseAnd [(FLeft, VEmb (nd (Pos "" 13 2 8) KExprEquality [(FLeft, VEmb (nd (Pos "" 13 2 8) KExprRelational [(FLeft, VEmb (nd (Pos "" 13 2 8) KExprShift [(FLeft, VEmb (nd (Pos "" 13 2 8) KExprAdditive [(FLeft, VEmb (nd (Pos "" 13 2 8) KExprMultiplicative [(FLeft, VEmb (nd (Pos "" 13 2 8) KExprUnary [(FRight, VEmb (nd (Pos "" 13 2 8) KExprPostfix [(FValue, VEmb (nd (Pos "" 13 2 8) KExprPrimary [(FValue, VPtr (Some (nd (Pos "" 13 2 8) KValue [(FNumber, VPtr (Some (nd (Pos "" 13 2 8) KValueNumber [(FValue, VFloat (Some (tt, "1"))); (FSource, VStr "1")])))])))]))]))]))]))]))]))]))]))]))]))]))]))]))])))])))]); Some (nd (Pos "" 16 2 11) KHeredocFragment [(FText, VStr (" bar" +:+ (String "010" "")))])]))); (FDelimiter, VStr "EOF"); (FLeadingTabs, VBool false)])));
("TestList_Parsing/Empty", same true KValueList "[ ]" (Some (nd (Pos "" 0 1 1) KValueList [(FItems, VList None)])));
("TestList_Parsing/One item - One line", same true KValueList "[ a ]" (Some (nd (Pos "" 0 1 1) KValueList [(FItems, VList (Some (tt, [Some (nd (Pos "" 2 1 3) KListItem [(FValue, VPtr (Some (nd (Pos "" 2 1 3) KExpr [(FLeft, VPtr (Some (nd (Pos "" 2 1 3) KExprConditional [(FCondition, VEmb (nd (Pos "" 2 1 3) KExprLogicalOr [(FLeft, VEmb (nd (Pos "" 2 1 3) KExprLogicalAnd [(FLeft, VEmb (nd (Pos "" 2 1 3) KExprBitwiseOr [(FLeft, VEmb (nd (Pos "" 2 1 3) KExprBitwiseXor [(FLeft, VEmb (nd (Pos "" 2 1 3) KExprBitwiseAnd [(FLeft, VEmb (nd (Pos "" 2 1 3) KExprEquality [(FLeft, VEmb (nd (Pos "" 2 1 3) KExprRelational [(FLeft, VEmb (nd (Pos "" 2 1 3) KExprShift [(FLeft, VEmb (nd (Pos "" 2 1 3) KExprAdditive [(FLeft, VEmb (nd (Pos "" 2 1 3) KExprMultiplicative [(FLeft, VEmb (nd (Pos "" 2 1 3) KExprUnary [(FRight, VEmb (nd (Pos "" 2 1 3) KExprPostfix [(FValue, VEmb (nd (Pos "" 2 1 3) KExprPrimary [(FIdent, VPtr (Some (nd (Pos "" 2 1 3) KIdent [(FParts, VStrs (Some (tt, ["a"])))])))]))]))]))]))]))]))]))]))]))]))]))]))]))])))])))])])))])));
("TestList_Parsing/One item - One line - Trailing comma", same true KValueList "[ a, ]" (Some (nd (Pos "" 0 1 1) KValueList [(FItems, VList (Some (tt, [Some (nd (Pos "" 2 1 3) KListItem [(FValue, VPtr (Some (nd (Pos "" 2 1 3) KExpr [(FLeft, VPtr (Some (nd (Pos "" 2 1 3) KExprConditional [(FCondition, VEmb (nd (Pos "" 2 1 3) KExprLogicalOr [(FLeft, VEmb (nd (Pos "" 2 1 3) KExprLogicalAnd [(FLeft, VEmb (nd (Pos "" 2 1 3) KExprBitwiseOr [(FLeft, VEmb (nd (Pos "" 2 1 3) KExprBitwiseXor [(FLeft, VEmb (nd (Pos "" 2 1 3) KExprBitwiseAnd [(FLeft, VEmb (nd (Pos "" 2 1 3) KExprEquality [(FLeft, VEmb (nd (Pos "" 2 1 3) KExprRelational [(FLeft, VEmb (nd (Pos "" 2 1 3) KExprShift [(FLeft, VEmb (nd (Pos "" 2 1 3) KExprAdditive [(FLeft, VEmb (nd (Pos "" 2 1 3) KExprMultiplicative [(FLeft, VEmb (nd (Pos "" 2 1 3) KExprUnary [(FRight, VEmb (nd (Pos "" 2 1 3) KExprPostfix [(FValue, VEmb (nd (Pos "" 2 1 3) KExprPrimary [(FIdent, VPtr (Some (nd (Pos "" 2 1 3) KIdent [(FParts, VStrs (Some (tt, ["a"])))])))]))]))]))]))]))]))]))]))]))]))]))]))]))])))])))])])))])));
("TestList_Parsing/One item - Linebreaks", same true KValueList ("[" +:+ (String "010" "") +:+ "    a" +:+ (String "010" "") +:+ "]") (Some (nd (Pos "" 0 1 1) KValueList [(FItems, VList (Some (tt, [Some (nd (Pos "" 6 2 5) KListItem [(FValue, VPtr (Some (nd (Pos "" 6 2 5) KExpr [(FLeft, VPtr (Some (nd (Pos "" 6 2 5) KExprConditional [(FCondition, VEmb (nd (Pos "" 6 2 5) KExprLogicalOr [(FLeft, VEmb (nd (Pos "" 6 2 5) KExprLogicalAnd [(FLeft, VEmb (nd (Pos "" 6 2 5) KExprBitwiseOr [(FLeft, VEmb (nd (Pos "" 6 2 5) KExprBitwiseXor [(FLeft, VEmb (nd (Pos "" 6 2 5) KExprBitwiseAnd [(FLeft, VEmb (nd (Pos "" 6 2 5) KExprEquality [(FLeft, VEmb (nd (Pos "" 6 2 5) KExprRelational [(FLeft, VEmb (nd (Pos "" 6 2 5) KExprShift [(FLeft, VEmb (nd (Pos "" 6 2 5) KExprAdditive [(FLeft, VEmb (nd (Pos "" 6 2 5) KExprMultiplicative [(FLeft, VEmb (nd (Pos "" 6 2 5) KExprUnary [(FRight, VEmb (nd (Pos "" 6 2 5) KExprPostfix [(FValue, VEmb (nd (Pos "" 6 2 5) KExprPrimary [(FIdent, VPtr (Some (nd (Pos "" 6 2 5) KIdent [(FParts, VStrs (Some (tt, ["a"])))])))]))]))]))]))]))]))]))]))]))]))]))]))]))])))])))])])))])));
("TestList_Parsing/Two items - One line", same true KValueList "[ a, b ]" (Some (nd (Pos "" 0 1 1) KValueList [(FItems, VList (Some (tt, [Some (nd (Pos "" 2 1 3) KListItem [(FValue, VPtr (Some (nd (Pos "" 2 1 3) KExpr [(FLeft, VPtr (Some (nd (Pos "" 2 1 3) KExprConditional [(FCondition, VEmb (nd (Pos "" 2 1 3) KExprLogicalOr [(FLeft, VEmb (nd (Pos "" 2 1 3) KExprLogicalAnd [(FLeft, VEmb (nd (Pos "" 2 1 3) KExprBitwiseOr [(FLeft, VEmb (nd (Pos "" 2 1 3) KExprBitwiseXor [(FLeft, VEmb (nd (Pos "" 2 1 3) KExprBitwiseAnd [(FLeft, VEmb (nd (Pos "" 2 1 3) KExprEquality [(FLeft, VEmb (nd (Pos "" 2 1 3) KExprRelational [(FLeft, VEmb (nd (Pos "" 2 1 3) KExprShift [(FLeft, VEmb (nd (Pos "" 2 1 3) KExprAdditive [(FLeft, VEmb (nd (Pos "" 2 1 3) KExprMultiplicative [(FLeft, VEmb (nd (Pos "" 2 1 3) KExprUnary [(FRight, VEmb (nd (Pos "" 2 1 3) KExprPostfix [(FValue, VEmb (nd (Pos "" 2 1 3) KExprPrimary [(FIdent, VPtr (Some (nd (Pos "" 2 1 3) KIdent [(FParts, VStrs (Some (tt, ["a"])))])))]))]))]))]))]))]))]))]))]))]))]))]))]))])))])))]); Some (nd (Pos "" 5 1 6) KListItem [(FValue, VPtr (Some (nd (Pos "" 5 1 6) KExpr [(FLeft, VPtr (Some (nd (Pos "" 5 1 6) KExprConditional [(FCondition, VEmb (nd (Pos "" 5 1 6) KExprLogicalOr [(FLeft, VEmb (nd (Pos "" 5 1 6) KExprLogicalAnd [(FLeft, VEmb (nd (Pos "" 5 1 6) KExprBitwiseOr [(FLeft, VEmb (nd (Pos "" 5 1 6) KExprBitwiseXor [(FLeft, VEmb (nd (Pos "" 5 1 6) KExprBitwiseAnd [(FLeft, VEmb (nd (Pos "" 5 1 6) KExprEquality [(FLeft, VEmb (nd (Pos "" 5 1 6) KExprRelational [(FLeft, VEmb (nd (Pos "" 5 1 6) KExprShift [(FLeft, VEmb (nd (Pos "" 5 1 6) KExprAdditive [(FLeft, VEmb (nd (Pos "" 5 1 6) KExprMultiplicative [(FLeft, VEmb (nd (Pos "" 5 1 6) KExprUnary [(FRight, VEmb (nd (Pos "" 5 1 6) KExprPostfix [(FValue, VEmb (nd (Pos "" 5 1 6) KExprPrimary [(FIdent, VPtr (Some (nd (Pos "" 5 1 6) KIdent [(FParts, VStrs (Some (tt, ["b"])))])))]))]))]))]))]))]))]))]))]))]))]))]))]))])))])))])])))])));
("TestList_Parsing/Two items - Linebreaks", same true KValueList ("[" +:+ (String "010" "") +:+ "    a," +:+ (String "010" "") +:+ "    b" +:+ (String "010" "") +:+ "]") (Some (nd (Pos "" 0 1 1) KValueList [(FItems, VList (Some (tt, [Some (nd (Pos "" 6 2 5) KListItem [(FValue, VPtr (Some (nd (Pos "" 6 2 5) KExpr [(FLeft, VPtr (Some (nd (Pos "" 6 2 5) KExprConditional [(FCondition, VEmb (nd (Pos "" 6 2 5) KExprLogicalOr [(FLeft, VEmb (nd (Pos "" 6 2 5) KExprLogicalAnd [(FLeft, VEmb (nd (Pos "" 6 2 5) KExprBitwiseOr [(FLeft, VEmb (nd (Pos "" 6 2 5) KExprBitwiseXor [(FLeft, VEmb (nd (Pos "" 6 2 5) KExprBitwiseAnd [(FLeft, VEmb (nd (Pos "" 6 2 5) KExprEquality [(FLeft, VEmb (nd (Pos "" 6 2 5) KExprRelational [(FLeft, VEmb (nd (Pos "" 6 2 5) KExprShift [(FLeft, VEmb (nd (Pos "" 6 2 5) KExprAdditive [(FLeft, VEmb (nd (Pos "" 6 2 5) KExprMultiplicative [(FLeft, VEmb (nd (Pos "" 6 2 5) KExprUnary [(FRight, VEmb (nd (Pos "" 6 2 5) KExprPostfix [(FValue, VEmb (nd (Pos "" 6 2 5) KExprPrimary [(FIdent, VPtr (Some (nd (Pos "" 6 2 5) KIdent [(FParts, VStrs (Some (tt, ["a"])))])))]))]))]))]))]))]))]))]))]))]))]))]))]))])))])))]); Some (nd (Pos "" 13 3 5) KListItem [(FValue, VPtr (Some (nd (Pos "" 13 3 5) KExpr [(FLeft, VPtr (Some (nd (Pos "" 13 3 5) KExprConditional [(FCondition, VEmb (nd (Pos "" 13 3 5) KExprLogicalOr [(FLeft, VEmb (nd (Pos "" 13 3 5) KExprLogicalAnd [(FLeft, VEmb (nd (Pos "" 13 3 5) KExprBitwiseOr [(FLeft, VEmb (nd (Pos "" 13 3 5) KExprBitwiseXor [(FLeft, VEmb (nd (Pos "" 13 3 5) KExprBitwiseAnd [(FLeft, VEmb (nd (Pos "" 13 3 5) KExprEquality [(FLeft, VEmb (nd (Pos "" 13 3 5) KExprRelational [(FLeft, VEmb (nd (Pos "" 13 3 5) KExprShift [(FLeft, VEmb (nd (Pos "" 13 3 5) KExprAdditive [(FLeft, VEmb (nd (Pos "" 13 3 5) KExprMultiplicative [(FLeft, VEmb (nd (Pos "" 13 3 5) KExprUnary [(FRight, VEmb (nd (Pos "" 13 3 5) KExprPostfix [(FValue, VEmb (nd (Pos "" 13 3 5) KExprPrimary [(FIdent, VPtr (Some (nd (Pos "" 13 3 5) KIdent [(FParts, VStrs (Some (tt, ["b"])))])))]))]))]))]))]))]))]))]))]))]))]))]))]))])))])))])])))])));
("TestList_Parsing/Two entries - Linebreaks - Trailing comma", same true KValueList ("[" +:+ (String "010" "") +:+ "    a," +:+ (String "010" "") +:+ "    b," +:+ (String "010" "") +:+ "]") (Some (nd (Pos "" 0 1 1) KValueList [(FItems, VList (Some (tt, [Some (nd (Pos "" 6 2 5) KListItem [(FValue, VPtr (Some (nd (Pos "" 6 2 5) KExpr [(FLeft, VPtr (Some (nd (Pos "" 6 2 5) KExprConditional [(FCondition, VEmb (nd (Pos "" 6 2 5) KExprLogicalOr [(FLeft, VEmb (nd (Pos "" 6 2 5) KExprLogicalAnd [(FLeft, VEmb (nd (Pos "" 6 2 5) KExprBitwiseOr [(FLeft, VEmb (nd (Pos "" 6 2 5) KExprBitwiseXor [(FLeft, VEmb (nd (Pos "" 6 2 5) KExprBitwiseAnd [(FLeft, VEmb (nd (Pos "" 6 2 5) KExprEquality [(FLeft, VEmb (nd (Pos "" 6 2 5) KExprRelational [(FLeft, VEmb (nd (Pos "" 6 2 5) KExprShift [(FLeft, VEmb (nd (Pos "" 6 2 5) KExprAdditive [(FLeft, VEmb (nd (Pos "" 6 2 5) KExprMultiplicative [(FLeft, VEmb (nd (Pos "" 6 2 5) KExprUnary [(FRight, VEmb (nd (Pos "" 6 2 5) KExprPostfix [(FValue, VEmb (nd (Pos "" 6 2 5) KExprPrimary [(FIdent, VPtr (Some (nd (Pos "" 6 2 5) KIdent [(FParts, VStrs (Some (tt, ["a"])))])))]))]))]))]))]))]))]))]))]))]))]))]))]))])))])))]); Some (nd (Pos "" 13 3 5) KListItem [(FValue, VPtr (Some (nd (Pos "" 13 3 5) KExpr [(FLeft, VPtr (Some (nd (Pos "" 13 3 5) KExprConditional [(FCondition, VEmb (nd (Pos "" 13 3 5) KExprLogicalOr [(FLeft, VEmb (nd (Pos "" 13 3 5) KExprLogicalAnd [(FLeft, VEmb (nd (Pos "" 13 3 5) KExprBitwiseOr [(FLeft, VEmb (nd (Pos "" 13 3 5) KExprBitwiseXor [(FLeft, VEmb (nd (Pos "" 13 3 5) KExprBitwiseAnd [(FLeft, VEmb (nd (Pos "" 13 3 5) KExprEquality [(FLeft, VEmb (nd (Pos "" 13 3 5) KExprRelational [(FLeft, VEmb (nd (Pos "" 13 3 5) KExprShift [(FLeft, VEmb (nd (Pos "" 13 3 5) KExprAdditive [(FLeft, VEmb (nd (Pos "" 13 3 5) KExprMultiplicative [(FLeft, VEmb (nd (Pos "" 13 3 5) KExprUnary [(FRight, VEmb (nd (Pos "" 13 3 5) KExprPostfix [(FValue, VEmb (nd (Pos "" 13 3 5) KExprPrimary [(FIdent, VPtr (Some (nd (Pos "" 13 3 5) KIdent [(FParts, VStrs (Some (tt, ["b"])))])))]))]))]))]))]))]))]))]))]))]))]))]))]))])))])))])])))])));
("TestList_Parsing/One expression - One line", same true KValueList "[ 1 + 2 ]" (Some (nd (Pos "" 0 1 1) KValueList [(FItems, VList (Some (tt, [Some (nd (Pos "" 2 1 3) KListItem [(FValue, VPtr (Some (nd (Pos "" 2 1 3) KExpr [(FLeft, VPtr (Some (nd (Pos "" 2 1 3) KExprConditional [(FCondition, VEmb (nd (Pos "" 2 1 3) KExprLogicalOr [(FLeft, VEmb (nd (Pos "" 2 1 3) KExprLogicalAnd [(FLeft, VEmb (nd (Pos "" 2 1 3) KExprBitwiseOr [(FLeft, VEmb (nd (Pos "" 2 1 3) KExprBitwiseXor [(FLeft, VEmb (nd (Pos "" 2 1 3) KExprBitwiseAnd [(FLeft, VEmb (nd (Pos "" 2 1 3) KExprEquality [(FLeft, VEmb (nd (Pos "" 2 1 3) KExprRelational [(FLeft, VEmb (nd (Pos "" 2 1 3) KExprShift [(FLeft, VEmb (nd (Pos "" 2 1 3) KExprAdditive [(FLeft, VEmb (nd (Pos "" 2 1 3) KExprMultiplicative [(FLeft, VEmb (nd (Pos "" 2 1 3) KExprUnary [(FRight, VEmb (nd (Pos "" 2 1 3) KExprPostfix [(FValue, VEmb (nd (Pos "" 2 1 3) KExprPrimary [(FValue, VPtr (Some (nd (Pos "" 2 1 3) KValue [(FNumber, VPtr (Some (nd (Pos "" 2 1 3) KValueNumber [(FValue, VFloat (Some (tt, "1"))); (FSource, VStr "1")])))])))]))]))]))])); (FOp, VStr "+"); (FRight, VPtr (Some (nd (Pos "" 6 1 7) KExprAdditive [(FLeft, VEmb (nd (Pos "" 6 1 7) KExprMultiplicative [(FLeft, VEmb (nd (Pos "" 6 1 7) KExprUnary [(FRight, VEmb (nd (Pos "" 6 1 7) KExprPostfix [(FValue, VEmb (nd (Pos "" 6 1 7) KExprPrimary [(FValue, VPtr (Some (nd (Pos "" 6 1 7) KValue [(FNumber, VPtr (Some (nd (Pos "" 6 1 7) KValueNumber [(FValue, VFloat (Some (tt, "2"))); (FSource, VStr "2")])))])))]))]))]))]))])))]))]))]))]))]))]))]))]))]))])))])))])])))])));
("TestList_Parsing/Two expressions - One line", same true KValueList "[ 1 + 2, 3 - 4 ]" (Some (nd (Pos "" 0 1 1) KValueList [(FItems, VList (Some (tt, [Some (nd (Pos "" 2 1 3) KListItem [(FValue, VPtr (Some (nd (Pos "" 2 1 3) KExpr [(FLeft, VPtr (Some (nd (Pos "" 2 1 3) KExprConditional [(FCondition, VEmb (nd (Pos "" 2 1 3) KExprLogicalOr [(FLeft, VEmb (nd (Pos "" 2 1 3) KExprLogicalAnd [(FLeft, VEmb (nd (Pos "" 2 1 3) KExprBitwiseOr [(FLeft, VEmb (nd (Pos "" 2 1 3) KExprBitwiseXor [(FLeft, VEmb (nd (Pos "" 2 1 3) KExprBitwiseAnd [(FLeft, VEmb (nd (Pos "" 2 1 3) KExprEquality [(FLeft, VEmb (nd (Pos "" 2 1 3) KExprRelational [(FLeft, VEmb (nd (Pos "" 2 1 3) KExprShift [(FLeft, VEmb (nd (Pos "" 2 1 3) KExprAdditive [(FLeft, VEmb (nd (Pos "" 2 1 3) KExprMultiplicative [(FLeft, VEmb (nd (Pos "" 2 1 3) KExprUnary [(FRight, VEmb (nd (Pos "" 2 1 3) KExprPostfix [(FValue, VEmb (nd (Pos "" 2 1 3) KExprPrimary [(FValue, VPtr (Some (nd (Pos "" 2 1 3) KValue [(FNumber, VPtr (Some (nd (Pos "" 2 1 3) KValueNumber [(FValue, VFloat (Some (tt, "1"))); (FSource, VStr "1")])))])))]))]))]))])); (FOp, VStr "+"); (FRight, VPtr (Some (nd (Pos "" 6 1 7) KExprAdditive [(FLeft, VEmb (nd (Pos "" 6 1 7) KExprMultiplicative [(FLeft, VEmb (nd (Pos "" 6 1 7) KExprUnary [(FRight, VEmb (nd (Pos "" 6 1 7) KExprPostfix [(FValue, VEmb (nd (Pos "" 6 1 7) KExprPrimary [(FValue, VPtr (Some (nd (Pos "" 6 1 7) KValue [(FNumber, VPtr (Some (nd (Pos "" 6 1 7) KValueNumber [(FValue, VFloat (Some (tt, "2"))); (FSource, VStr "2")])))])))]))]))]))]))])))]))]))]))]))]))]))]))]))]))])))])))]); Some (nd (Pos "" 9 1 10) KListItem [(FValue, VPtr (Some (nd (Pos "" 9 1 10) KExpr [(FLeft, VPtr (Some (nd (Pos "" 9 1 10) KExprConditional [(FCondition, VEmb (nd (Pos "" 9 1 10) KExprLogicalOr [(FLeft, VEmb (nd (Pos "" 9 1 10) KExprLogicalAnd [(FLeft, VEmb (nd (Pos "" 9 1 10) KExprBitwiseOr [(FLeft, VEmb (nd (Pos "" 9 1 10) KExprBitwiseXor [(FLeft, VEmb (nd (Pos "" 9 1 10) KExprBitwiseAnd [(FLeft, VEmb (nd (Pos "" 9 1 10) KExprEquality [(FLeft, VEmb (nd (Pos "" 9 1 10) KExprRelational [(FLeft, VEmb (nd (Pos "" 9 1 10) KExprShift [(FLeft, VEmb (nd (Pos "" 9 1 10) KExprAdditive [(FLeft, VEmb (nd (Pos "" 9 1 10) KExprMultiplicative [(FLeft, VEmb (nd (Pos "" 9 1 10) KExprUnary [(FRight, VEmb (nd (Pos "" 9 1 10) KExprPostfix [(FValue, VEmb (nd (Pos "" 9 1 10) KExprPrimary [(FValue, VPtr (Some (nd (Pos "" 9 1 10) KValue [(FNumber, VPtr (Some (nd (Pos "" 9 1 10) KValueNumber [(FValue, VFloat (Some (tt, "3"))); (FSource, VStr "3")])))])))]))]))]))])); (FOp, VStr "-"); (FRight, VPtr (Some (nd (Pos "" 13 1 14) KExprAdditive [(FLeft, VEmb (nd (Pos "" 13 1 14) KExprMultiplicative [(FLeft, VEmb (nd (Pos "" 13 1 14) KExprUnary [(FRight, VEmb (nd (Pos "" 13 1 14) KExprPostfix [(FValue, VEmb (nd (Pos "" 13 1 14) KExprPrimary [(FValue, VPtr (Some (nd (Pos "" 13 1 14) KValue [(FNumber, VPtr (Some (nd (Pos "" 13 1 14) KValueNumber [(FValue, VFloat (Some (tt, "4"))); (FSource, VStr "4")])))])))]))]))]))]))])))]))]))]))]))]))]))]))]))]))])))])))])])))])));
("TestMap_Parsing/Empty", same true KValueMap "{ }" (Some (nd (Pos "" 0 1 1) KValueMap [(FItems, VList None)])));
("TestMap_Parsing/One entry - One line", same true KValueMap "{ a= 1 }" (Some (nd (Pos "" 0 1 1) KValueMap [(FItems, VList (Some (tt, [Some (nd (Pos "" 2 1 3) KMapItem [(FKey, VPtr (Some (nd (Pos "" 2 1 3) KMapKey [(FIdent, VPtr (Some (nd (Pos "" 2 1 3) KIdent [(FParts, VStrs (Some (tt, ["a"])))])))]))); (FValue, VPtr (Some (nd (Pos "" 5 1 6) KExpr [(FLeft, VPtr (Some (nd (Pos "" 5 1 6) KExprConditional [(FCondition, VEmb (nd (Pos "" 5 1 6) KExprLogicalOr [(FLeft, VEmb (nd (Pos "" 5 1 6) KExprLogicalAnd [(FLeft, VEmb (nd (Pos "" 5 1 6) KExprBitwiseOr [(FLeft, VEmb (nd (Pos "" 5 1 6) KExprBitwiseXor [(FLeft, VEmb (nd (Pos "" 5 1 6) KExprBitwiseAnd [(FLeft, VEmb (nd (Pos "" 5 1 6) KExprEquality [(FLeft, VEmb (nd (Pos "" 5 1 6) KExprRelational [(FLeft, VEmb (nd (Pos "" 5 1 6) KExprShift [(FLeft, VEmb (nd (Pos "" 5 1 6) KExprAdditive [(FLeft, VEmb (nd (Pos "" 5 1 6) KExprMultiplicative [(FLeft, VEmb (nd (Pos "" 5 1 6) KExprUnary [(FRight, VEmb (nd (Pos "" 5 1 6) KExprPostfix [(FValue, VEmb (nd (Pos "" 5 1 6) KExprPrimary [(FValue, VPtr (Some (nd (Pos "" 5 1 6) KValue [(FNumber, VPtr (Some (nd (Pos "" 5 1 6) KValueNumber [(FValue, VFloat (Some (tt, "1"))); (FSource, VStr "1")])))])))]))]))]))]))]))]))]))]))]))]))]))]))]))])))])))])])))])));
("TestMap_Parsing/One entry - One line - Trailing comma", same true KValueMap "{ a= 1, }" (Some (nd (Pos "" 0 1 1) KValueMap [(FItems, VList (Some (tt, [Some (nd (Pos "" 2 1 3) KMapItem [(FKey, VPtr (Some (nd (Pos "" 2 1 3) KMapKey [(FIdent, VPtr (Some (nd (Pos "" 2 1 3) KIdent [(FParts, VStrs (Some (tt, ["a"])))])))]))); (FValue, VPtr (Some (nd (Pos "" 5 1 6) KExpr [(FLeft, VPtr (Some (nd (Pos "" 5 1 6) KExprConditional [(FCondition, VEmb (nd (Pos "" 5 1 6) KExprLogicalOr [(FLeft, VEmb (nd (Pos "" 5 1 6) KExprLogicalAnd [(FLeft, VEmb (nd (Pos "" 5 1 6) KExprBitwiseOr [(FLeft, VEmb (nd (Pos "" 5 1 6) KExprBitwiseXor [(FLeft, VEmb (nd (Pos "" 5 1 6) KExprBitwiseAnd [(FLeft, VEmb (nd (Pos "" 5 1 6) KExprEquality [(FLeft, VEmb (nd (Pos "" 5 1 6) KExprRelational [(FLeft, VEmb (nd (Pos "" 5 1 6) KExprShift [(FLeft, VEmb (nd (Pos "" 5 1 6) KExprAdditive [(FLeft, VEmb (nd (Pos "" 5 1 6) KExprMultiplicative [(FLeft, VEmb (nd (Pos "" 5 1 6) KExprUnary [(FRight, VEmb (nd (Pos "" 5 1 6) KExprPostfix [(FValue, VEmb (nd (Pos "" 5 1 6) KExprPrimary [(FValue, VPtr (Some (nd (Pos "" 5 1 6) KValue [(FNumber, VPtr (Some (nd (Pos "" 5 1 6) KValueNumber [(FValue, VFloat (Some (tt, "1"))); (FSource, VStr "1")])))])))]))]))]))]))]))]))]))]))]))]))]))]))]))])))])))])])))])));
("TestMap_Parsing/One entry - Linebreaks", same true KValueMap ("{" +:+ (String "010" "") +:+ "    a= 1" +:+ (String "010" "") +:+ "}") (Some (nd (Pos "" 0 1 1) KValueMap [(FItems, VList (Some (tt, [Some (nd (Pos "" 6 2 5) KMapItem [(FKey, VPtr (Some (nd (Pos "" 6 2 5) KMapKey [(FIdent, VPtr (Some (nd (Pos "" 6 2 5) KIdent [(FParts, VStrs (Some (tt, ["a"])))])))]))); (FValue, VPtr (Some (nd (Pos "" 9 2 8) KExpr [(FLeft, VPtr (Some (nd (Pos "" 9 2 8) KExprConditional [(FCondition, VEmb (nd (Pos "" 9 2 8) KExprLogicalOr [(FLeft, VEmb (nd (Pos "" 9 2 8) KExprLogicalAnd [(FLeft, VEmb (nd (Pos "" 9 2 8) KExprBitwiseOr [(FLeft, VEmb (nd (Pos "" 9 2 8) KExprBitwiseXor [(FLeft, VEmb (nd (Pos "" 9 2 8) KExprBitwiseAnd [(FLeft, VEmb (nd (Pos "" 9 2 8) KExprEquality [(FLeft, VEmb (nd (Pos "" 9 2 8) KExprRelational [(FLeft, VEmb (nd (Pos "" 9 2 8) KExprShift [(FLeft, VEmb (nd (Pos "" 9 2 8) KExprAdditive [(FLeft, VEmb (nd (Pos "" 9 2 8) KExprMultiplicative [(FLeft, VEmb (nd (Pos "" 9 2 8) KExprUnary [(FRight, VEmb (nd (Pos "" 9 2 8) KExprPostfix [(FValue, VEmb (nd (Pos "" 9 2 8) KExprPrimary [(FValue, VPtr (Some (nd (Pos "" 9 2 8) KValue [(FNumber, VPtr (Some (nd (Pos "" 9 2 8) KValueNumber [(FValue, VFloat (Some (tt, "1"))); (FSource, VStr "1")])))])))]))]))]))]))]))]))]))]))]))]))]))]))]))])))])))])])))])));
("TestMap_Parsing/Two entries - One line", same true KValueMap "{ a= 1, b= 2 }" (Some (nd (Pos "" 0 1 1) KValueMap [(FItems, VList (Some (tt, [Some (nd (Pos "" 2 1 3) KMapItem [(FKey, VPtr (Some (nd (Pos "" 2 1 3) KMapKey [(FIdent, VPtr (Some (nd (Pos "" 2 1 3) KIdent [(FParts, VStrs (Some (tt, ["a"])))])))]))); (FValue, VPtr (Some (nd (Pos "" 5 1 6) KExpr [(FLeft, VPtr (Some (nd (Pos "" 5 1 6) KExprConditional [(FCondition, VEmb (nd (Pos "" 5 1 6) KExprLogicalOr [(FLeft, VEmb (nd (Pos "" 5 1 6) KExprLogicalAnd [(FLeft, VEmb (nd (Pos "" 5 1 6) KExprBitwiseOr [(FLeft, VEmb (nd (Pos "" 5 1 6) KExprBitwiseXor [(FLeft, VEmb (nd (Pos "" 5 1 6) KExprBitwiseAnd [(FLeft, VEmb (nd (Pos "" 5 1 6) KExprEquality [(FLeft, VEmb (nd (Pos "" 5 1 6) KExprRelational [(FLeft, VEmb (nd (Pos "" 5 1 6) KExprShift [(FLeft, VEmb (nd (Pos "" 5 1 6) KExprAdditive [(FLeft, VEmb (nd (Pos "" 5 1 6) KExprMultiplicative [(FLeft, VEmb (nd (Pos "" 5 1 6) KExprUnary [(FRight, VEmb (nd (Pos "" 5 1 6) KExprPostfix [(FValue, VEmb (nd (Pos "" 5 1 6) KExprPrimary [(FValue, VPtr (Some (nd (Pos "" 5 1 6) KValue [(FNumber, VPtr (Some (nd (Pos "" 5 1 6) KValueNumber [(FValue, VFloat (Some (tt, "1"))); (FSource, VStr "1")])))])))]))]))]))]))]))]))]))]))]))]))]))]))]))])))])))]); Some (nd (Pos "" 8 1 9) KMapItem [(FKey, VPtr (Some (nd (Pos "" 8 1 9) KMapKey [(FIdent, VPtr (Some (nd (Pos "" 8 1 9) KIdent [(FParts, VStrs (Some (tt, ["b"])))])))]))); (FValue, VPtr (Some (nd (Pos "" 11 1 12) KExpr [(FLeft, VPtr (Some (nd (Pos "" 11 1 12) KExprConditional [(FCondition, VEmb (nd (Pos "" 11 1 12) KExprLogicalOr [(FLeft, VEmb (nd (Pos "" 11 1 12) KExprLogicalAnd [(FLeft, VEmb (nd (Pos "" 11 1 12) KExprBitwiseOr [(FLeft, VEmb (nd (Pos "" 11 1 12) KExprBitwiseXor [(FLeft, VEmb (nd (Pos "" 11 1 12) KExprBitwiseAnd [(FLeft, VEmb (nd (Pos "" 11 1 12) KExprEquality [(FLeft, VEmb (nd (Pos "" 11 1 12) KExprRelational [(FLeft, VEmb (nd (Pos "" 11 1 12) KExprShift [(FLeft, VEmb (nd (Pos "" 11 1 12) KExprAdditive [(FLeft, VEmb (nd (Pos "" 11 1 12) KExprMultiplicative [(FLeft, VEmb (nd (Pos "" 11 1 12) KExprUnary [(FRight, VEmb (nd (Pos "" 11 1 12) KExprPostfix [(FValue, VEmb (nd (Pos "" 11 1 12) KExprPrimary [(FValue, VPtr (Some (nd (Pos "" 11 1 12) KValue [(FNumber, VPtr (Some (nd (Pos "" 11 1 12) KValueNumber [(FValue, VFloat (Some (tt, "2"))); (FSource, VStr "2")])))])))]))]))]))]))]))]))]))]))]))]))]))]))]))])))])))])])))])));
("TestMap_Parsing/Two entries - Linebreaks", same true KValueMap ("{" +:+ (String "010" "") +:+ "    a= 1," +:+ (String "010" "") +:+ "    b= 2" +:+ (String "010" "") +:+ "}") (Some (nd (Pos "" 0 1 1) KValueMap [(FItems, VList (Some (tt, [Some (nd (Pos "" 6 2 5) KMapItem [(FKey, VPtr (Some (nd (Pos "" 6 2 5) KMapKey [(FIdent, VPtr (Some (nd (Pos "" 6 2 5) KIdent [(FParts, VStrs (Some (tt, ["a"])))])))]))); (FValue, VPtr (Some (nd (Pos "" 9 2 8) KExpr [(FLeft, VPtr (Some (nd (Pos "" 9 2 8) KExprConditional [(FCondition, VEmb (nd (Pos "" 9 2 8) KExprLogicalOr [(FLeft, VEmb (nd (Pos "" 9 2 8) KExprLogicalAnd [(FLeft, VEmb (nd (Pos "" 9 2 8) KExprBitwiseOr [(FLeft, VEmb (nd (Pos "" 9 2 8) KExprBitwiseXor [(FLeft, VEmb (nd (Pos "" 9 2 8) KExprBitwiseAnd [(FLeft, VEmb (nd (Pos "" 9 2 8) KExprEquality [(FLeft, VEmb (nd (Pos "" 9 2 8) KExprRelational [(FLeft, VEmb (nd (Pos "" 9 2 8) KExprShift [(FLeft, VEmb (nd (Pos "" 9 2 8) KExprAdditive [(FLeft, VEmb (nd (Pos "" 9 2 8) KExprMultiplicative [(FLeft, VEmb (nd (Pos "" 9 2 8) KExprUnary [(FRight, VEmb (nd (Pos "" 9 2 8) KExprPostfix [(FValue, VEmb (nd (Pos "" 9 2 8) KExprPrimary [(FValue, VPtr (Some (nd (Pos "" 9 2 8) KValue [(FNumber, VPtr (Some (nd (Pos "" 9 2 8) KValueNumber [(FValue, VFloat (Some (tt, "1"))); (FSource, VStr "1")])))])))]))]))]))]))]))]))]))]))]))]))]))]))]))])))])))]); Some (nd (Pos "" 16 3 5) KMapItem [(FKey, VPtr (Some (nd (Pos "" 16 3 5) KMapKey [(FIdent, VPtr (Some (nd (Pos "" 16 3 5) KIdent [(FParts, VStrs (Some (tt, ["b"])))])))]))); (FValue, VPtr (Some (nd (Pos "" 19 3 8) KExpr [(FLeft, VPtr (Some (nd (Pos "" 19 3 8) KExprConditional [(FCondition, VEmb (nd (Pos "" 19 3 8) KExprLogicalOr [(FLeft, VEmb (nd (Pos "" 19 3 8) KExprLogicalAnd [(FLeft, VEmb (nd (Pos "" 19 3 8) KExprBitwiseOr [(FLeft, VEmb (nd (Pos "" 19 3 8) KExprBitwiseXor [(FLeft, VEmb (nd (Pos "" 19 3 8) KExprBitwiseAnd [(FLeft, VEmb (nd (Pos "" 19 3 8) KExprEquality [(FLeft, VEmb (nd (Pos "" 19 3 8) KExprRelational [(FLeft, VEmb (nd (Pos "" 19 3 8) KExprShift [(FLeft, VEmb (nd (Pos "" 19 3 8) KExprAdditive [(FLeft, VEmb (nd (Pos "" 19 3 8) KExprMultiplicative [(FLeft, VEmb (nd (Pos "" 19 3 8) KExprUnary [(FRight, VEmb (nd (Pos "" 19 3 8) KExprPostfix [(FValue, VEmb (nd (Pos "" 19 3 8) KExprPrimary [(FValue, VPtr (Some (nd (Pos "" 19 3 8) KValue [(FNumber, VPtr (Some (nd (Pos "" 19 3 8) KValueNumber [(FValue, VFloat (Some (tt, "2"))); (FSource, VStr "2")])))])))]))]))]))]))]))]))]))]))]))]))]))]))]))])))])))])])))])));
("TestMap_Parsing/Two entries - Linebreaks - Trailing comma", same true KValueMap ("{" +:+ (String "010" "") +:+ "    a= 1," +:+ (String "010" "") +:+ "    b= 2," +:+ (String "010" "") +:+ "}") (Some (nd (Pos "" 0 1 1) KValueMap [(FItems, VList (Some (tt, [Some (nd (Pos "" 6 2 5) KMapItem [(FKey, VPtr (Some (nd (Pos "" 6 2 5) KMapKey [(FIdent, VPtr (Some (nd (Pos "" 6 2 5) KIdent [(FParts, VStrs (Some (tt, ["a"])))])))]))); (FValue, VPtr (Some (nd (Pos "" 9 2 8) KExpr [(FLeft, VPtr (Some (nd (Pos "" 9 2 8) KExprConditional [(FCondition, VEmb (nd (Pos "" 9 2 8) KExprLogicalOr [(FLeft, VEmb (nd (Pos "" 9 2 8) KExprLogicalAnd [(FLeft, VEmb (nd (Pos "" 9 2 8) KExprBitwiseOr [(FLeft, VEmb (nd (Pos "" 9 2 8) KExprBitwiseXor [(FLeft, VEmb (nd (Pos "" 9 2 8) KExprBitwiseAnd [(FLeft, VEmb (nd (Pos "" 9 2 8) KExprEquality [(FLeft, VEmb (nd (Pos "" 9 2 8) KExprRelational [(FLeft, VEmb (nd (Pos "" 9 2 8) KExprShift [(FLeft, VEmb (nd (Pos "" 9 2 8) KExprAdditive [(FLeft, VEmb (nd (Pos "" 9 2 8) KExprMultiplicative [(FLeft, VEmb (nd (Pos "" 9 2 8) KExprUnary [(FRight, VEmb (nd (Pos "" 9 2 8) KExprPostfix [(FValue, VEmb (nd (Pos "" 9 2 8) KExprPrimary [(FValue, VPtr (Some (nd (Pos "" 9 2 8) KValue [(FNumber, VPtr (Some (nd (Pos "" 9 2 8) KValueNumber [(FValue, VFloat (Some (tt, "1"))); (FSource, VStr "1")])))])))]))]))]))]))]))]))]))]))]))]))]))]))]))])))])))]); Some (nd (Pos "" 16 3 5) KMapItem [(FKey, VPtr (Some (nd (Pos "" 16 3 5) KMapKey [(FIdent, VPtr (Some (nd (Pos "" 16 3 5) KIdent [(FParts, VStrs (Some (tt, ["b"])))])))]))); (FValue, VPtr (Some (nd (Pos "" 19 3 8) KExpr [(FLeft, VPtr (Some (nd (Pos "" 19 3 8) KExprConditional [(FCondition, VEmb (nd (Pos "" 19 3 8) KExprLogicalOr [(FLeft, VEmb (nd (Pos "" 19 3 8) KExprLogicalAnd [(FLeft, VEmb (nd (Pos "" 19 3 8) KExprBitwiseOr [(FLeft, VEmb (nd (Pos "" 19 3 8) KExprBitwiseXor [(FLeft, VEmb (nd (Pos "" 19 3 8) KExprBitwiseAnd [(FLeft, VEmb (nd (Pos "" 19 3 8) KExprEquality [(FLeft, VEmb (nd (Pos "" 19 3 8) KExprRelational [(FLeft, VEmb (nd (Pos "" 19 3 8) KExprShift [(FLeft, VEmb (nd (Pos "" 19 3 8) KExprAdditive [(FLeft, VEmb (nd (Pos "" 19 3 8) KExprMultiplicative [(FLeft, VEmb (nd (Pos "" 19 3 8) KExprUnary [(FRight, VEmb (nd (Pos "" 19 3 8) KExprPostfix [(FValue, VEmb (nd (Pos "" 19 3 8) KExprPrimary [(FValue, VPtr (Some (nd (Pos "" 19 3 8) KValue [(FNumber, VPtr (Some (nd (Pos "" 19 3 8) KValueNumber [(FValue, VFloat (Some (tt, "2"))); (FSource, VStr "2")])))])))]))]))]))]))]))]))]))]))]))]))]))]))]))])))])))])])))])));
("TestString_Parsing/Double quoted", same true KValueString """hello world""" (Some (nd (Pos "" 0 1 1) KValueString [(FFragment, VList (Some (tt, [Some (nd (Pos "" 1 1 2) KStringFragment [(FText, VStr "hello world")])])))])));
("TestString_Parsing/Double quoted with single quote", same true KValueString """hello ' world""" (Some (nd (Pos "" 0 1 1) KValueString [(FFragment, VList (Some (tt, [Some (nd (Pos "" 1 1 2) KStringFragment [(FText, VStr "hello ")]); Some (nd (Pos "" 7 1 8) KStringFragment [(FText, VStr "'")]); Some (nd (Pos "" 8 1 9) KStringFragment [(FText, VStr " world")])])))])));
("TestString_Parsing/Single quoted", same true KValueString "'hello world'" (Some (nd (Pos "" 0 1 1) KValueString [(FFragment, VList (Some (tt, [Some (nd (Pos "" 1 1 2) KStringFragment [(FText, VStr "hello world")])])))])));
("TestString_Parsing/Single quoted with double quote", same true KValueString "'hello "" world'" (Some (nd (Pos "" 0 1 1) KValueString [(FFragment, VList (Some (tt, [Some (nd (Pos "" 1 1 2) KStringFragment [(FText, VStr "hello ")]); Some (nd (Pos "" 7 1 8) KStringFragment [(FText, VStr """")]); Some (nd (Pos "" 8 1 9) KStringFragment [(FText, VStr " world")])])))])));
("TestString_Parsing/Escaped", same true KValueString """hello \t world""" (Some (nd (Pos "" 0 1 1) KValueString [(FFragment, VList (Some (tt, [Some (nd (Pos "" 1 1 2) KStringFragment [(FText, VStr "hello ")]); Some (nd (Pos "" 7 1 8) KStringFragment [(FEscaped, VStr "\t")]); Some (nd (Pos "" 9 1 10) KStringFragment [(FText, VStr " world")])])))])));
("TestString_Parsing/Unicode - Short", same true KValueString """hello \u1234 world""" (Some (nd (Pos "" 0 1 1) KValueString [(FFragment, VList (Some (tt, [Some (nd (Pos "" 1 1 2) KStringFragment [(FText, VStr "hello ")]); Some (nd (Pos "" 7 1 8) KStringFragment [(FUnicode, VStr "1234")]); Some (nd (Pos "" 13 1 14) KStringFragment [(FText, VStr " world")])])))])));
("TestString_Parsing/Unicode - Long", same true KValueString """hello \u12345678 world""" (Some (nd (Pos "" 0 1 1) KValueString [(FFragment, VList (Some (tt, [Some (nd (Pos "" 1 1 2) KStringFragment [(FText, VStr "hello ")]); Some (nd (Pos "" 7 1 8) KStringFragment [(FUnicode, VStr "12345678")]); Some (nd (Pos "" 17 1 18) KStringFragment [(FText, VStr " world")])])))])));
("TestString_Parsing/Unicode - Invalid", same true KValueString """hello \u123 world""" None);
("TestString_Parsing/Unicode - Trailing numbers", same true KValueString """hello \u123456 world""" (Some (nd (Pos "" 0 1 1) KValueString [(FFragment, VList (Some (tt, [Some (nd (Pos "" 1 1 2) KStringFragment [(FText, VStr "hello ")]); Some (nd (Pos "" 7 1 8) KStringFragment [(FUnicode, VStr "1234")]); Some (nd (Pos "" 13 1 14) KStringFragment [(FText, VStr "56 world")])])))])));
("TestString_Parsing/Expression - Only", same true KValueString """${foo}""" (Some (nd (Pos "" 0 1 1) KValueString [(FFragment, VList (Some (tt, [Some (nd (Pos "" 1 1 2) KStringFragment [(FExpr, VPtr (Some (nd (Pos "" 3 1 4) KExpr [(FLeft, VPtr (Some (nd (Pos "" 3 1 4) KExprConditional [(FCondition, VEmb (nd (Pos "" 3 1 4) KExprLogicalOr [(FLeft, VEmb (nd (Pos "" 3 1 4) KExprLogicalAnd [(FLeft, VEmb (nd (Pos "" 3 1 4) KExprBitwiseOr [(FLeft, VEmb (nd (Pos "" 3 1 4) KExprBitwiseXor [(FLeft, VEmb (nd (Pos "" 3 1 4) KExprBitwiseAnd [(FLeft, VEmb (nd (Pos "" 3 1 4) KExprEquality [(FLeft, VEmb (nd (Pos "" 3 1 4) KExprRelational [(FLeft, VEmb (nd (Pos "" 3 1 4) KExprShift [(FLeft, VEmb (nd (Pos "" 3 1 4) KExprAdditive [(FLeft, VEmb (nd (Pos "" 3 1 4) KExprMultiplicative [(FLeft, VEmb (nd (Pos "" 3 1 4) KExprUnary [(FRight, VEmb (nd (Pos "" 3 1 4) KExprPostfix [(FValue, VEmb (nd (Pos "" 3 1 4) KExprPrimary [(FIdent, VPtr (Some (nd (Pos "" 3 1 4) KIdent [(FParts, VStrs (Some (tt, ["foo"])))])))]))]))]))]))]))]))]))]))]))]))]))]))]))])))])))])])))])));
("TestString_Parsing/Expression - In Text", same true KValueString """hello ${foo} world""" (Some (nd (Pos "" 0 1 1) KValueString [(FFragment, VList (Some (tt, [Some (nd (Pos "" 1 1 2) KStringFragment [(FText, VStr "hello ")]); Some (nd (Pos "" 7 1 8) KStringFragment [(FExpr, VPtr (Some (nd (Pos "" 9 1 10) KExpr [(FLeft, VPtr (Some (nd (Pos "" 9 1 10) KExprConditional [(FCondition, VEmb (nd (Pos "" 9 1 10) KExprLogicalOr [(FLeft, VEmb (nd (Pos "" 9 1 10) KExprLogicalAnd [(FLeft, VEmb (nd (Pos "" 9 1 10) KExprBitwiseOr [(FLeft, VEmb (nd (Pos "" 9 1 10) KExprBitwiseXor [(FLeft, VEmb (nd (Pos "" 9 1 10) KExprBitwiseAnd [(FLeft, VEmb (nd (Pos "" 9 1 10) KExprEquality [(FLeft, VEmb (nd (Pos "" 9 1 10) KExprRelational [(FLeft, VEmb (nd (Pos "" 9 1 10) KExprShift [(FLeft, VEmb (nd (Pos "" 9 1 10) KExprAdditive [(FLeft, VEmb (nd (Pos "" 9 1 10) KExprMultiplicative [(FLeft, VEmb (nd (Pos "" 9 1 10) KExprUnary [(FRight, VEmb (nd (Pos "" 9 1 10) KExprPostfix [(FValue, VEmb (nd (Pos "" 9 1 10) KExprPrimary [(FIdent, VPtr (Some (nd (Pos "" 9 1 10) KIdent [(FParts, VStrs (Some (tt, ["foo"])))])))]))]))]))]))]))]))]))]))]))]))]))]))]))])))])))]); Some (nd (Pos "" 13 1 14) KStringFragment [(FText, VStr " world")])])))])));
("TestString_Parsing/Non-Expression", same true KValueString """hello $${foo} world""" (Some (nd (Pos "" 0 1 1) KValueString [(FFragment, VList (Some (tt, [Some (nd (Pos "" 1 1 2) KStringFragment [(FText, VStr "hello ")]); Some (nd (Pos "" 7 1 8) KStringFragment [(FText, VStr "$${")]); Some (nd (Pos "" 10 1 11) KStringFragment [(FText, VStr "foo} world")])])))])));
("TestString_Parsing/Directive", same true KValueString """hello %{foo} world""" (Some (nd (Pos "" 0 1 1) KValueString [(FFragment, VList (Some (tt, [Some (nd (Pos "" 1 1 2) KStringFragment [(FText, VStr "hello ")]); Some (nd (Pos "" 7 1 8) KStringFragment [(FDirective, VPtr (Some (nd (Pos "" 9 1 10) KExpr [(FLeft, VPtr (Some (nd (Pos "" 9 1 10) KExprConditional [(FCondition, VEmb (nd (Pos "" 9 1 10) KExprLogicalOr [(FLeft, VEmb (nd (Pos "" 9 1 10) KExprLogicalAnd [(FLeft, VEmb (nd (Pos "" 9 1 10) KExprBitwiseOr [(FLeft, VEmb (nd (Pos "" 9 1 10) KExprBitwiseXor [(FLeft, VEmb (nd (Pos "" 9 1 10) KExprBitwiseAnd [(FLeft, VEmb (nd (Pos "" 9 1 10) KExprEquality [(FLeft, VEmb (nd (Pos "" 9 1 10) KExprRelational [(FLeft, VEmb (nd (Pos "" 9 1 10) KExprShift [(FLeft, VEmb (nd (Pos "" 9 1 10) KExprAdditive [(FLeft, VEmb (nd (Pos "" 9 1 10) KExprMultiplicative [(FLeft, VEmb (nd (Pos "" 9 1 10) KExprUnary [(FRight, VEmb (nd (Pos "" 9 1 10) KExprPostfix [(FValue, VEmb (nd (Pos "" 9 1 10) KExprPrimary [(FIdent, VPtr (Some (nd (Pos "" 9 1 10) KIdent [(FParts, VStrs (Some (tt, ["foo"])))])))]))]))]))]))]))]))]))]))]))]))]))]))]))])))])))]); Some (nd (Pos "" 13 1 14) KStringFragment [(FText, VStr " world")])])))])));
("TestString_Parsing/Non-Directive", same true KValueString """hello %%{foo} world""" (Some (nd (Pos "" 0 1 1) KValueString [(FFragment, VList (Some (tt, [Some (nd (Pos "" 1 1 2) KStringFragment [(FText, VStr "hello ")]); Some (nd (Pos "" 7 1 8) KStringFragment [(FText, VStr "%%{")]); Some (nd (Pos "" 10 1 11) KStringFragment [(FText, VStr "foo} world")])])))])));
("TestValue_Parsing/Null", same true KValue "null" (Some (nd (Pos "" 0 1 1) KValue [(FNull, VBool true)])));
("TestValue_Parsing/Bool - true", same true KValue "true" (Some (nd (Pos "" 0 1 1) KValue [(FBool, VPtr (Some (nd no_pos KValueBool [(FValue, VBool true)])))])));
("TestValue_Parsing/Bool - false", same true KValue "false" (Some (nd (Pos "" 0 1 1) KValue [(FBool, VPtr (Some (nd no_pos KValueBool [(FValue, VBool false)])))])));
("TestValue_Parsing/Number", same true KValue "12.34e+2" (Some (nd (Pos "" 0 1 1) KValue [(FNumber, VPtr (Some (nd no_pos KValueNumber [(FValue, VFloat (Some (tt, "12.34e+2"))); (FSource, VStr "-12.34e+2")])))])));
("TestValue_Parsing/String", same true KValue """hello world""" (Some (nd (Pos "" 0 1 1) KValue [(FStr, VPtr (Some (nd (Pos "" 0 1 1) KValueString [(FFragment, VList (Some (tt, [Some (nd (Pos "" 1 1 2) KStringFragment [(FText, VStr "hello world")])])))])))])));
("TestValue_Parsing/Heredoc - Empty", same true KValue ("<<FOO" +:+ (String "010" "") +:+ "FOO") (Some (nd (Pos "" 0 1 1) KValue [(FHeredoc, VPtr (Some (nd (Pos "" 0 1 1) KHeredoc [(FFragments, VList None); (FDelimiter, VStr "FOO"); (FLeadingTabs, VBool false)])))])));
("TestValue_Parsing/Heredoc - No leading tabs", same true KValue ("<<FOO" +:+ (String "010" "") +:+ "bar" +:+ (String "010" "") +:+ "FOO") (Some (nd (Pos "" 0 1 1) KValue [(FHeredoc, VPtr (Some (nd (Pos "" 0 1 1) KHeredoc [(FFragments, VList (Some (tt, [Some (nd (Pos "" 6 2 1) KHeredocFragment [(FText, VStr ("bar" +:+ (String "010" "")))])]))); (FDelimiter, VStr "FOO"); (FLeadingTabs, VBool false)])))])));
("TestValue_Parsing/Heredoc - Leading tabs", same true KValue ("<<-FOO" +:+ (String "010" "") +:+ "bar" +:+ (String "010" "") +:+ "FOO") (Some (nd (Pos "" 0 1 1) KValue [(FHeredoc, VPtr (Some (nd (Pos "" 0 1 1) KHeredoc [(FFragments, VList (Some (tt, [Some (nd (Pos "" 7 2 1) KHeredocFragment [(FText, VStr ("bar" +:+ (String "010" "")))])]))); (FDelimiter, VStr "FOO"); (FLeadingTabs, VBool true)])))])));
("TestValue_Parsing/List - Empty", same true KValue "[]" (Some (nd (Pos "" 0 1 1) KValue [(FList, VPtr (Some (nd (Pos "" 0 1 1) KValueList [])))])));
("TestValue_Parsing/List - Elements", same true KValue "[ 1, 2 ]" (Some (nd (Pos "" 0 1 1) KValue [(FList, VPtr (Some (nd (Pos "" 0 1 1) KValueList [(FItems, VList (Some (tt, [Some (nd (Pos "" 2 1 3) KListItem [(FValue, VPtr (Some (nd (Pos "" 2 1 3) KExpr [(FLeft, VPtr (Some (nd (Pos "" 2 1 3) KExprConditional [(FCondition, VEmb (nd (Pos "" 2 1 3) KExprLogicalOr [(FLeft, VEmb (nd (Pos "" 2 1 3) KExprLogicalAnd [(FLeft, VEmb (nd (Pos "" 2 1 3) KExprBitwiseOr [(FLeft, VEmb (nd (Pos "" 2 1 3) KExprBitwiseXor [(FLeft, VEmb (nd (Pos "" 2 1 3) KExprBitwiseAnd [(FLeft, VEmb (nd (Pos "" 2 1 3) KExprEquality [(FLeft, VEmb (nd (Pos "" 2 1 3) KExprRelational [(FLeft, VEmb (nd (Pos "" 2 1 3) KExprShift [(FLeft, VEmb (nd (Pos "" 2 1 3) KExprAdditive [(FLeft, VEmb (nd (Pos "" 2 1 3) KExprMultiplicative [(FLeft, VEmb (nd (Pos "" 2 1 3) KExprUnary [(FRight, VEmb (nd (Pos "" 2 1 3) KExprPostfix [(FValue, VEmb (nd (Pos "" 2 1 3) KExprPrimary [(FValue, VPtr (Some (nd (Pos "" 2 1 3) KValue [(FNumber, VPtr (Some (nd (Pos "" 2 1 3) KValueNumber [(FValue, VFloat (Some (tt, "1"))); (FSource, VStr "1")])))])))]))]))]))]))]))]))]))]))]))]))]))]))]))])))])))]); Some (nd (Pos "" 5 1 6) KListItem [(FValue, VPtr (Some (nd (Pos "" 5 1 6) KExpr [(FLeft, VPtr (Some (nd (Pos "" 5 1 6) KExprConditional [(FCondition, VEmb (nd (Pos "" 5 1 6) KExprLogicalOr [(FLeft, VEmb (nd (Pos "" 5 1 6) KExprLogicalAnd [(FLeft, VEmb (nd (Pos "" 5 1 6) KExprBitwiseOr [(FLeft, VEmb (nd (Pos "" 5 1 6) KExprBitwiseXor [(FLeft, VEmb (nd (Pos "" 5 1 6) KExprBitwiseAnd [(FLeft, VEmb (nd (Pos "" 5 1 6) KExprEquality [(FLeft, VEmb (nd (Pos "" 5 1 6) KExprRelational [(FLeft, VEmb (nd (Pos "" 5 1 6) KExprShift [(FLeft, VEmb (nd (Pos "" 5 1 6) KExprAdditive [(FLeft, VEmb (nd (Pos "" 5 1 6) KExprMultiplicative [(FLeft, VEmb (nd (Pos "" 5 1 6) KExprUnary [(FRight, VEmb (nd (Pos "" 5 1 6) KExprPostfix [(FValue, VEmb (nd (Pos "" 5 1 6) KExprPrimary [(FValue, VPtr (Some (nd (Pos "" 5 1 6) KValue [(FNumber, VPtr (Some (nd (Pos "" 5 1 6) KValueNumber [(FValue, VFloat (Some (tt, "2"))); (FSource, VStr "2")])))])))]))]))]))]))]))]))]))]))]))]))]))]))]))])))])))])])))])))])));
("TestValue_Parsing/Map - Empty", same true KValue "{}" (Some (nd (Pos "" 0 1 1) KValue [(FMap, VPtr (Some (nd (Pos "" 0 1 1) KValueMap [])))])));
("TestValue_Parsing/Map - Elements", same true KValue "{ foo = bar , baz = qux }" (Some (nd (Pos "" 0 1 1) KValue [(FMap, VPtr (Some (nd (Pos "" 0 1 1) KValueMap [(FItems, VList (Some (tt, [Some (nd (Pos "" 2 1 3) KMapItem [(FKey, VPtr (Some (nd (Pos "" 2 1 3) KMapKey [(FIdent, VPtr (Some (nd (Pos "" 2 1 3) KIdent [(FParts, VStrs (Some (tt, ["foo"])))])))]))); (FValue, VPtr (Some (nd (Pos "" 8 1 9) KExpr [(FLeft, VPtr (Some (nd (Pos "" 8 1 9) KExprConditional [(FCondition, VEmb (nd (Pos "" 8 1 9) KExprLogicalOr [(FLeft, VEmb (nd (Pos "" 8 1 9) KExprLogicalAnd [(FLeft, VEmb (nd (Pos "" 8 1 9) KExprBitwiseOr [(FLeft, VEmb (nd (Pos "" 8 1 9) KExprBitwiseXor [(FLeft, VEmb (nd (Pos "" 8 1 9) KExprBitwiseAnd [(FLeft, VEmb (nd (Pos "" 8 1 9) KExprEquality [(FLeft, VEmb (nd (Pos "" 8 1 9) KExprRelational [(FLeft, VEmb (nd (Pos "" 8 1 9) KExprShift [(FLeft, VEmb (nd (Pos "" 8 1 9) KExprAdditive [(FLeft, VEmb (nd (Pos "" 8 1 9) KExprMultiplicative [(FLeft, VEmb (nd (Pos "" 8 1 9) KExprUnary [(FRight, VEmb (nd (Pos "" 8 1 9) KExprPostfix [(FValue, VEmb (nd (Pos "" 8 1 9) KExprPrimary [(FIdent, VPtr (Some (nd (Pos "" 8 1 9) KIdent [(FParts, VStrs (Some (tt, ["bar"])))])))]))]))]))]))]))]))]))]))]))]))]))]))]))])))])))]); Some (nd (Pos "" 14 1 15) KMapItem [(FKey, VPtr (Some (nd (Pos "" 14 1 15) KMapKey [(FIdent, VPtr (Some (nd (Pos "" 14 1 15) KIdent [(FParts, VStrs (Some (tt, ["baz"])))])))]))); (FValue, VPtr (Some (nd (Pos "" 20 1 21) KExpr [(FLeft, VPtr (Some (nd (Pos "" 20 1 21) KExprConditional [(FCondition, VEmb (nd (Pos "" 20 1 21) KExprLogicalOr [(FLeft, VEmb (nd (Pos "" 20 1 21) KExprLogicalAnd [(FLeft, VEmb (nd (Pos "" 20 1 21) KExprBitwiseOr [(FLeft, VEmb (nd (Pos "" 20 1 21) KExprBitwiseXor [(FLeft, VEmb (nd (Pos "" 20 1 21) KExprBitwiseAnd [(FLeft, VEmb (nd (Pos "" 20 1 21) KExprEquality [(FLeft, VEmb (nd (Pos "" 20 1 21) KExprRelational [(FLeft, VEmb (nd (Pos "" 20 1 21) KExprShift [(FLeft, VEmb (nd (Pos "" 20 1 21) KExprAdditive [(FLeft, VEmb (nd (Pos "" 20 1 21) KExprMultiplicative [(FLeft, VEmb (nd (Pos "" 20 1 21) KExprUnary [(FRight, VEmb (nd (Pos "" 20 1 21) KExprPostfix [(FValue, VEmb (nd (Pos "" 20 1 21) KExprPrimary [(FIdent, VPtr (Some (nd (Pos "" 20 1 21) KIdent [(FParts, VStrs (Some (tt, ["qux"])))])))]))]))]))]))]))]))]))]))]))]))]))]))]))])))])))])])))])))])))].
Example parsing_tests_agree : map fst (filter (λ c, c.2 = false) cases) = [].
Proof. vm_compute. reflexivity. Qed.
