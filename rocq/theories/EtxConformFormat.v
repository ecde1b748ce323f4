(** * FormattedString against the tests of pkg/etx

    Generated from the test tables of /repo/pkg/etx/*_test.go: the name of a case, the text it
    expects (None: a panic) and the tree it formats.  Left out are cases
    whose receiver is nil, and four whose expected text the test computes. *)
From stdpp Require Import base list option strings.
From Coq Require Import Ascii.
From Verif Require Import GoBase EtxAst EtxHeap EtxHeapSpec EtxText EtxLex EtxUtil EtxGram EtxParse EtxFormat.
Definition nd (p : EtxHeap.pos) (k : kind) (gs : list (fld * aval)) : ast := node p k gs.
Definition same (o : option string) (t : ast) : bool := match format t, o with Ok s, Some w => bool_decide (str s = w) | Panic, None => true | _, _ => false end.
Definition cases : list (string * bool) := [
("TestComment_FormattedString/Empty", same (Some "") (nd no_pos KComment []));
("TestComment_FormattedString/One SingleLine", same (Some ("// foo" +:+ (String "010" ""))) (nd no_pos KComment [(FSingleLine, VStrs (Some (tt, ["// foo"])))]));
("TestComment_FormattedString/Two SingleLine", same (Some ("// foo" +:+ (String "010" "") +:+ "# bar" +:+ (String "010" ""))) (nd no_pos KComment [(FSingleLine, VStrs (Some (tt, ["// foo"; "# bar"])))]));
("TestComment_FormattedString/One MultiLine", same (Some "/* foo */") (nd no_pos KComment [(FMultiline, VStr "/* foo */")]));
("TestAST_FormattedString/Empty", same (Some "") (nd no_pos KAST []));
("TestAST_FormattedString/One item", same (Some ("foo" +:+ (String "010" ""))) (nd no_pos KAST [(FItems, VList (Some (tt, [Some (nd no_pos KRootItem [(FAttribute, VPtr (Some (nd no_pos KAttribute [(FKey, VStr "foo")])))])])))]));
("TestAST_FormattedString/Two items", same (Some ("foo" +:+ (String "010" "") +:+ (String "010" "") +:+ "bar" +:+ (String "010" ""))) (nd no_pos KAST [(FItems, VList (Some (tt, [Some (nd no_pos KRootItem [(FAttribute, VPtr (Some (nd no_pos KAttribute [(FKey, VStr "foo")])))]); Some (nd no_pos KRootItem [(FAttribute, VPtr (Some (nd no_pos KAttribute [(FKey, VStr "bar")])))])])))]));
("TestRootItem_FormattedString/Empty", same None (nd no_pos KRootItem []));
("TestRootItem_FormattedString/Decl", same (Some "val foo") (nd no_pos KRootItem [(FDecl, VPtr (Some (nd no_pos KDecl [(FDeclType, VStr "val"); (FLabel, VStr "foo")])))]));
("TestRootItem_FormattedString/Func", same (Some "def foo() {}") (nd no_pos KRootItem [(FFunc, VPtr (Some (nd no_pos KFunc [(FLabel, VStr "foo")])))]));
("TestRootItem_FormattedString/Type", same (Some ("type foo object {" +:+ (String "010" "") +:+ "}")) (nd no_pos KRootItem [(FType, VPtr (Some (nd no_pos KType [(FLabel, VStr "foo"); (FObject, VPtr (Some (nd no_pos KTypeObject [])))])))]));
("TestRootItem_FormattedString/Block", same (Some "foo {}") (nd no_pos KRootItem [(FBlock, VPtr (Some (nd no_pos KBlock [(FName, VStr "foo")])))]));
("TestRootItem_FormattedString/Attribute", same (Some "foo: 1") (nd no_pos KRootItem [(FAttribute, VPtr (Some (nd no_pos KAttribute [(FKey, VStr "foo"); (FValue, VPtr (Some (nd no_pos KExpr [(FLeft, VPtr (Some (nd no_pos KExprConditional [(FCondition, VEmb (nd no_pos KExprLogicalOr [(FLeft, VEmb (nd no_pos KExprLogicalAnd [(FLeft, VEmb (nd no_pos KExprBitwiseOr [(FLeft, VEmb (nd no_pos KExprBitwiseXor [(FLeft, VEmb (nd no_pos KExprBitwiseAnd [(FLeft, VEmb (nd no_pos KExprEquality [(FLeft, VEmb (nd no_pos KExprRelational [(FLeft, VEmb (nd no_pos KExprShift [(FLeft, VEmb (nd no_pos KExprAdditive [(FLeft, VEmb (nd no_pos KExprMultiplicative [(FLeft, VEmb (nd no_pos KExprUnary [(FRight, VEmb (nd no_pos KExprPostfix [(FValue, VEmb (nd no_pos KExprPrimary [(FValue, VPtr (Some (nd no_pos KValue [(FNumber, VPtr (Some (nd no_pos KValueNumber [(FValue, VFloat (Some (tt, "1"))); (FSource, VStr "1")])))])))]))]))]))]))]))]))]))]))]))]))]))]))]))])))])))])))]));
("TestRootItem_FormattedString/Comment", same (Some ("// foo" +:+ (String "010" ""))) (nd no_pos KRootItem [(FComment, VPtr (Some (nd no_pos KComment [(FSingleLine, VStrs (Some (tt, ["// foo"])))])))]));
("TestRootItem_FormattedString/EmptyLine", same (Some ((String "010" ""))) (nd no_pos KRootItem [(FEmptyLine, VStr ((String "010" "")))]));
("TestParameterType_FormattedString/Empty", same None (nd no_pos KParameterType []));
("TestFuncSignature_FormattedString/Empty", same None (nd no_pos KFuncSignature []));
("TestFuncSignature_FormattedString/No parameters - return", same (Some "() -> foo") (nd no_pos KFuncSignature [(FReturn, VEmb (nd no_pos KParameterType [(FIdent, VPtr (Some (nd no_pos KIdent [(FParts, VStrs (Some (tt, ["foo"])))])))]))]));
("TestFuncSignature_FormattedString/One parameter - return", same (Some "(foo) -> bar") (nd no_pos KFuncSignature [(FParameters, VList (Some (tt, [Some (nd no_pos KParameterType [(FIdent, VPtr (Some (nd no_pos KIdent [(FParts, VStrs (Some (tt, ["foo"])))])))])]))); (FReturn, VEmb (nd no_pos KParameterType [(FIdent, VPtr (Some (nd no_pos KIdent [(FParts, VStrs (Some (tt, ["bar"])))])))]))]));
("TestFuncSignature_FormattedString/Two parameters - return", same (Some "(foo, bar) -> baz") (nd no_pos KFuncSignature [(FParameters, VList (Some (tt, [Some (nd no_pos KParameterType [(FIdent, VPtr (Some (nd no_pos KIdent [(FParts, VStrs (Some (tt, ["foo"])))])))]); Some (nd no_pos KParameterType [(FIdent, VPtr (Some (nd no_pos KIdent [(FParts, VStrs (Some (tt, ["bar"])))])))])]))); (FReturn, VEmb (nd no_pos KParameterType [(FIdent, VPtr (Some (nd no_pos KIdent [(FParts, VStrs (Some (tt, ["baz"])))])))]))]));
("TestAttribute_FormattedString/Empty", same (Some "") (nd no_pos KAttribute []));
("TestAttribute_FormattedString/Key only", same (Some "foo") (nd no_pos KAttribute [(FKey, VStr "foo")]));
("TestAttribute_FormattedString/Key and value", same (Some "foo: 1") (nd no_pos KAttribute [(FKey, VStr "foo"); (FValue, VPtr (Some (nd no_pos KExpr [(FLeft, VPtr (Some (nd no_pos KExprConditional [(FCondition, VEmb (nd no_pos KExprLogicalOr [(FLeft, VEmb (nd no_pos KExprLogicalAnd [(FLeft, VEmb (nd no_pos KExprBitwiseOr [(FLeft, VEmb (nd no_pos KExprBitwiseXor [(FLeft, VEmb (nd no_pos KExprBitwiseAnd [(FLeft, VEmb (nd no_pos KExprEquality [(FLeft, VEmb (nd no_pos KExprRelational [(FLeft, VEmb (nd no_pos KExprShift [(FLeft, VEmb (nd no_pos KExprAdditive [(FLeft, VEmb (nd no_pos KExprMultiplicative [(FLeft, VEmb (nd no_pos KExprUnary [(FRight, VEmb (nd no_pos KExprPostfix [(FValue, VEmb (nd no_pos KExprPrimary [(FValue, VPtr (Some (nd no_pos KValue [(FNumber, VPtr (Some (nd no_pos KValueNumber [(FValue, VFloat (Some (tt, "1"))); (FSource, VStr "1")])))])))]))]))]))]))]))]))]))]))]))]))]))]))]))])))])))]));
("TestBlock_FormattedString/Empty", same (Some "") (nd no_pos KBlock []));
("TestBlock_FormattedString/Name - no labels - no body", same (Some "resource {}") (nd no_pos KBlock [(FName, VStr "resource")]));
("TestBlock_FormattedString/Name - labels - no body", same (Some "resource ""foo"" {}") (nd no_pos KBlock [(FName, VStr "resource"); (FLabels, VStrs (Some (tt, ["foo"])))]));
("TestBlock_FormattedString/Name - no labels - body", same (Some ("resource {" +:+ (String "010" "") +:+ (String "009" "") +:+ "foo" +:+ (String "010" "") +:+ "}")) (nd no_pos KBlock [(FName, VStr "resource"); (FBody, VList (Some (tt, [Some (nd no_pos KBlockItem [(FAttribute, VPtr (Some (nd no_pos KAttribute [(FKey, VStr "foo")])))])])))]));
("TestBlockItem_FormattedString/Empty", same (Some "") (nd no_pos KBlockItem []));
("TestBlockItem_FormattedString/Comment", same (Some ("// foo" +:+ (String "010" ""))) (nd no_pos KBlockItem [(FComment, VPtr (Some (nd no_pos KComment [(FSingleLine, VStrs (Some (tt, ["// foo"])))])))]));
("TestDecl_FormattedString/Empty", same (Some "") (nd no_pos KDecl []));
("TestDecl_FormattedString/Label - no type - no value", same (Some "val foo") (nd no_pos KDecl [(FDeclType, VStr "val"); (FLabel, VStr "foo")]));
("TestDecl_FormattedString/Label - type - no value", same (Some "val foo: number") (nd no_pos KDecl [(FDeclType, VStr "val"); (FLabel, VStr "foo"); (FType, VPtr (Some (nd no_pos KParameterType [(FIdent, VPtr (Some (nd no_pos KIdent [(FParts, VStrs (Some (tt, ["number"])))])))])))]));
("TestDecl_FormattedString/Label - no type - value", same (Some "val foo = 1") (nd no_pos KDecl [(FDeclType, VStr "val"); (FLabel, VStr "foo"); (FValue, VPtr (Some (nd no_pos KExpr [(FLeft, VPtr (Some (nd no_pos KExprConditional [(FCondition, VEmb (nd no_pos KExprLogicalOr [(FLeft, VEmb (nd no_pos KExprLogicalAnd [(FLeft, VEmb (nd no_pos KExprBitwiseOr [(FLeft, VEmb (nd no_pos KExprBitwiseXor [(FLeft, VEmb (nd no_pos KExprBitwiseAnd [(FLeft, VEmb (nd no_pos KExprEquality [(FLeft, VEmb (nd no_pos KExprRelational [(FLeft, VEmb (nd no_pos KExprShift [(FLeft, VEmb (nd no_pos KExprAdditive [(FLeft, VEmb (nd no_pos KExprMultiplicative [(FLeft, VEmb (nd no_pos KExprUnary [(FRight, VEmb (nd no_pos KExprPostfix [(FValue, VEmb (nd no_pos KExprPrimary [(FValue, VPtr (Some (nd no_pos KValue [(FNumber, VPtr (Some (nd no_pos KValueNumber [(FValue, VFloat (Some (tt, "1"))); (FSource, VStr "1")])))])))]))]))]))]))]))]))]))]))]))]))]))]))]))])))])))]));
("TestDecl_FormattedString/Label - type - value", same (Some "val foo: number = 1") (nd no_pos KDecl [(FDeclType, VStr "val"); (FLabel, VStr "foo"); (FType, VPtr (Some (nd no_pos KParameterType [(FIdent, VPtr (Some (nd no_pos KIdent [(FParts, VStrs (Some (tt, ["number"])))])))]))); (FValue, VPtr (Some (nd no_pos KExpr [(FLeft, VPtr (Some (nd no_pos KExprConditional [(FCondition, VEmb (nd no_pos KExprLogicalOr [(FLeft, VEmb (nd no_pos KExprLogicalAnd [(FLeft, VEmb (nd no_pos KExprBitwiseOr [(FLeft, VEmb (nd no_pos KExprBitwiseXor [(FLeft, VEmb (nd no_pos KExprBitwiseAnd [(FLeft, VEmb (nd no_pos KExprEquality [(FLeft, VEmb (nd no_pos KExprRelational [(FLeft, VEmb (nd no_pos KExprShift [(FLeft, VEmb (nd no_pos KExprAdditive [(FLeft, VEmb (nd no_pos KExprMultiplicative [(FLeft, VEmb (nd no_pos KExprUnary [(FRight, VEmb (nd no_pos KExprPostfix [(FValue, VEmb (nd no_pos KExprPrimary [(FValue, VPtr (Some (nd no_pos KValue [(FNumber, VPtr (Some (nd no_pos KValueNumber [(FValue, VFloat (Some (tt, "1"))); (FSource, VStr "1")])))])))]))]))]))]))]))]))]))]))]))]))]))]))]))])))])))]));
("TestExpr_FormattedString/Empty", same None (nd no_pos KExpr []));
("TestExpr_FormattedString/Left", same (Some "1") (nd no_pos KExpr [(FLeft, VPtr (Some (nd no_pos KExprConditional [(FCondition, VEmb (nd no_pos KExprLogicalOr [(FLeft, VEmb (nd no_pos KExprLogicalAnd [(FLeft, VEmb (nd no_pos KExprBitwiseOr [(FLeft, VEmb (nd no_pos KExprBitwiseXor [(FLeft, VEmb (nd no_pos KExprBitwiseAnd [(FLeft, VEmb (nd no_pos KExprEquality [(FLeft, VEmb (nd no_pos KExprRelational [(FLeft, VEmb (nd no_pos KExprShift [(FLeft, VEmb (nd no_pos KExprAdditive [(FLeft, VEmb (nd no_pos KExprMultiplicative [(FLeft, VEmb (nd no_pos KExprUnary [(FRight, VEmb (nd no_pos KExprPostfix [(FValue, VEmb (nd no_pos KExprPrimary [(FValue, VPtr (Some (nd no_pos KValue [(FNumber, VPtr (Some (nd no_pos KValueNumber [(FValue, VFloat (Some (tt, "1"))); (FSource, VStr "1")])))])))]))]))]))]))]))]))]))]))]))]))]))]))]))])))]));
("TestExpr_FormattedString/If", same (Some "if foo { }") (nd no_pos KExpr [(FIf, VPtr (Some (nd no_pos KExprIf [(FCondition, VEmb (nd no_pos KExprLogicalOr [(FLeft, VEmb (nd no_pos KExprLogicalAnd [(FLeft, VEmb (nd no_pos KExprBitwiseOr [(FLeft, VEmb (nd no_pos KExprBitwiseXor [(FLeft, VEmb (nd no_pos KExprBitwiseAnd [(FLeft, VEmb (nd no_pos KExprEquality [(FLeft, VEmb (nd no_pos KExprRelational [(FLeft, VEmb (nd no_pos KExprShift [(FLeft, VEmb (nd no_pos KExprAdditive [(FLeft, VEmb (nd no_pos KExprMultiplicative [(FLeft, VEmb (nd no_pos KExprUnary [(FRight, VEmb (nd no_pos KExprPostfix [(FValue, VEmb (nd no_pos KExprPrimary [(FIdent, VPtr (Some (nd no_pos KIdent [(FParts, VStrs (Some (tt, ["foo"])))])))]))]))]))]))]))]))]))]))]))]))]))]))])); (FLeft, VPtr None); (FRight, VPtr None)])))]));
("TestExpr_FormattedString/Switch", same (Some "switch foo { }") (nd no_pos KExpr [(FSwitch, VPtr (Some (nd no_pos KExprSwitch [(FSelector, VEmb (nd no_pos KExprLogicalOr [(FLeft, VEmb (nd no_pos KExprLogicalAnd [(FLeft, VEmb (nd no_pos KExprBitwiseOr [(FLeft, VEmb (nd no_pos KExprBitwiseXor [(FLeft, VEmb (nd no_pos KExprBitwiseAnd [(FLeft, VEmb (nd no_pos KExprEquality [(FLeft, VEmb (nd no_pos KExprRelational [(FLeft, VEmb (nd no_pos KExprShift [(FLeft, VEmb (nd no_pos KExprAdditive [(FLeft, VEmb (nd no_pos KExprMultiplicative [(FLeft, VEmb (nd no_pos KExprUnary [(FRight, VEmb (nd no_pos KExprPostfix [(FValue, VEmb (nd no_pos KExprPrimary [(FIdent, VPtr (Some (nd no_pos KIdent [(FParts, VStrs (Some (tt, ["foo"])))])))]))]))]))]))]))]))]))]))]))]))]))]))])); (FCases, VList None)])))]));
("TestIf_FormattedString/Empty", same None (nd no_pos KExprIf []));
("TestIf_FormattedString/If with empty body", same (Some "if foo { }") (nd no_pos KExprIf [(FCondition, VEmb (nd no_pos KExprLogicalOr [(FLeft, VEmb (nd no_pos KExprLogicalAnd [(FLeft, VEmb (nd no_pos KExprBitwiseOr [(FLeft, VEmb (nd no_pos KExprBitwiseXor [(FLeft, VEmb (nd no_pos KExprBitwiseAnd [(FLeft, VEmb (nd no_pos KExprEquality [(FLeft, VEmb (nd no_pos KExprRelational [(FLeft, VEmb (nd no_pos KExprShift [(FLeft, VEmb (nd no_pos KExprAdditive [(FLeft, VEmb (nd no_pos KExprMultiplicative [(FLeft, VEmb (nd no_pos KExprUnary [(FRight, VEmb (nd no_pos KExprPostfix [(FValue, VEmb (nd no_pos KExprPrimary [(FIdent, VPtr (Some (nd no_pos KIdent [(FParts, VStrs (Some (tt, ["foo"])))])))]))]))]))]))]))]))]))]))]))]))]))]))])); (FLeft, VPtr None); (FRight, VPtr None)]));
("TestIf_FormattedString/If", same (Some ("if foo {" +:+ (String "010" "") +:+ (String "009" "") +:+ "1" +:+ (String "010" "") +:+ "}")) (nd no_pos KExprIf [(FCondition, VEmb (nd no_pos KExprLogicalOr [(FLeft, VEmb (nd no_pos KExprLogicalAnd [(FLeft, VEmb (nd no_pos KExprBitwiseOr [(FLeft, VEmb (nd no_pos KExprBitwiseXor [(FLeft, VEmb (nd no_pos KExprBitwiseAnd [(FLeft, VEmb (nd no_pos KExprEquality [(FLeft, VEmb (nd no_pos KExprRelational [(FLeft, VEmb (nd no_pos KExprShift [(FLeft, VEmb (nd no_pos KExprAdditive [(FLeft, VEmb (nd no_pos KExprMultiplicative [(FLeft, VEmb (nd no_pos KExprUnary [(FRight, VEmb (nd no_pos KExprPostfix [(FValue, VEmb (nd no_pos KExprPrimary [(FIdent, VPtr (Some (nd no_pos KIdent [(FParts, VStrs (Some (tt, ["foo"])))])))]))]))]))]))]))]))]))]))]))]))]))]))])); (FLeft, VPtr (Some (nd no_pos KExpr [(FLeft, VPtr (Some (nd no_pos KExprConditional [(FCondition, VEmb (nd no_pos KExprLogicalOr [(FLeft, VEmb (nd no_pos KExprLogicalAnd [(FLeft, VEmb (nd no_pos KExprBitwiseOr [(FLeft, VEmb (nd no_pos KExprBitwiseXor [(FLeft, VEmb (nd no_pos KExprBitwiseAnd [(FLeft, VEmb (nd no_pos KExprEquality [(FLeft, VEmb (nd no_pos KExprRelational [(FLeft, VEmb (nd no_pos KExprShift [(FLeft, VEmb (nd no_pos KExprAdditive [(FLeft, VEmb (nd no_pos KExprMultiplicative [(FLeft, VEmb (nd no_pos KExprUnary [(FRight, VEmb (nd no_pos KExprPostfix [(FValue, VEmb (nd no_pos KExprPrimary [(FValue, VPtr (Some (nd no_pos KValue [(FNumber, VPtr (Some (nd no_pos KValueNumber [(FValue, VFloat (Some (tt, "1"))); (FSource, VStr "1")])))])))]))]))]))]))]))]))]))]))]))]))]))]))]))])))]))); (FRight, VPtr None)]));
("TestIf_FormattedString/If/Else", same (Some ("if foo {" +:+ (String "010" "") +:+ (String "009" "") +:+ "1" +:+ (String "010" "") +:+ "} else {" +:+ (String "010" "") +:+ (String "009" "") +:+ "2" +:+ (String "010" "") +:+ "}")) (nd no_pos KExprIf [(FCondition, VEmb (nd no_pos KExprLogicalOr [(FLeft, VEmb (nd no_pos KExprLogicalAnd [(FLeft, VEmb (nd no_pos KExprBitwiseOr [(FLeft, VEmb (nd no_pos KExprBitwiseXor [(FLeft, VEmb (nd no_pos KExprBitwiseAnd [(FLeft, VEmb (nd no_pos KExprEquality [(FLeft, VEmb (nd no_pos KExprRelational [(FLeft, VEmb (nd no_pos KExprShift [(FLeft, VEmb (nd no_pos KExprAdditive [(FLeft, VEmb (nd no_pos KExprMultiplicative [(FLeft, VEmb (nd no_pos KExprUnary [(FRight, VEmb (nd no_pos KExprPostfix [(FValue, VEmb (nd no_pos KExprPrimary [(FIdent, VPtr (Some (nd no_pos KIdent [(FParts, VStrs (Some (tt, ["foo"])))])))]))]))]))]))]))]))]))]))]))]))]))]))])); (FLeft, VPtr (Some (nd no_pos KExpr [(FLeft, VPtr (Some (nd no_pos KExprConditional [(FCondition, VEmb (nd no_pos KExprLogicalOr [(FLeft, VEmb (nd no_pos KExprLogicalAnd [(FLeft, VEmb (nd no_pos KExprBitwiseOr [(FLeft, VEmb (nd no_pos KExprBitwiseXor [(FLeft, VEmb (nd no_pos KExprBitwiseAnd [(FLeft, VEmb (nd no_pos KExprEquality [(FLeft, VEmb (nd no_pos KExprRelational [(FLeft, VEmb (nd no_pos KExprShift [(FLeft, VEmb (nd no_pos KExprAdditive [(FLeft, VEmb (nd no_pos KExprMultiplicative [(FLeft, VEmb (nd no_pos KExprUnary [(FRight, VEmb (nd no_pos KExprPostfix [(FValue, VEmb (nd no_pos KExprPrimary [(FValue, VPtr (Some (nd no_pos KValue [(FNumber, VPtr (Some (nd no_pos KValueNumber [(FValue, VFloat (Some (tt, "1"))); (FSource, VStr "1")])))])))]))]))]))]))]))]))]))]))]))]))]))]))]))])))]))); (FRight, VPtr (Some (nd no_pos KExpr [(FLeft, VPtr (Some (nd no_pos KExprConditional [(FCondition, VEmb (nd no_pos KExprLogicalOr [(FLeft, VEmb (nd no_pos KExprLogicalAnd [(FLeft, VEmb (nd no_pos KExprBitwiseOr [(FLeft, VEmb (nd no_pos KExprBitwiseXor [(FLeft, VEmb (nd no_pos KExprBitwiseAnd [(FLeft, VEmb (nd no_pos KExprEquality [(FLeft, VEmb (nd no_pos KExprRelational [(FLeft, VEmb (nd no_pos KExprShift [(FLeft, VEmb (nd no_pos KExprAdditive [(FLeft, VEmb (nd no_pos KExprMultiplicative [(FLeft, VEmb (nd no_pos KExprUnary [(FRight, VEmb (nd no_pos KExprPostfix [(FValue, VEmb (nd no_pos KExprPrimary [(FValue, VPtr (Some (nd no_pos KValue [(FNumber, VPtr (Some (nd no_pos KValueNumber [(FValue, VFloat (Some (tt, "2"))); (FSource, VStr "2")])))])))]))]))]))]))]))]))]))]))]))]))]))]))]))])))])))]));
("TestSwitch_FormattedString/Empty", same None (nd no_pos KExprSwitch []));
("TestSwitch_FormattedString/Only Selector", same (Some "switch foo { }") (nd no_pos KExprSwitch [(FSelector, VEmb (nd no_pos KExprLogicalOr [(FLeft, VEmb (nd no_pos KExprLogicalAnd [(FLeft, VEmb (nd no_pos KExprBitwiseOr [(FLeft, VEmb (nd no_pos KExprBitwiseXor [(FLeft, VEmb (nd no_pos KExprBitwiseAnd [(FLeft, VEmb (nd no_pos KExprEquality [(FLeft, VEmb (nd no_pos KExprRelational [(FLeft, VEmb (nd no_pos KExprShift [(FLeft, VEmb (nd no_pos KExprAdditive [(FLeft, VEmb (nd no_pos KExprMultiplicative [(FLeft, VEmb (nd no_pos KExprUnary [(FRight, VEmb (nd no_pos KExprPostfix [(FValue, VEmb (nd no_pos KExprPrimary [(FIdent, VPtr (Some (nd no_pos KIdent [(FParts, VStrs (Some (tt, ["foo"])))])))]))]))]))]))]))]))]))]))]))]))]))]))])); (FCases, VList None)]));
("TestSwitch_FormattedString/One single case, no default", same (Some ("switch foo {" +:+ (String "010" "") +:+ (String "009" "") +:+ "case 1: {" +:+ (String "010" "") +:+ (String "009" "") +:+ (String "009" "") +:+ "2" +:+ (String "010" "") +:+ (String "009" "") +:+ "}" +:+ (String "010" "") +:+ "}")) (nd no_pos KExprSwitch [(FSelector, VEmb (nd no_pos KExprLogicalOr [(FLeft, VEmb (nd no_pos KExprLogicalAnd [(FLeft, VEmb (nd no_pos KExprBitwiseOr [(FLeft, VEmb (nd no_pos KExprBitwiseXor [(FLeft, VEmb (nd no_pos KExprBitwiseAnd [(FLeft, VEmb (nd no_pos KExprEquality [(FLeft, VEmb (nd no_pos KExprRelational [(FLeft, VEmb (nd no_pos KExprShift [(FLeft, VEmb (nd no_pos KExprAdditive [(FLeft, VEmb (nd no_pos KExprMultiplicative [(FLeft, VEmb (nd no_pos KExprUnary [(FRight, VEmb (nd no_pos KExprPostfix [(FValue, VEmb (nd no_pos KExprPrimary [(FIdent, VPtr (Some (nd no_pos KIdent [(FParts, VStrs (Some (tt, ["foo"])))])))]))]))]))]))]))]))]))]))]))]))]))]))])); (FCases, VList (Some (tt, [Some (nd no_pos KExprCase [(FConditions, VList (Some (tt, [Some (nd no_pos KExprLogicalOr [(FLeft, VEmb (nd no_pos KExprLogicalAnd [(FLeft, VEmb (nd no_pos KExprBitwiseOr [(FLeft, VEmb (nd no_pos KExprBitwiseXor [(FLeft, VEmb (nd no_pos KExprBitwiseAnd [(FLeft, VEmb (nd no_pos KExprEquality [(FLeft, VEmb (nd no_pos KExprRelational [(FLeft, VEmb (nd no_pos KExprShift [(FLeft, VEmb (nd no_pos KExprAdditive [(FLeft, VEmb (nd no_pos KExprMultiplicative [(FLeft, VEmb (nd no_pos KExprUnary [(FRight, VEmb (nd no_pos KExprPostfix [(FValue, VEmb (nd no_pos KExprPrimary [(FValue, VPtr (Some (nd no_pos KValue [(FNumber, VPtr (Some (nd no_pos KValueNumber [(FValue, VFloat (Some (tt, "1"))); (FSource, VStr "1")])))])))]))]))]))]))]))]))]))]))]))]))]))]))])]))); (FExpr, VPtr (Some (nd no_pos KExpr [(FLeft, VPtr (Some (nd no_pos KExprConditional [(FCondition, VEmb (nd no_pos KExprLogicalOr [(FLeft, VEmb (nd no_pos KExprLogicalAnd [(FLeft, VEmb (nd no_pos KExprBitwiseOr [(FLeft, VEmb (nd no_pos KExprBitwiseXor [(FLeft, VEmb (nd no_pos KExprBitwiseAnd [(FLeft, VEmb (nd no_pos KExprEquality [(FLeft, VEmb (nd no_pos KExprRelational [(FLeft, VEmb (nd no_pos KExprShift [(FLeft, VEmb (nd no_pos KExprAdditive [(FLeft, VEmb (nd no_pos KExprMultiplicative [(FLeft, VEmb (nd no_pos KExprUnary [(FRight, VEmb (nd no_pos KExprPostfix [(FValue, VEmb (nd no_pos KExprPrimary [(FValue, VPtr (Some (nd no_pos KValue [(FNumber, VPtr (Some (nd no_pos KValueNumber [(FValue, VFloat (Some (tt, "2"))); (FSource, VStr "2")])))])))]))]))]))]))]))]))]))]))]))]))]))]))]))])))])))])])))]));
("TestSwitch_FormattedString/One multiple case, no default", same (Some ("switch foo {" +:+ (String "010" "") +:+ (String "009" "") +:+ "case 1, 2: {" +:+ (String "010" "") +:+ (String "009" "") +:+ (String "009" "") +:+ "3" +:+ (String "010" "") +:+ (String "009" "") +:+ "}" +:+ (String "010" "") +:+ "}")) (nd no_pos KExprSwitch [(FSelector, VEmb (nd no_pos KExprLogicalOr [(FLeft, VEmb (nd no_pos KExprLogicalAnd [(FLeft, VEmb (nd no_pos KExprBitwiseOr [(FLeft, VEmb (nd no_pos KExprBitwiseXor [(FLeft, VEmb (nd no_pos KExprBitwiseAnd [(FLeft, VEmb (nd no_pos KExprEquality [(FLeft, VEmb (nd no_pos KExprRelational [(FLeft, VEmb (nd no_pos KExprShift [(FLeft, VEmb (nd no_pos KExprAdditive [(FLeft, VEmb (nd no_pos KExprMultiplicative [(FLeft, VEmb (nd no_pos KExprUnary [(FRight, VEmb (nd no_pos KExprPostfix [(FValue, VEmb (nd no_pos KExprPrimary [(FIdent, VPtr (Some (nd no_pos KIdent [(FParts, VStrs (Some (tt, ["foo"])))])))]))]))]))]))]))]))]))]))]))]))]))]))])); (FCases, VList (Some (tt, [Some (nd no_pos KExprCase [(FConditions, VList (Some (tt, [Some (nd no_pos KExprLogicalOr [(FLeft, VEmb (nd no_pos KExprLogicalAnd [(FLeft, VEmb (nd no_pos KExprBitwiseOr [(FLeft, VEmb (nd no_pos KExprBitwiseXor [(FLeft, VEmb (nd no_pos KExprBitwiseAnd [(FLeft, VEmb (nd no_pos KExprEquality [(FLeft, VEmb (nd no_pos KExprRelational [(FLeft, VEmb (nd no_pos KExprShift [(FLeft, VEmb (nd no_pos KExprAdditive [(FLeft, VEmb (nd no_pos KExprMultiplicative [(FLeft, VEmb (nd no_pos KExprUnary [(FRight, VEmb (nd no_pos KExprPostfix [(FValue, VEmb (nd no_pos KExprPrimary [(FValue, VPtr (Some (nd no_pos KValue [(FNumber, VPtr (Some (nd no_pos KValueNumber [(FValue, VFloat (Some (tt, "1"))); (FSource, VStr "1")])))])))]))]))]))]))]))]))]))]))]))]))]))]))]); Some (nd no_pos KExprLogicalOr [(FLeft, VEmb (nd no_pos KExprLogicalAnd [(FLeft, VEmb (nd no_pos KExprBitwiseOr [(FLeft, VEmb (nd no_pos KExprBitwiseXor [(FLeft, VEmb (nd no_pos KExprBitwiseAnd [(FLeft, VEmb (nd no_pos KExprEquality [(FLeft, VEmb (nd no_pos KExprRelational [(FLeft, VEmb (nd no_pos KExprShift [(FLeft, VEmb (nd no_pos KExprAdditive [(FLeft, VEmb (nd no_pos KExprMultiplicative [(FLeft, VEmb (nd no_pos KExprUnary [(FRight, VEmb (nd no_pos KExprPostfix [(FValue, VEmb (nd no_pos KExprPrimary [(FValue, VPtr (Some (nd no_pos KValue [(FNumber, VPtr (Some (nd no_pos KValueNumber [(FValue, VFloat (Some (tt, "2"))); (FSource, VStr "2")])))])))]))]))]))]))]))]))]))]))]))]))]))]))])]))); (FExpr, VPtr (Some (nd no_pos KExpr [(FLeft, VPtr (Some (nd no_pos KExprConditional [(FCondition, VEmb (nd no_pos KExprLogicalOr [(FLeft, VEmb (nd no_pos KExprLogicalAnd [(FLeft, VEmb (nd no_pos KExprBitwiseOr [(FLeft, VEmb (nd no_pos KExprBitwiseXor [(FLeft, VEmb (nd no_pos KExprBitwiseAnd [(FLeft, VEmb (nd no_pos KExprEquality [(FLeft, VEmb (nd no_pos KExprRelational [(FLeft, VEmb (nd no_pos KExprShift [(FLeft, VEmb (nd no_pos KExprAdditive [(FLeft, VEmb (nd no_pos KExprMultiplicative [(FLeft, VEmb (nd no_pos KExprUnary [(FRight, VEmb (nd no_pos KExprPostfix [(FValue, VEmb (nd no_pos KExprPrimary [(FValue, VPtr (Some (nd no_pos KValue [(FNumber, VPtr (Some (nd no_pos KValueNumber [(FValue, VFloat (Some (tt, "3"))); (FSource, VStr "3")])))])))]))]))]))]))]))]))]))]))]))]))]))]))]))])))])))])])))]));
("TestSwitch_FormattedString/Two single case, no default", same (Some ("switch foo {" +:+ (String "010" "") +:+ (String "009" "") +:+ "case 1: {" +:+ (String "010" "") +:+ (String "009" "") +:+ (String "009" "") +:+ "2" +:+ (String "010" "") +:+ (String "009" "") +:+ "}" +:+ (String "010" "") +:+ (String "009" "") +:+ "case 3: {" +:+ (String "010" "") +:+ (String "009" "") +:+ (String "009" "") +:+ "4" +:+ (String "010" "") +:+ (String "009" "") +:+ "}" +:+ (String "010" "") +:+ "}")) (nd no_pos KExprSwitch [(FSelector, VEmb (nd no_pos KExprLogicalOr [(FLeft, VEmb (nd no_pos KExprLogicalAnd [(FLeft, VEmb (nd no_pos KExprBitwiseOr [(FLeft, VEmb (nd no_pos KExprBitwiseXor [(FLeft, VEmb (nd no_pos KExprBitwiseAnd [(FLeft, VEmb (nd no_pos KExprEquality [(FLeft, VEmb (nd no_pos KExprRelational [(FLeft, VEmb (nd no_pos KExprShift [(FLeft, VEmb (nd no_pos KExprAdditive [(FLeft, VEmb (nd no_pos KExprMultiplicative [(FLeft, VEmb (nd no_pos KExprUnary [(FRight, VEmb (nd no_pos KExprPostfix [(FValue, VEmb (nd no_pos KExprPrimary [(FIdent, VPtr (Some (nd no_pos KIdent [(FParts, VStrs (Some (tt, ["foo"])))])))]))]))]))]))]))]))]))]))]))]))]))]))])); (FCases, VList (Some (tt, [Some (nd no_pos KExprCase [(FConditions, VList (Some (tt, [Some (nd no_pos KExprLogicalOr [(FLeft, VEmb (nd no_pos KExprLogicalAnd [(FLeft, VEmb (nd no_pos KExprBitwiseOr [(FLeft, VEmb (nd no_pos KExprBitwiseXor [(FLeft, VEmb (nd no_pos KExprBitwiseAnd [(FLeft, VEmb (nd no_pos KExprEquality [(FLeft, VEmb (nd no_pos KExprRelational [(FLeft, VEmb (nd no_pos KExprShift [(FLeft, VEmb (nd no_pos KExprAdditive [(FLeft, VEmb (nd no_pos KExprMultiplicative [(FLeft, VEmb (nd no_pos KExprUnary [(FRight, VEmb (nd no_pos KExprPostfix [(FValue, VEmb (nd no_pos KExprPrimary [(FValue, VPtr (Some (nd no_pos KValue [(FNumber, VPtr (Some (nd no_pos KValueNumber [(FValue, VFloat (Some (tt, "1"))); (FSource, VStr "1")])))])))]))]))]))]))]))]))]))]))]))]))]))]))])]))); (FExpr, VPtr (Some (nd no_pos KExpr [(FLeft, VPtr (Some (nd no_pos KExprConditional [(FCondition, VEmb (nd no_pos KExprLogicalOr [(FLeft, VEmb (nd no_pos KExprLogicalAnd [(FLeft, VEmb (nd no_pos KExprBitwiseOr [(FLeft, VEmb (nd no_pos KExprBitwiseXor [(FLeft, VEmb (nd no_pos KExprBitwiseAnd [(FLeft, VEmb (nd no_pos KExprEquality [(FLeft, VEmb (nd no_pos KExprRelational [(FLeft, VEmb (nd no_pos KExprShift [(FLeft, VEmb (nd no_pos KExprAdditive [(FLeft, VEmb (nd no_pos KExprMultiplicative [(FLeft, VEmb (nd no_pos KExprUnary [(FRight, VEmb (nd no_pos KExprPostfix [(FValue, VEmb (nd no_pos KExprPrimary [(FValue, VPtr (Some (nd no_pos KValue [(FNumber, VPtr (Some (nd no_pos KValueNumber [(FValue, VFloat (Some (tt, "2"))); (FSource, VStr "2")])))])))]))]))]))]))]))]))]))]))]))]))]))]))]))])))])))]); Some (nd no_pos KExprCase [(FConditions, VList (Some (tt, [Some (nd no_pos KExprLogicalOr [(FLeft, VEmb (nd no_pos KExprLogicalAnd [(FLeft, VEmb (nd no_pos KExprBitwiseOr [(FLeft, VEmb (nd no_pos KExprBitwiseXor [(FLeft, VEmb (nd no_pos KExprBitwiseAnd [(FLeft, VEmb (nd no_pos KExprEquality [(FLeft, VEmb (nd no_pos KExprRelational [(FLeft, VEmb (nd no_pos KExprShift [(FLeft, VEmb (nd no_pos KExprAdditive [(FLeft, VEmb (nd no_pos KExprMultiplicative [(FLeft, VEmb (nd no_pos KExprUnary [(FRight, VEmb (nd no_pos KExprPostfix [(FValue, VEmb (nd no_pos KExprPrimary [(FValue, VPtr (Some (nd no_pos KValue [(FNumber, VPtr (Some (nd no_pos KValueNumber [(FValue, VFloat (Some (tt, "3"))); (FSource, VStr "3")])))])))]))]))]))]))]))]))]))]))]))]))]))]))])]))); (FExpr, VPtr (Some (nd no_pos KExpr [(FLeft, VPtr (Some (nd no_pos KExprConditional [(FCondition, VEmb (nd no_pos KExprLogicalOr [(FLeft, VEmb (nd no_pos KExprLogicalAnd [(FLeft, VEmb (nd no_pos KExprBitwiseOr [(FLeft, VEmb (nd no_pos KExprBitwiseXor [(FLeft, VEmb (nd no_pos KExprBitwiseAnd [(FLeft, VEmb (nd no_pos KExprEquality [(FLeft, VEmb (nd no_pos KExprRelational [(FLeft, VEmb (nd no_pos KExprShift [(FLeft, VEmb (nd no_pos KExprAdditive [(FLeft, VEmb (nd no_pos KExprMultiplicative [(FLeft, VEmb (nd no_pos KExprUnary [(FRight, VEmb (nd no_pos KExprPostfix [(FValue, VEmb (nd no_pos KExprPrimary [(FValue, VPtr (Some (nd no_pos KValue [(FNumber, VPtr (Some (nd no_pos KValueNumber [(FValue, VFloat (Some (tt, "4"))); (FSource, VStr "4")])))])))]))]))]))]))]))]))]))]))]))]))]))]))]))])))])))])])))]));
("TestSwitch_FormattedString/Only default", same (Some ("switch foo {" +:+ (String "010" "") +:+ (String "009" "") +:+ "default: {" +:+ (String "010" "") +:+ (String "009" "") +:+ (String "009" "") +:+ "3" +:+ (String "010" "") +:+ (String "009" "") +:+ "}" +:+ (String "010" "") +:+ "}")) (nd no_pos KExprSwitch [(FSelector, VEmb (nd no_pos KExprLogicalOr [(FLeft, VEmb (nd no_pos KExprLogicalAnd [(FLeft, VEmb (nd no_pos KExprBitwiseOr [(FLeft, VEmb (nd no_pos KExprBitwiseXor [(FLeft, VEmb (nd no_pos KExprBitwiseAnd [(FLeft, VEmb (nd no_pos KExprEquality [(FLeft, VEmb (nd no_pos KExprRelational [(FLeft, VEmb (nd no_pos KExprShift [(FLeft, VEmb (nd no_pos KExprAdditive [(FLeft, VEmb (nd no_pos KExprMultiplicative [(FLeft, VEmb (nd no_pos KExprUnary [(FRight, VEmb (nd no_pos KExprPostfix [(FValue, VEmb (nd no_pos KExprPrimary [(FIdent, VPtr (Some (nd no_pos KIdent [(FParts, VStrs (Some (tt, ["foo"])))])))]))]))]))]))]))]))]))]))]))]))]))]))])); (FCases, VList (Some (tt, [Some (nd no_pos KExprCase [(FConditions, VList None); (FDefault, VBool true); (FExpr, VPtr (Some (nd no_pos KExpr [(FLeft, VPtr (Some (nd no_pos KExprConditional [(FCondition, VEmb (nd no_pos KExprLogicalOr [(FLeft, VEmb (nd no_pos KExprLogicalAnd [(FLeft, VEmb (nd no_pos KExprBitwiseOr [(FLeft, VEmb (nd no_pos KExprBitwiseXor [(FLeft, VEmb (nd no_pos KExprBitwiseAnd [(FLeft, VEmb (nd no_pos KExprEquality [(FLeft, VEmb (nd no_pos KExprRelational [(FLeft, VEmb (nd no_pos KExprShift [(FLeft, VEmb (nd no_pos KExprAdditive [(FLeft, VEmb (nd no_pos KExprMultiplicative [(FLeft, VEmb (nd no_pos KExprUnary [(FRight, VEmb (nd no_pos KExprPostfix [(FValue, VEmb (nd no_pos KExprPrimary [(FValue, VPtr (Some (nd no_pos KValue [(FNumber, VPtr (Some (nd no_pos KValueNumber [(FValue, VFloat (Some (tt, "3"))); (FSource, VStr "3")])))])))]))]))]))]))]))]))]))]))]))]))]))]))]))])))])))])])))]));
("TestSwitch_FormattedString/One single case, default", same (Some ("switch foo {" +:+ (String "010" "") +:+ (String "009" "") +:+ "case 1: {" +:+ (String "010" "") +:+ (String "009" "") +:+ (String "009" "") +:+ "2" +:+ (String "010" "") +:+ (String "009" "") +:+ "}" +:+ (String "010" "") +:+ (String "009" "") +:+ "default: {" +:+ (String "010" "") +:+ (String "009" "") +:+ (String "009" "") +:+ "3" +:+ (String "010" "") +:+ (String "009" "") +:+ "}" +:+ (String "010" "") +:+ "}")) (nd no_pos KExprSwitch [(FSelector, VEmb (nd no_pos KExprLogicalOr [(FLeft, VEmb (nd no_pos KExprLogicalAnd [(FLeft, VEmb (nd no_pos KExprBitwiseOr [(FLeft, VEmb (nd no_pos KExprBitwiseXor [(FLeft, VEmb (nd no_pos KExprBitwiseAnd [(FLeft, VEmb (nd no_pos KExprEquality [(FLeft, VEmb (nd no_pos KExprRelational [(FLeft, VEmb (nd no_pos KExprShift [(FLeft, VEmb (nd no_pos KExprAdditive [(FLeft, VEmb (nd no_pos KExprMultiplicative [(FLeft, VEmb (nd no_pos KExprUnary [(FRight, VEmb (nd no_pos KExprPostfix [(FValue, VEmb (nd no_pos KExprPrimary [(FIdent, VPtr (Some (nd no_pos KIdent [(FParts, VStrs (Some (tt, ["foo"])))])))]))]))]))]))]))]))]))]))]))]))]))]))])); (FCases, VList (Some (tt, [Some (nd no_pos KExprCase [(FConditions, VList (Some (tt, [Some (nd no_pos KExprLogicalOr [(FLeft, VEmb (nd no_pos KExprLogicalAnd [(FLeft, VEmb (nd no_pos KExprBitwiseOr [(FLeft, VEmb (nd no_pos KExprBitwiseXor [(FLeft, VEmb (nd no_pos KExprBitwiseAnd [(FLeft, VEmb (nd no_pos KExprEquality [(FLeft, VEmb (nd no_pos KExprRelational [(FLeft, VEmb (nd no_pos KExprShift [(FLeft, VEmb (nd no_pos KExprAdditive [(FLeft, VEmb (nd no_pos KExprMultiplicative [(FLeft, VEmb (nd no_pos KExprUnary [(FRight, VEmb (nd no_pos KExprPostfix [(FValue, VEmb (nd no_pos KExprPrimary [(FValue, VPtr (Some (nd no_pos KValue [(FNumber, VPtr (Some (nd no_pos KValueNumber [(FValue, VFloat (Some (tt, "1"))); (FSource, VStr "1")])))])))]))]))]))]))]))]))]))]))]))]))]))]))])]))); (FExpr, VPtr (Some (nd no_pos KExpr [(FLeft, VPtr (Some (nd no_pos KExprConditional [(FCondition, VEmb (nd no_pos KExprLogicalOr [(FLeft, VEmb (nd no_pos KExprLogicalAnd [(FLeft, VEmb (nd no_pos KExprBitwiseOr [(FLeft, VEmb (nd no_pos KExprBitwiseXor [(FLeft, VEmb (nd no_pos KExprBitwiseAnd [(FLeft, VEmb (nd no_pos KExprEquality [(FLeft, VEmb (nd no_pos KExprRelational [(FLeft, VEmb (nd no_pos KExprShift [(FLeft, VEmb (nd no_pos KExprAdditive [(FLeft, VEmb (nd no_pos KExprMultiplicative [(FLeft, VEmb (nd no_pos KExprUnary [(FRight, VEmb (nd no_pos KExprPostfix [(FValue, VEmb (nd no_pos KExprPrimary [(FValue, VPtr (Some (nd no_pos KValue [(FNumber, VPtr (Some (nd no_pos KValueNumber [(FValue, VFloat (Some (tt, "2"))); (FSource, VStr "2")])))])))]))]))]))]))]))]))]))]))]))]))]))]))]))])))])))]); Some (nd no_pos KExprCase [(FConditions, VList None); (FDefault, VBool true); (FExpr, VPtr (Some (nd no_pos KExpr [(FLeft, VPtr (Some (nd no_pos KExprConditional [(FCondition, VEmb (nd no_pos KExprLogicalOr [(FLeft, VEmb (nd no_pos KExprLogicalAnd [(FLeft, VEmb (nd no_pos KExprBitwiseOr [(FLeft, VEmb (nd no_pos KExprBitwiseXor [(FLeft, VEmb (nd no_pos KExprBitwiseAnd [(FLeft, VEmb (nd no_pos KExprEquality [(FLeft, VEmb (nd no_pos KExprRelational [(FLeft, VEmb (nd no_pos KExprShift [(FLeft, VEmb (nd no_pos KExprAdditive [(FLeft, VEmb (nd no_pos KExprMultiplicative [(FLeft, VEmb (nd no_pos KExprUnary [(FRight, VEmb (nd no_pos KExprPostfix [(FValue, VEmb (nd no_pos KExprPrimary [(FValue, VPtr (Some (nd no_pos KValue [(FNumber, VPtr (Some (nd no_pos KValueNumber [(FValue, VFloat (Some (tt, "3"))); (FSource, VStr "3")])))])))]))]))]))]))]))]))]))]))]))]))]))]))]))])))])))])])))]));
("TestCase_FormattedString/Empty", same None (nd no_pos KExprCase []));
("TestCase_FormattedString/One condition", same (Some ("case 1: {" +:+ (String "010" "") +:+ (String "009" "") +:+ "2" +:+ (String "010" "") +:+ "}")) (nd no_pos KExprCase [(FConditions, VList (Some (tt, [Some (nd no_pos KExprLogicalOr [(FLeft, VEmb (nd no_pos KExprLogicalAnd [(FLeft, VEmb (nd no_pos KExprBitwiseOr [(FLeft, VEmb (nd no_pos KExprBitwiseXor [(FLeft, VEmb (nd no_pos KExprBitwiseAnd [(FLeft, VEmb (nd no_pos KExprEquality [(FLeft, VEmb (nd no_pos KExprRelational [(FLeft, VEmb (nd no_pos KExprShift [(FLeft, VEmb (nd no_pos KExprAdditive [(FLeft, VEmb (nd no_pos KExprMultiplicative [(FLeft, VEmb (nd no_pos KExprUnary [(FRight, VEmb (nd no_pos KExprPostfix [(FValue, VEmb (nd no_pos KExprPrimary [(FValue, VPtr (Some (nd no_pos KValue [(FNumber, VPtr (Some (nd no_pos KValueNumber [(FValue, VFloat (Some (tt, "1"))); (FSource, VStr "1")])))])))]))]))]))]))]))]))]))]))]))]))]))]))])]))); (FDefault, VBool false); (FExpr, VPtr (Some (nd no_pos KExpr [(FLeft, VPtr (Some (nd no_pos KExprConditional [(FCondition, VEmb (nd no_pos KExprLogicalOr [(FLeft, VEmb (nd no_pos KExprLogicalAnd [(FLeft, VEmb (nd no_pos KExprBitwiseOr [(FLeft, VEmb (nd no_pos KExprBitwiseXor [(FLeft, VEmb (nd no_pos KExprBitwiseAnd [(FLeft, VEmb (nd no_pos KExprEquality [(FLeft, VEmb (nd no_pos KExprRelational [(FLeft, VEmb (nd no_pos KExprShift [(FLeft, VEmb (nd no_pos KExprAdditive [(FLeft, VEmb (nd no_pos KExprMultiplicative [(FLeft, VEmb (nd no_pos KExprUnary [(FRight, VEmb (nd no_pos KExprPostfix [(FValue, VEmb (nd no_pos KExprPrimary [(FValue, VPtr (Some (nd no_pos KValue [(FNumber, VPtr (Some (nd no_pos KValueNumber [(FValue, VFloat (Some (tt, "2"))); (FSource, VStr "2")])))])))]))]))]))]))]))]))]))]))]))]))]))]))]))])))])))]));
("TestCase_FormattedString/Several condition", same (Some ("case 1, 2: {" +:+ (String "010" "") +:+ (String "009" "") +:+ "3" +:+ (String "010" "") +:+ "}")) (nd no_pos KExprCase [(FConditions, VList (Some (tt, [Some (nd no_pos KExprLogicalOr [(FLeft, VEmb (nd no_pos KExprLogicalAnd [(FLeft, VEmb (nd no_pos KExprBitwiseOr [(FLeft, VEmb (nd no_pos KExprBitwiseXor [(FLeft, VEmb (nd no_pos KExprBitwiseAnd [(FLeft, VEmb (nd no_pos KExprEquality [(FLeft, VEmb (nd no_pos KExprRelational [(FLeft, VEmb (nd no_pos KExprShift [(FLeft, VEmb (nd no_pos KExprAdditive [(FLeft, VEmb (nd no_pos KExprMultiplicative [(FLeft, VEmb (nd no_pos KExprUnary [(FRight, VEmb (nd no_pos KExprPostfix [(FValue, VEmb (nd no_pos KExprPrimary [(FValue, VPtr (Some (nd no_pos KValue [(FNumber, VPtr (Some (nd no_pos KValueNumber [(FValue, VFloat (Some (tt, "1"))); (FSource, VStr "1")])))])))]))]))]))]))]))]))]))]))]))]))]))]))]); Some (nd no_pos KExprLogicalOr [(FLeft, VEmb (nd no_pos KExprLogicalAnd [(FLeft, VEmb (nd no_pos KExprBitwiseOr [(FLeft, VEmb (nd no_pos KExprBitwiseXor [(FLeft, VEmb (nd no_pos KExprBitwiseAnd [(FLeft, VEmb (nd no_pos KExprEquality [(FLeft, VEmb (nd no_pos KExprRelational [(FLeft, VEmb (nd no_pos KExprShift [(FLeft, VEmb (nd no_pos KExprAdditive [(FLeft, VEmb (nd no_pos KExprMultiplicative [(FLeft, VEmb (nd no_pos KExprUnary [(FRight, VEmb (nd no_pos KExprPostfix [(FValue, VEmb (nd no_pos KExprPrimary [(FValue, VPtr (Some (nd no_pos KValue [(FNumber, VPtr (Some (nd no_pos KValueNumber [(FValue, VFloat (Some (tt, "2"))); (FSource, VStr "2")])))])))]))]))]))]))]))]))]))]))]))]))]))]))])]))); (FDefault, VBool false); (FExpr, VPtr (Some (nd no_pos KExpr [(FLeft, VPtr (Some (nd no_pos KExprConditional [(FCondition, VEmb (nd no_pos KExprLogicalOr [(FLeft, VEmb (nd no_pos KExprLogicalAnd [(FLeft, VEmb (nd no_pos KExprBitwiseOr [(FLeft, VEmb (nd no_pos KExprBitwiseXor [(FLeft, VEmb (nd no_pos KExprBitwiseAnd [(FLeft, VEmb (nd no_pos KExprEquality [(FLeft, VEmb (nd no_pos KExprRelational [(FLeft, VEmb (nd no_pos KExprShift [(FLeft, VEmb (nd no_pos KExprAdditive [(FLeft, VEmb (nd no_pos KExprMultiplicative [(FLeft, VEmb (nd no_pos KExprUnary [(FRight, VEmb (nd no_pos KExprPostfix [(FValue, VEmb (nd no_pos KExprPrimary [(FValue, VPtr (Some (nd no_pos KValue [(FNumber, VPtr (Some (nd no_pos KValueNumber [(FValue, VFloat (Some (tt, "3"))); (FSource, VStr "3")])))])))]))]))]))]))]))]))]))]))]))]))]))]))]))])))])))]));
("TestCase_FormattedString/Default", same (Some ("default: {" +:+ (String "010" "") +:+ (String "009" "") +:+ "3" +:+ (String "010" "") +:+ "}")) (nd no_pos KExprCase [(FConditions, VList None); (FDefault, VBool true); (FExpr, VPtr (Some (nd no_pos KExpr [(FLeft, VPtr (Some (nd no_pos KExprConditional [(FCondition, VEmb (nd no_pos KExprLogicalOr [(FLeft, VEmb (nd no_pos KExprLogicalAnd [(FLeft, VEmb (nd no_pos KExprBitwiseOr [(FLeft, VEmb (nd no_pos KExprBitwiseXor [(FLeft, VEmb (nd no_pos KExprBitwiseAnd [(FLeft, VEmb (nd no_pos KExprEquality [(FLeft, VEmb (nd no_pos KExprRelational [(FLeft, VEmb (nd no_pos KExprShift [(FLeft, VEmb (nd no_pos KExprAdditive [(FLeft, VEmb (nd no_pos KExprMultiplicative [(FLeft, VEmb (nd no_pos KExprUnary [(FRight, VEmb (nd no_pos KExprPostfix [(FValue, VEmb (nd no_pos KExprPrimary [(FValue, VPtr (Some (nd no_pos KValue [(FNumber, VPtr (Some (nd no_pos KValueNumber [(FValue, VFloat (Some (tt, "3"))); (FSource, VStr "3")])))])))]))]))]))]))]))]))]))]))]))]))]))]))]))])))])))]));
("TestConditional_FormattedString/Only Condition", same (Some "1") (nd no_pos KExprConditional [(FCondition, VEmb (nd no_pos KExprLogicalOr [(FLeft, VEmb (nd no_pos KExprLogicalAnd [(FLeft, VEmb (nd no_pos KExprBitwiseOr [(FLeft, VEmb (nd no_pos KExprBitwiseXor [(FLeft, VEmb (nd no_pos KExprBitwiseAnd [(FLeft, VEmb (nd no_pos KExprEquality [(FLeft, VEmb (nd no_pos KExprRelational [(FLeft, VEmb (nd no_pos KExprShift [(FLeft, VEmb (nd no_pos KExprAdditive [(FLeft, VEmb (nd no_pos KExprMultiplicative [(FLeft, VEmb (nd no_pos KExprUnary [(FRight, VEmb (nd no_pos KExprPostfix [(FValue, VEmb (nd no_pos KExprPrimary [(FValue, VPtr (Some (nd no_pos KValue [(FNumber, VPtr (Some (nd no_pos KValueNumber [(FValue, VFloat (Some (tt, "1"))); (FSource, VStr "1")])))])))]))]))]))]))]))]))]))]))]))]))]))]))]))]));
("TestConditional_FormattedString/All expressions but not operators", same (Some "1") (nd no_pos KExprConditional [(FCondition, VEmb (nd no_pos KExprLogicalOr [(FLeft, VEmb (nd no_pos KExprLogicalAnd [(FLeft, VEmb (nd no_pos KExprBitwiseOr [(FLeft, VEmb (nd no_pos KExprBitwiseXor [(FLeft, VEmb (nd no_pos KExprBitwiseAnd [(FLeft, VEmb (nd no_pos KExprEquality [(FLeft, VEmb (nd no_pos KExprRelational [(FLeft, VEmb (nd no_pos KExprShift [(FLeft, VEmb (nd no_pos KExprAdditive [(FLeft, VEmb (nd no_pos KExprMultiplicative [(FLeft, VEmb (nd no_pos KExprUnary [(FRight, VEmb (nd no_pos KExprPostfix [(FValue, VEmb (nd no_pos KExprPrimary [(FValue, VPtr (Some (nd no_pos KValue [(FNumber, VPtr (Some (nd no_pos KValueNumber [(FValue, VFloat (Some (tt, "1"))); (FSource, VStr "1")])))])))]))]))]))]))]))]))]))]))]))]))]))]))])); (FTrueExpr, VPtr (Some (nd no_pos KExpr [(FLeft, VPtr (Some (nd no_pos KExprConditional [(FCondition, VEmb (nd no_pos KExprLogicalOr [(FLeft, VEmb (nd no_pos KExprLogicalAnd [(FLeft, VEmb (nd no_pos KExprBitwiseOr [(FLeft, VEmb (nd no_pos KExprBitwiseXor [(FLeft, VEmb (nd no_pos KExprBitwiseAnd [(FLeft, VEmb (nd no_pos KExprEquality [(FLeft, VEmb (nd no_pos KExprRelational [(FLeft, VEmb (nd no_pos KExprShift [(FLeft, VEmb (nd no_pos KExprAdditive [(FLeft, VEmb (nd no_pos KExprMultiplicative [(FLeft, VEmb (nd no_pos KExprUnary [(FRight, VEmb (nd no_pos KExprPostfix [(FValue, VEmb (nd no_pos KExprPrimary [(FValue, VPtr (Some (nd no_pos KValue [(FNumber, VPtr (Some (nd no_pos KValueNumber [(FValue, VFloat (Some (tt, "2"))); (FSource, VStr "2")])))])))]))]))]))]))]))]))]))]))]))]))]))]))]))])))]))); (FFalseExpr, VPtr (Some (nd no_pos KExpr [(FLeft, VPtr (Some (nd no_pos KExprConditional [(FCondition, VEmb (nd no_pos KExprLogicalOr [(FLeft, VEmb (nd no_pos KExprLogicalAnd [(FLeft, VEmb (nd no_pos KExprBitwiseOr [(FLeft, VEmb (nd no_pos KExprBitwiseXor [(FLeft, VEmb (nd no_pos KExprBitwiseAnd [(FLeft, VEmb (nd no_pos KExprEquality [(FLeft, VEmb (nd no_pos KExprRelational [(FLeft, VEmb (nd no_pos KExprShift [(FLeft, VEmb (nd no_pos KExprAdditive [(FLeft, VEmb (nd no_pos KExprMultiplicative [(FLeft, VEmb (nd no_pos KExprUnary [(FRight, VEmb (nd no_pos KExprPostfix [(FValue, VEmb (nd no_pos KExprPrimary [(FValue, VPtr (Some (nd no_pos KValue [(FNumber, VPtr (Some (nd no_pos KValueNumber [(FValue, VFloat (Some (tt, "3"))); (FSource, VStr "3")])))])))]))]))]))]))]))]))]))]))]))]))]))]))]))])))])))]));
("TestConditional_FormattedString/Operator with neither True nor False", same (Some "1 ? null : null") (nd no_pos KExprConditional [(FCondition, VEmb (nd no_pos KExprLogicalOr [(FLeft, VEmb (nd no_pos KExprLogicalAnd [(FLeft, VEmb (nd no_pos KExprBitwiseOr [(FLeft, VEmb (nd no_pos KExprBitwiseXor [(FLeft, VEmb (nd no_pos KExprBitwiseAnd [(FLeft, VEmb (nd no_pos KExprEquality [(FLeft, VEmb (nd no_pos KExprRelational [(FLeft, VEmb (nd no_pos KExprShift [(FLeft, VEmb (nd no_pos KExprAdditive [(FLeft, VEmb (nd no_pos KExprMultiplicative [(FLeft, VEmb (nd no_pos KExprUnary [(FRight, VEmb (nd no_pos KExprPostfix [(FValue, VEmb (nd no_pos KExprPrimary [(FValue, VPtr (Some (nd no_pos KValue [(FNumber, VPtr (Some (nd no_pos KValueNumber [(FValue, VFloat (Some (tt, "1"))); (FSource, VStr "1")])))])))]))]))]))]))]))]))]))]))]))]))]))]))])); (FConditionOp, VBool true)]));
("TestConditional_FormattedString/Only True expression", same (Some "1 ? 2 : null") (nd no_pos KExprConditional [(FCondition, VEmb (nd no_pos KExprLogicalOr [(FLeft, VEmb (nd no_pos KExprLogicalAnd [(FLeft, VEmb (nd no_pos KExprBitwiseOr [(FLeft, VEmb (nd no_pos KExprBitwiseXor [(FLeft, VEmb (nd no_pos KExprBitwiseAnd [(FLeft, VEmb (nd no_pos KExprEquality [(FLeft, VEmb (nd no_pos KExprRelational [(FLeft, VEmb (nd no_pos KExprShift [(FLeft, VEmb (nd no_pos KExprAdditive [(FLeft, VEmb (nd no_pos KExprMultiplicative [(FLeft, VEmb (nd no_pos KExprUnary [(FRight, VEmb (nd no_pos KExprPostfix [(FValue, VEmb (nd no_pos KExprPrimary [(FValue, VPtr (Some (nd no_pos KValue [(FNumber, VPtr (Some (nd no_pos KValueNumber [(FValue, VFloat (Some (tt, "1"))); (FSource, VStr "1")])))])))]))]))]))]))]))]))]))]))]))]))]))]))])); (FConditionOp, VBool true); (FTrueExpr, VPtr (Some (nd no_pos KExpr [(FLeft, VPtr (Some (nd no_pos KExprConditional [(FCondition, VEmb (nd no_pos KExprLogicalOr [(FLeft, VEmb (nd no_pos KExprLogicalAnd [(FLeft, VEmb (nd no_pos KExprBitwiseOr [(FLeft, VEmb (nd no_pos KExprBitwiseXor [(FLeft, VEmb (nd no_pos KExprBitwiseAnd [(FLeft, VEmb (nd no_pos KExprEquality [(FLeft, VEmb (nd no_pos KExprRelational [(FLeft, VEmb (nd no_pos KExprShift [(FLeft, VEmb (nd no_pos KExprAdditive [(FLeft, VEmb (nd no_pos KExprMultiplicative [(FLeft, VEmb (nd no_pos KExprUnary [(FRight, VEmb (nd no_pos KExprPostfix [(FValue, VEmb (nd no_pos KExprPrimary [(FValue, VPtr (Some (nd no_pos KValue [(FNumber, VPtr (Some (nd no_pos KValueNumber [(FValue, VFloat (Some (tt, "2"))); (FSource, VStr "2")])))])))]))]))]))]))]))]))]))]))]))]))]))]))]))])))])))]));
("TestConditional_FormattedString/Only False expression", same (Some "1 ? null : 3") (nd no_pos KExprConditional [(FCondition, VEmb (nd no_pos KExprLogicalOr [(FLeft, VEmb (nd no_pos KExprLogicalAnd [(FLeft, VEmb (nd no_pos KExprBitwiseOr [(FLeft, VEmb (nd no_pos KExprBitwiseXor [(FLeft, VEmb (nd no_pos KExprBitwiseAnd [(FLeft, VEmb (nd no_pos KExprEquality [(FLeft, VEmb (nd no_pos KExprRelational [(FLeft, VEmb (nd no_pos KExprShift [(FLeft, VEmb (nd no_pos KExprAdditive [(FLeft, VEmb (nd no_pos KExprMultiplicative [(FLeft, VEmb (nd no_pos KExprUnary [(FRight, VEmb (nd no_pos KExprPostfix [(FValue, VEmb (nd no_pos KExprPrimary [(FValue, VPtr (Some (nd no_pos KValue [(FNumber, VPtr (Some (nd no_pos KValueNumber [(FValue, VFloat (Some (tt, "1"))); (FSource, VStr "1")])))])))]))]))]))]))]))]))]))]))]))]))]))]))])); (FConditionOp, VBool true); (FFalseExpr, VPtr (Some (nd no_pos KExpr [(FLeft, VPtr (Some (nd no_pos KExprConditional [(FCondition, VEmb (nd no_pos KExprLogicalOr [(FLeft, VEmb (nd no_pos KExprLogicalAnd [(FLeft, VEmb (nd no_pos KExprBitwiseOr [(FLeft, VEmb (nd no_pos KExprBitwiseXor [(FLeft, VEmb (nd no_pos KExprBitwiseAnd [(FLeft, VEmb (nd no_pos KExprEquality [(FLeft, VEmb (nd no_pos KExprRelational [(FLeft, VEmb (nd no_pos KExprShift [(FLeft, VEmb (nd no_pos KExprAdditive [(FLeft, VEmb (nd no_pos KExprMultiplicative [(FLeft, VEmb (nd no_pos KExprUnary [(FRight, VEmb (nd no_pos KExprPostfix [(FValue, VEmb (nd no_pos KExprPrimary [(FValue, VPtr (Some (nd no_pos KValue [(FNumber, VPtr (Some (nd no_pos KValueNumber [(FValue, VFloat (Some (tt, "3"))); (FSource, VStr "3")])))])))]))]))]))]))]))]))]))]))]))]))]))]))]))])))])))]));
("TestConditional_FormattedString/All parts", same (Some "1 ? 2 : 3") (nd no_pos KExprConditional [(FCondition, VEmb (nd no_pos KExprLogicalOr [(FLeft, VEmb (nd no_pos KExprLogicalAnd [(FLeft, VEmb (nd no_pos KExprBitwiseOr [(FLeft, VEmb (nd no_pos KExprBitwiseXor [(FLeft, VEmb (nd no_pos KExprBitwiseAnd [(FLeft, VEmb (nd no_pos KExprEquality [(FLeft, VEmb (nd no_pos KExprRelational [(FLeft, VEmb (nd no_pos KExprShift [(FLeft, VEmb (nd no_pos KExprAdditive [(FLeft, VEmb (nd no_pos KExprMultiplicative [(FLeft, VEmb (nd no_pos KExprUnary [(FRight, VEmb (nd no_pos KExprPostfix [(FValue, VEmb (nd no_pos KExprPrimary [(FValue, VPtr (Some (nd no_pos KValue [(FNumber, VPtr (Some (nd no_pos KValueNumber [(FValue, VFloat (Some (tt, "1"))); (FSource, VStr "1")])))])))]))]))]))]))]))]))]))]))]))]))]))]))])); (FConditionOp, VBool true); (FTrueExpr, VPtr (Some (nd no_pos KExpr [(FLeft, VPtr (Some (nd no_pos KExprConditional [(FCondition, VEmb (nd no_pos KExprLogicalOr [(FLeft, VEmb (nd no_pos KExprLogicalAnd [(FLeft, VEmb (nd no_pos KExprBitwiseOr [(FLeft, VEmb (nd no_pos KExprBitwiseXor [(FLeft, VEmb (nd no_pos KExprBitwiseAnd [(FLeft, VEmb (nd no_pos KExprEquality [(FLeft, VEmb (nd no_pos KExprRelational [(FLeft, VEmb (nd no_pos KExprShift [(FLeft, VEmb (nd no_pos KExprAdditive [(FLeft, VEmb (nd no_pos KExprMultiplicative [(FLeft, VEmb (nd no_pos KExprUnary [(FRight, VEmb (nd no_pos KExprPostfix [(FValue, VEmb (nd no_pos KExprPrimary [(FValue, VPtr (Some (nd no_pos KValue [(FNumber, VPtr (Some (nd no_pos KValueNumber [(FValue, VFloat (Some (tt, "2"))); (FSource, VStr "2")])))])))]))]))]))]))]))]))]))]))]))]))]))]))]))])))]))); (FFalseExpr, VPtr (Some (nd no_pos KExpr [(FLeft, VPtr (Some (nd no_pos KExprConditional [(FCondition, VEmb (nd no_pos KExprLogicalOr [(FLeft, VEmb (nd no_pos KExprLogicalAnd [(FLeft, VEmb (nd no_pos KExprBitwiseOr [(FLeft, VEmb (nd no_pos KExprBitwiseXor [(FLeft, VEmb (nd no_pos KExprBitwiseAnd [(FLeft, VEmb (nd no_pos KExprEquality [(FLeft, VEmb (nd no_pos KExprRelational [(FLeft, VEmb (nd no_pos KExprShift [(FLeft, VEmb (nd no_pos KExprAdditive [(FLeft, VEmb (nd no_pos KExprMultiplicative [(FLeft, VEmb (nd no_pos KExprUnary [(FRight, VEmb (nd no_pos KExprPostfix [(FValue, VEmb (nd no_pos KExprPrimary [(FValue, VPtr (Some (nd no_pos KValue [(FNumber, VPtr (Some (nd no_pos KValueNumber [(FValue, VFloat (Some (tt, "3"))); (FSource, VStr "3")])))])))]))]))]))]))]))]))]))]))]))]))]))]))]))])))])))]));
("TestLogicalOr_FormattedString/Empty", same None (nd no_pos KExprLogicalOr []));
("TestLogicalOr_FormattedString/Left", same (Some "1") (nd no_pos KExprLogicalOr [(FLeft, VEmb (nd no_pos KExprLogicalAnd [(FLeft, VEmb (nd no_pos KExprBitwiseOr [(FLeft, VEmb (nd no_pos KExprBitwiseXor [(FLeft, VEmb (nd no_pos KExprBitwiseAnd [(FLeft, VEmb (nd no_pos KExprEquality [(FLeft, VEmb (nd no_pos KExprRelational [(FLeft, VEmb (nd no_pos KExprShift [(FLeft, VEmb (nd no_pos KExprAdditive [(FLeft, VEmb (nd no_pos KExprMultiplicative [(FLeft, VEmb (nd no_pos KExprUnary [(FRight, VEmb (nd no_pos KExprPostfix [(FValue, VEmb (nd no_pos KExprPrimary [(FValue, VPtr (Some (nd no_pos KValue [(FNumber, VPtr (Some (nd no_pos KValueNumber [(FValue, VFloat (Some (tt, "1"))); (FSource, VStr "1")])))])))]))]))]))]))]))]))]))]))]))]))]))]))]));
("TestLogicalOr_FormattedString/Operator without right side", same None (nd no_pos KExprLogicalOr [(FLeft, VEmb (nd no_pos KExprLogicalAnd [])); (FOp, VStr "||")]));
("TestLogicalOr_FormattedString/Both sides", same (Some "1 || 2") (nd no_pos KExprLogicalOr [(FLeft, VEmb (nd no_pos KExprLogicalAnd [(FLeft, VEmb (nd no_pos KExprBitwiseOr [(FLeft, VEmb (nd no_pos KExprBitwiseXor [(FLeft, VEmb (nd no_pos KExprBitwiseAnd [(FLeft, VEmb (nd no_pos KExprEquality [(FLeft, VEmb (nd no_pos KExprRelational [(FLeft, VEmb (nd no_pos KExprShift [(FLeft, VEmb (nd no_pos KExprAdditive [(FLeft, VEmb (nd no_pos KExprMultiplicative [(FLeft, VEmb (nd no_pos KExprUnary [(FRight, VEmb (nd no_pos KExprPostfix [(FValue, VEmb (nd no_pos KExprPrimary [(FValue, VPtr (Some (nd no_pos KValue [(FNumber, VPtr (Some (nd no_pos KValueNumber [(FValue, VFloat (Some (tt, "1"))); (FSource, VStr "1")])))])))]))]))]))]))]))]))]))]))]))]))]))])); (FOp, VStr "||"); (FRight, VPtr (Some (nd no_pos KExprLogicalOr [(FLeft, VEmb (nd no_pos KExprLogicalAnd [(FLeft, VEmb (nd no_pos KExprBitwiseOr [(FLeft, VEmb (nd no_pos KExprBitwiseXor [(FLeft, VEmb (nd no_pos KExprBitwiseAnd [(FLeft, VEmb (nd no_pos KExprEquality [(FLeft, VEmb (nd no_pos KExprRelational [(FLeft, VEmb (nd no_pos KExprShift [(FLeft, VEmb (nd no_pos KExprAdditive [(FLeft, VEmb (nd no_pos KExprMultiplicative [(FLeft, VEmb (nd no_pos KExprUnary [(FRight, VEmb (nd no_pos KExprPostfix [(FValue, VEmb (nd no_pos KExprPrimary [(FValue, VPtr (Some (nd no_pos KValue [(FNumber, VPtr (Some (nd no_pos KValueNumber [(FValue, VFloat (Some (tt, "2"))); (FSource, VStr "2")])))])))]))]))]))]))]))]))]))]))]))]))]))]))])))]));
("TestLogicalAnd_FormattedString/Empty", same None (nd no_pos KExprLogicalAnd []));
("TestLogicalAnd_FormattedString/Left", same (Some "1") (nd no_pos KExprLogicalAnd [(FLeft, VEmb (nd no_pos KExprBitwiseOr [(FLeft, VEmb (nd no_pos KExprBitwiseXor [(FLeft, VEmb (nd no_pos KExprBitwiseAnd [(FLeft, VEmb (nd no_pos KExprEquality [(FLeft, VEmb (nd no_pos KExprRelational [(FLeft, VEmb (nd no_pos KExprShift [(FLeft, VEmb (nd no_pos KExprAdditive [(FLeft, VEmb (nd no_pos KExprMultiplicative [(FLeft, VEmb (nd no_pos KExprUnary [(FRight, VEmb (nd no_pos KExprPostfix [(FValue, VEmb (nd no_pos KExprPrimary [(FValue, VPtr (Some (nd no_pos KValue [(FNumber, VPtr (Some (nd no_pos KValueNumber [(FValue, VFloat (Some (tt, "1"))); (FSource, VStr "1")])))])))]))]))]))]))]))]))]))]))]))]))]))]));
("TestLogicalAnd_FormattedString/Operator without right side", same None (nd no_pos KExprLogicalAnd [(FLeft, VEmb (nd no_pos KExprBitwiseOr [])); (FOp, VStr "&&")]));
("TestLogicalAnd_FormattedString/Both sides", same (Some "1 && 2") (nd no_pos KExprLogicalAnd [(FLeft, VEmb (nd no_pos KExprBitwiseOr [(FLeft, VEmb (nd no_pos KExprBitwiseXor [(FLeft, VEmb (nd no_pos KExprBitwiseAnd [(FLeft, VEmb (nd no_pos KExprEquality [(FLeft, VEmb (nd no_pos KExprRelational [(FLeft, VEmb (nd no_pos KExprShift [(FLeft, VEmb (nd no_pos KExprAdditive [(FLeft, VEmb (nd no_pos KExprMultiplicative [(FLeft, VEmb (nd no_pos KExprUnary [(FRight, VEmb (nd no_pos KExprPostfix [(FValue, VEmb (nd no_pos KExprPrimary [(FValue, VPtr (Some (nd no_pos KValue [(FNumber, VPtr (Some (nd no_pos KValueNumber [(FValue, VFloat (Some (tt, "1"))); (FSource, VStr "1")])))])))]))]))]))]))]))]))]))]))]))]))])); (FOp, VStr "&&"); (FRight, VPtr (Some (nd no_pos KExprLogicalAnd [(FLeft, VEmb (nd no_pos KExprBitwiseOr [(FLeft, VEmb (nd no_pos KExprBitwiseXor [(FLeft, VEmb (nd no_pos KExprBitwiseAnd [(FLeft, VEmb (nd no_pos KExprEquality [(FLeft, VEmb (nd no_pos KExprRelational [(FLeft, VEmb (nd no_pos KExprShift [(FLeft, VEmb (nd no_pos KExprAdditive [(FLeft, VEmb (nd no_pos KExprMultiplicative [(FLeft, VEmb (nd no_pos KExprUnary [(FRight, VEmb (nd no_pos KExprPostfix [(FValue, VEmb (nd no_pos KExprPrimary [(FValue, VPtr (Some (nd no_pos KValue [(FNumber, VPtr (Some (nd no_pos KValueNumber [(FValue, VFloat (Some (tt, "2"))); (FSource, VStr "2")])))])))]))]))]))]))]))]))]))]))]))]))]))])))]));
("TestBitwiseOr_FormattedString/Empty", same None (nd no_pos KExprBitwiseOr []));
("TestBitwiseOr_FormattedString/Left", same (Some "1") (nd no_pos KExprBitwiseOr [(FLeft, VEmb (nd no_pos KExprBitwiseXor [(FLeft, VEmb (nd no_pos KExprBitwiseAnd [(FLeft, VEmb (nd no_pos KExprEquality [(FLeft, VEmb (nd no_pos KExprRelational [(FLeft, VEmb (nd no_pos KExprShift [(FLeft, VEmb (nd no_pos KExprAdditive [(FLeft, VEmb (nd no_pos KExprMultiplicative [(FLeft, VEmb (nd no_pos KExprUnary [(FRight, VEmb (nd no_pos KExprPostfix [(FValue, VEmb (nd no_pos KExprPrimary [(FValue, VPtr (Some (nd no_pos KValue [(FNumber, VPtr (Some (nd no_pos KValueNumber [(FValue, VFloat (Some (tt, "1"))); (FSource, VStr "1")])))])))]))]))]))]))]))]))]))]))]))]))]));
("TestBitwiseOr_FormattedString/Operator without right side", same None (nd no_pos KExprBitwiseOr [(FLeft, VEmb (nd no_pos KExprBitwiseXor [])); (FOp, VStr "|")]));
("TestBitwiseOr_FormattedString/Both sides", same (Some "1 | 2") (nd no_pos KExprBitwiseOr [(FLeft, VEmb (nd no_pos KExprBitwiseXor [(FLeft, VEmb (nd no_pos KExprBitwiseAnd [(FLeft, VEmb (nd no_pos KExprEquality [(FLeft, VEmb (nd no_pos KExprRelational [(FLeft, VEmb (nd no_pos KExprShift [(FLeft, VEmb (nd no_pos KExprAdditive [(FLeft, VEmb (nd no_pos KExprMultiplicative [(FLeft, VEmb (nd no_pos KExprUnary [(FRight, VEmb (nd no_pos KExprPostfix [(FValue, VEmb (nd no_pos KExprPrimary [(FValue, VPtr (Some (nd no_pos KValue [(FNumber, VPtr (Some (nd no_pos KValueNumber [(FValue, VFloat (Some (tt, "1"))); (FSource, VStr "1")])))])))]))]))]))]))]))]))]))]))]))])); (FOp, VStr "|"); (FRight, VPtr (Some (nd no_pos KExprBitwiseOr [(FLeft, VEmb (nd no_pos KExprBitwiseXor [(FLeft, VEmb (nd no_pos KExprBitwiseAnd [(FLeft, VEmb (nd no_pos KExprEquality [(FLeft, VEmb (nd no_pos KExprRelational [(FLeft, VEmb (nd no_pos KExprShift [(FLeft, VEmb (nd no_pos KExprAdditive [(FLeft, VEmb (nd no_pos KExprMultiplicative [(FLeft, VEmb (nd no_pos KExprUnary [(FRight, VEmb (nd no_pos KExprPostfix [(FValue, VEmb (nd no_pos KExprPrimary [(FValue, VPtr (Some (nd no_pos KValue [(FNumber, VPtr (Some (nd no_pos KValueNumber [(FValue, VFloat (Some (tt, "2"))); (FSource, VStr "2")])))])))]))]))]))]))]))]))]))]))]))]))])))]));
("TestBitwiseXor_FormattedString/Empty", same None (nd no_pos KExprBitwiseXor []));
("TestBitwiseXor_FormattedString/Left", same (Some "1") (nd no_pos KExprBitwiseXor [(FLeft, VEmb (nd no_pos KExprBitwiseAnd [(FLeft, VEmb (nd no_pos KExprEquality [(FLeft, VEmb (nd no_pos KExprRelational [(FLeft, VEmb (nd no_pos KExprShift [(FLeft, VEmb (nd no_pos KExprAdditive [(FLeft, VEmb (nd no_pos KExprMultiplicative [(FLeft, VEmb (nd no_pos KExprUnary [(FRight, VEmb (nd no_pos KExprPostfix [(FValue, VEmb (nd no_pos KExprPrimary [(FValue, VPtr (Some (nd no_pos KValue [(FNumber, VPtr (Some (nd no_pos KValueNumber [(FValue, VFloat (Some (tt, "1"))); (FSource, VStr "1")])))])))]))]))]))]))]))]))]))]))]))]));
("TestBitwiseXor_FormattedString/Operator without right side", same None (nd no_pos KExprBitwiseXor [(FLeft, VEmb (nd no_pos KExprBitwiseAnd [])); (FOp, VStr "^")]));
("TestBitwiseXor_FormattedString/Both sides", same (Some "1 ^ 2") (nd no_pos KExprBitwiseXor [(FLeft, VEmb (nd no_pos KExprBitwiseAnd [(FLeft, VEmb (nd no_pos KExprEquality [(FLeft, VEmb (nd no_pos KExprRelational [(FLeft, VEmb (nd no_pos KExprShift [(FLeft, VEmb (nd no_pos KExprAdditive [(FLeft, VEmb (nd no_pos KExprMultiplicative [(FLeft, VEmb (nd no_pos KExprUnary [(FRight, VEmb (nd no_pos KExprPostfix [(FValue, VEmb (nd no_pos KExprPrimary [(FValue, VPtr (Some (nd no_pos KValue [(FNumber, VPtr (Some (nd no_pos KValueNumber [(FValue, VFloat (Some (tt, "1"))); (FSource, VStr "1")])))])))]))]))]))]))]))]))]))]))])); (FOp, VStr "^"); (FRight, VPtr (Some (nd no_pos KExprBitwiseXor [(FLeft, VEmb (nd no_pos KExprBitwiseAnd [(FLeft, VEmb (nd no_pos KExprEquality [(FLeft, VEmb (nd no_pos KExprRelational [(FLeft, VEmb (nd no_pos KExprShift [(FLeft, VEmb (nd no_pos KExprAdditive [(FLeft, VEmb (nd no_pos KExprMultiplicative [(FLeft, VEmb (nd no_pos KExprUnary [(FRight, VEmb (nd no_pos KExprPostfix [(FValue, VEmb (nd no_pos KExprPrimary [(FValue, VPtr (Some (nd no_pos KValue [(FNumber, VPtr (Some (nd no_pos KValueNumber [(FValue, VFloat (Some (tt, "2"))); (FSource, VStr "2")])))])))]))]))]))]))]))]))]))]))]))])))]));
("TestBitwiseAnd_FormattedString/Empty", same None (nd no_pos KExprBitwiseAnd []));
("TestBitwiseAnd_FormattedString/Left", same (Some "1") (nd no_pos KExprBitwiseAnd [(FLeft, VEmb (nd no_pos KExprEquality [(FLeft, VEmb (nd no_pos KExprRelational [(FLeft, VEmb (nd no_pos KExprShift [(FLeft, VEmb (nd no_pos KExprAdditive [(FLeft, VEmb (nd no_pos KExprMultiplicative [(FLeft, VEmb (nd no_pos KExprUnary [(FRight, VEmb (nd no_pos KExprPostfix [(FValue, VEmb (nd no_pos KExprPrimary [(FValue, VPtr (Some (nd no_pos KValue [(FNumber, VPtr (Some (nd no_pos KValueNumber [(FValue, VFloat (Some (tt, "1"))); (FSource, VStr "1")])))])))]))]))]))]))]))]))]))]))]));
("TestBitwiseAnd_FormattedString/Operator without right side", same None (nd no_pos KExprBitwiseAnd [(FLeft, VEmb (nd no_pos KExprEquality [])); (FOp, VStr "&")]));
("TestBitwiseAnd_FormattedString/Both sides", same (Some "1 & 2") (nd no_pos KExprBitwiseAnd [(FLeft, VEmb (nd no_pos KExprEquality [(FLeft, VEmb (nd no_pos KExprRelational [(FLeft, VEmb (nd no_pos KExprShift [(FLeft, VEmb (nd no_pos KExprAdditive [(FLeft, VEmb (nd no_pos KExprMultiplicative [(FLeft, VEmb (nd no_pos KExprUnary [(FRight, VEmb (nd no_pos KExprPostfix [(FValue, VEmb (nd no_pos KExprPrimary [(FValue, VPtr (Some (nd no_pos KValue [(FNumber, VPtr (Some (nd no_pos KValueNumber [(FValue, VFloat (Some (tt, "1"))); (FSource, VStr "1")])))])))]))]))]))]))]))]))]))])); (FOp, VStr "&"); (FRight, VPtr (Some (nd no_pos KExprBitwiseAnd [(FLeft, VEmb (nd no_pos KExprEquality [(FLeft, VEmb (nd no_pos KExprRelational [(FLeft, VEmb (nd no_pos KExprShift [(FLeft, VEmb (nd no_pos KExprAdditive [(FLeft, VEmb (nd no_pos KExprMultiplicative [(FLeft, VEmb (nd no_pos KExprUnary [(FRight, VEmb (nd no_pos KExprPostfix [(FValue, VEmb (nd no_pos KExprPrimary [(FValue, VPtr (Some (nd no_pos KValue [(FNumber, VPtr (Some (nd no_pos KValueNumber [(FValue, VFloat (Some (tt, "2"))); (FSource, VStr "2")])))])))]))]))]))]))]))]))]))]))])))]));
("TestEquality_FormattedString/Empty", same None (nd no_pos KExprEquality []));
("TestEquality_FormattedString/Left", same (Some "1") (nd no_pos KExprEquality [(FLeft, VEmb (nd no_pos KExprRelational [(FLeft, VEmb (nd no_pos KExprShift [(FLeft, VEmb (nd no_pos KExprAdditive [(FLeft, VEmb (nd no_pos KExprMultiplicative [(FLeft, VEmb (nd no_pos KExprUnary [(FRight, VEmb (nd no_pos KExprPostfix [(FValue, VEmb (nd no_pos KExprPrimary [(FValue, VPtr (Some (nd no_pos KValue [(FNumber, VPtr (Some (nd no_pos KValueNumber [(FValue, VFloat (Some (tt, "1"))); (FSource, VStr "1")])))])))]))]))]))]))]))]))]))]));
("TestEquality_FormattedString/Operator without right side", same None (nd no_pos KExprEquality [(FLeft, VEmb (nd no_pos KExprRelational [])); (FOp, VStr "==")]));
("TestEquality_FormattedString/Both sides", same (Some "1 == 2") (nd no_pos KExprEquality [(FLeft, VEmb (nd no_pos KExprRelational [(FLeft, VEmb (nd no_pos KExprShift [(FLeft, VEmb (nd no_pos KExprAdditive [(FLeft, VEmb (nd no_pos KExprMultiplicative [(FLeft, VEmb (nd no_pos KExprUnary [(FRight, VEmb (nd no_pos KExprPostfix [(FValue, VEmb (nd no_pos KExprPrimary [(FValue, VPtr (Some (nd no_pos KValue [(FNumber, VPtr (Some (nd no_pos KValueNumber [(FValue, VFloat (Some (tt, "1"))); (FSource, VStr "1")])))])))]))]))]))]))]))]))])); (FOp, VStr "=="); (FRight, VPtr (Some (nd no_pos KExprEquality [(FLeft, VEmb (nd no_pos KExprRelational [(FLeft, VEmb (nd no_pos KExprShift [(FLeft, VEmb (nd no_pos KExprAdditive [(FLeft, VEmb (nd no_pos KExprMultiplicative [(FLeft, VEmb (nd no_pos KExprUnary [(FRight, VEmb (nd no_pos KExprPostfix [(FValue, VEmb (nd no_pos KExprPrimary [(FValue, VPtr (Some (nd no_pos KValue [(FNumber, VPtr (Some (nd no_pos KValueNumber [(FValue, VFloat (Some (tt, "2"))); (FSource, VStr "2")])))])))]))]))]))]))]))]))]))])))]));
("TestRelational_FormattedString/Empty", same None (nd no_pos KExprRelational []));
("TestRelational_FormattedString/Left", same (Some "1") (nd no_pos KExprRelational [(FLeft, VEmb (nd no_pos KExprShift [(FLeft, VEmb (nd no_pos KExprAdditive [(FLeft, VEmb (nd no_pos KExprMultiplicative [(FLeft, VEmb (nd no_pos KExprUnary [(FRight, VEmb (nd no_pos KExprPostfix [(FValue, VEmb (nd no_pos KExprPrimary [(FValue, VPtr (Some (nd no_pos KValue [(FNumber, VPtr (Some (nd no_pos KValueNumber [(FValue, VFloat (Some (tt, "1"))); (FSource, VStr "1")])))])))]))]))]))]))]))]))]));
("TestRelational_FormattedString/Operator without right side", same None (nd no_pos KExprRelational [(FLeft, VEmb (nd no_pos KExprShift [])); (FOp, VStr ">=")]));
("TestRelational_FormattedString/Both sides", same (Some "1 >= 2") (nd no_pos KExprRelational [(FLeft, VEmb (nd no_pos KExprShift [(FLeft, VEmb (nd no_pos KExprAdditive [(FLeft, VEmb (nd no_pos KExprMultiplicative [(FLeft, VEmb (nd no_pos KExprUnary [(FRight, VEmb (nd no_pos KExprPostfix [(FValue, VEmb (nd no_pos KExprPrimary [(FValue, VPtr (Some (nd no_pos KValue [(FNumber, VPtr (Some (nd no_pos KValueNumber [(FValue, VFloat (Some (tt, "1"))); (FSource, VStr "1")])))])))]))]))]))]))]))])); (FOp, VStr ">="); (FRight, VPtr (Some (nd no_pos KExprRelational [(FLeft, VEmb (nd no_pos KExprShift [(FLeft, VEmb (nd no_pos KExprAdditive [(FLeft, VEmb (nd no_pos KExprMultiplicative [(FLeft, VEmb (nd no_pos KExprUnary [(FRight, VEmb (nd no_pos KExprPostfix [(FValue, VEmb (nd no_pos KExprPrimary [(FValue, VPtr (Some (nd no_pos KValue [(FNumber, VPtr (Some (nd no_pos KValueNumber [(FValue, VFloat (Some (tt, "2"))); (FSource, VStr "2")])))])))]))]))]))]))]))]))])))]));
("TestShift_FormattedString/Empty", same None (nd no_pos KExprShift []));
("TestShift_FormattedString/Left", same (Some "1") (nd no_pos KExprShift [(FLeft, VEmb (nd no_pos KExprAdditive [(FLeft, VEmb (nd no_pos KExprMultiplicative [(FLeft, VEmb (nd no_pos KExprUnary [(FRight, VEmb (nd no_pos KExprPostfix [(FValue, VEmb (nd no_pos KExprPrimary [(FValue, VPtr (Some (nd no_pos KValue [(FNumber, VPtr (Some (nd no_pos KValueNumber [(FValue, VFloat (Some (tt, "1"))); (FSource, VStr "1")])))])))]))]))]))]))]))]));
("TestShift_FormattedString/Operator without right side", same None (nd no_pos KExprShift [(FLeft, VEmb (nd no_pos KExprAdditive [])); (FOp, VStr ">>")]));
("TestShift_FormattedString/Both sides", same (Some "1 >> 2") (nd no_pos KExprShift [(FLeft, VEmb (nd no_pos KExprAdditive [(FLeft, VEmb (nd no_pos KExprMultiplicative [(FLeft, VEmb (nd no_pos KExprUnary [(FRight, VEmb (nd no_pos KExprPostfix [(FValue, VEmb (nd no_pos KExprPrimary [(FValue, VPtr (Some (nd no_pos KValue [(FNumber, VPtr (Some (nd no_pos KValueNumber [(FValue, VFloat (Some (tt, "1"))); (FSource, VStr "1")])))])))]))]))]))]))])); (FOp, VStr ">>"); (FRight, VPtr (Some (nd no_pos KExprShift [(FLeft, VEmb (nd no_pos KExprAdditive [(FLeft, VEmb (nd no_pos KExprMultiplicative [(FLeft, VEmb (nd no_pos KExprUnary [(FRight, VEmb (nd no_pos KExprPostfix [(FValue, VEmb (nd no_pos KExprPrimary [(FValue, VPtr (Some (nd no_pos KValue [(FNumber, VPtr (Some (nd no_pos KValueNumber [(FValue, VFloat (Some (tt, "2"))); (FSource, VStr "2")])))])))]))]))]))]))]))])))]));
("TestAdditive_FormattedString/Empty", same None (nd no_pos KExprAdditive []));
("TestAdditive_FormattedString/Left", same (Some "1") (nd no_pos KExprAdditive [(FLeft, VEmb (nd no_pos KExprMultiplicative [(FLeft, VEmb (nd no_pos KExprUnary [(FRight, VEmb (nd no_pos KExprPostfix [(FValue, VEmb (nd no_pos KExprPrimary [(FValue, VPtr (Some (nd no_pos KValue [(FNumber, VPtr (Some (nd no_pos KValueNumber [(FValue, VFloat (Some (tt, "1"))); (FSource, VStr "1")])))])))]))]))]))]))]));
("TestAdditive_FormattedString/Operator without right side", same None (nd no_pos KExprAdditive [(FLeft, VEmb (nd no_pos KExprMultiplicative [])); (FOp, VStr "+")]));
("TestAdditive_FormattedString/Both sides", same (Some "1 + 2") (nd no_pos KExprAdditive [(FLeft, VEmb (nd no_pos KExprMultiplicative [(FLeft, VEmb (nd no_pos KExprUnary [(FRight, VEmb (nd no_pos KExprPostfix [(FValue, VEmb (nd no_pos KExprPrimary [(FValue, VPtr (Some (nd no_pos KValue [(FNumber, VPtr (Some (nd no_pos KValueNumber [(FValue, VFloat (Some (tt, "1"))); (FSource, VStr "1")])))])))]))]))]))])); (FOp, VStr "+"); (FRight, VPtr (Some (nd no_pos KExprAdditive [(FLeft, VEmb (nd no_pos KExprMultiplicative [(FLeft, VEmb (nd no_pos KExprUnary [(FRight, VEmb (nd no_pos KExprPostfix [(FValue, VEmb (nd no_pos KExprPrimary [(FValue, VPtr (Some (nd no_pos KValue [(FNumber, VPtr (Some (nd no_pos KValueNumber [(FValue, VFloat (Some (tt, "2"))); (FSource, VStr "2")])))])))]))]))]))]))])))]));
("TestMultiplicative_FormattedString/Empty", same None (nd no_pos KExprMultiplicative []));
("TestMultiplicative_FormattedString/Left", same (Some "1") (nd no_pos KExprMultiplicative [(FLeft, VEmb (nd no_pos KExprUnary [(FRight, VEmb (nd no_pos KExprPostfix [(FValue, VEmb (nd no_pos KExprPrimary [(FValue, VPtr (Some (nd no_pos KValue [(FNumber, VPtr (Some (nd no_pos KValueNumber [(FValue, VFloat (Some (tt, "1"))); (FSource, VStr "1")])))])))]))]))]))]));
("TestMultiplicative_FormattedString/Operator without right side", same None (nd no_pos KExprMultiplicative [(FLeft, VEmb (nd no_pos KExprUnary [(FRight, VEmb (nd no_pos KExprPostfix [(FValue, VEmb (nd no_pos KExprPrimary [(FIdent, VPtr (Some (nd no_pos KIdent [(FParts, VStrs (Some (tt, ["foo"])))])))]))]))])); (FOp, VStr "*")]));
("TestMultiplicative_FormattedString/Both sides", same (Some "1 * 2") (nd no_pos KExprMultiplicative [(FLeft, VEmb (nd no_pos KExprUnary [(FRight, VEmb (nd no_pos KExprPostfix [(FValue, VEmb (nd no_pos KExprPrimary [(FValue, VPtr (Some (nd no_pos KValue [(FNumber, VPtr (Some (nd no_pos KValueNumber [(FValue, VFloat (Some (tt, "1"))); (FSource, VStr "1")])))])))]))]))])); (FOp, VStr "*"); (FRight, VPtr (Some (nd no_pos KExprMultiplicative [(FLeft, VEmb (nd no_pos KExprUnary [(FRight, VEmb (nd no_pos KExprPostfix [(FValue, VEmb (nd no_pos KExprPrimary [(FValue, VPtr (Some (nd no_pos KValue [(FNumber, VPtr (Some (nd no_pos KValueNumber [(FValue, VFloat (Some (tt, "2"))); (FSource, VStr "2")])))])))]))]))]))])))]));
("TestUnary_FormattedString/Empty", same None (nd no_pos KExprUnary []));
("TestUnary_FormattedString/Right", same (Some "foo") (nd no_pos KExprUnary [(FRight, VEmb (nd no_pos KExprPostfix [(FValue, VEmb (nd no_pos KExprPrimary [(FIdent, VPtr (Some (nd no_pos KIdent [(FParts, VStrs (Some (tt, ["foo"])))])))]))]))]));
("TestUnary_FormattedString/Operator", same (Some "~foo") (nd no_pos KExprUnary [(FOp, VStr "~"); (FRight, VEmb (nd no_pos KExprPostfix [(FValue, VEmb (nd no_pos KExprPrimary [(FIdent, VPtr (Some (nd no_pos KIdent [(FParts, VStrs (Some (tt, ["foo"])))])))]))]))]));
("TestPostfix_FormattedString/Empty", same None (nd no_pos KExprPostfix []));
("TestPostfix_FormattedString/Value", same (Some "foo") (nd no_pos KExprPostfix [(FValue, VEmb (nd no_pos KExprPrimary [(FIdent, VPtr (Some (nd no_pos KIdent [(FParts, VStrs (Some (tt, ["foo"])))])))]))]));
("TestPostfix_FormattedString/Value and Index", same (Some "foo[1]") (nd no_pos KExprPostfix [(FValue, VEmb (nd no_pos KExprPrimary [(FIdent, VPtr (Some (nd no_pos KIdent [(FParts, VStrs (Some (tt, ["foo"])))])))])); (FIndex, VPtr (Some (nd no_pos KExpr [(FLeft, VPtr (Some (nd no_pos KExprConditional [(FCondition, VEmb (nd no_pos KExprLogicalOr [(FLeft, VEmb (nd no_pos KExprLogicalAnd [(FLeft, VEmb (nd no_pos KExprBitwiseOr [(FLeft, VEmb (nd no_pos KExprBitwiseXor [(FLeft, VEmb (nd no_pos KExprBitwiseAnd [(FLeft, VEmb (nd no_pos KExprEquality [(FLeft, VEmb (nd no_pos KExprRelational [(FLeft, VEmb (nd no_pos KExprShift [(FLeft, VEmb (nd no_pos KExprAdditive [(FLeft, VEmb (nd no_pos KExprMultiplicative [(FLeft, VEmb (nd no_pos KExprUnary [(FRight, VEmb (nd no_pos KExprPostfix [(FValue, VEmb (nd no_pos KExprPrimary [(FValue, VPtr (Some (nd no_pos KValue [(FNumber, VPtr (Some (nd no_pos KValueNumber [(FValue, VFloat (Some (tt, "1"))); (FSource, VStr "1")])))])))]))]))]))]))]))]))]))]))]))]))]))]))]))])))])))]));
("TestPostfix_FormattedString/Value, Index and Post", same (Some "foo[1].bar") (nd no_pos KExprPostfix [(FValue, VEmb (nd no_pos KExprPrimary [(FIdent, VPtr (Some (nd no_pos KIdent [(FParts, VStrs (Some (tt, ["foo"])))])))])); (FIndex, VPtr (Some (nd no_pos KExpr [(FLeft, VPtr (Some (nd no_pos KExprConditional [(FCondition, VEmb (nd no_pos KExprLogicalOr [(FLeft, VEmb (nd no_pos KExprLogicalAnd [(FLeft, VEmb (nd no_pos KExprBitwiseOr [(FLeft, VEmb (nd no_pos KExprBitwiseXor [(FLeft, VEmb (nd no_pos KExprBitwiseAnd [(FLeft, VEmb (nd no_pos KExprEquality [(FLeft, VEmb (nd no_pos KExprRelational [(FLeft, VEmb (nd no_pos KExprShift [(FLeft, VEmb (nd no_pos KExprAdditive [(FLeft, VEmb (nd no_pos KExprMultiplicative [(FLeft, VEmb (nd no_pos KExprUnary [(FRight, VEmb (nd no_pos KExprPostfix [(FValue, VEmb (nd no_pos KExprPrimary [(FValue, VPtr (Some (nd no_pos KValue [(FNumber, VPtr (Some (nd no_pos KValueNumber [(FValue, VFloat (Some (tt, "1"))); (FSource, VStr "1")])))])))]))]))]))]))]))]))]))]))]))]))]))]))]))])))]))); (FPost, VPtr (Some (nd no_pos KExprPostfix [(FValue, VEmb (nd no_pos KExprPrimary [(FIdent, VPtr (Some (nd no_pos KIdent [(FParts, VStrs (Some (tt, ["bar"])))])))]))])))]));
("TestPrimary_FormattedString/Empty", same None (nd no_pos KExprPrimary []));
("TestPrimary_FormattedString/Sub Expression", same (Some "1") (nd no_pos KExprPrimary [(FSubExpression, VPtr (Some (nd no_pos KExpr [(FLeft, VPtr (Some (nd no_pos KExprConditional [(FCondition, VEmb (nd no_pos KExprLogicalOr [(FLeft, VEmb (nd no_pos KExprLogicalAnd [(FLeft, VEmb (nd no_pos KExprBitwiseOr [(FLeft, VEmb (nd no_pos KExprBitwiseXor [(FLeft, VEmb (nd no_pos KExprBitwiseAnd [(FLeft, VEmb (nd no_pos KExprEquality [(FLeft, VEmb (nd no_pos KExprRelational [(FLeft, VEmb (nd no_pos KExprShift [(FLeft, VEmb (nd no_pos KExprAdditive [(FLeft, VEmb (nd no_pos KExprMultiplicative [(FLeft, VEmb (nd no_pos KExprUnary [(FRight, VEmb (nd no_pos KExprPostfix [(FValue, VEmb (nd no_pos KExprPrimary [(FValue, VPtr (Some (nd no_pos KValue [(FNumber, VPtr (Some (nd no_pos KValueNumber [(FValue, VFloat (Some (tt, "1"))); (FSource, VStr "1")])))])))]))]))]))]))]))]))]))]))]))]))]))]))]))])))])))]));
("TestPrimary_FormattedString/Value", same (Some "1") (nd no_pos KExprPrimary [(FValue, VPtr (Some (nd no_pos KValue [(FNumber, VPtr (Some (nd no_pos KValueNumber [(FValue, VFloat (Some (tt, "1"))); (FSource, VStr "1")])))])))]));
("TestPrimary_FormattedString/Ident", same (Some "foo") (nd no_pos KExprPrimary [(FIdent, VPtr (Some (nd no_pos KIdent [(FParts, VStrs (Some (tt, ["foo"])))])))]));
("TestPrimary_FormattedString/Invocation - No parameters", same (Some "foo()") (nd no_pos KExprPrimary [(FIdent, VPtr (Some (nd no_pos KIdent [(FParts, VStrs (Some (tt, ["foo"])))]))); (FMonads, VList (Some (tt, [Some (nd no_pos KExprInvocationParams [])])))]));
("TestPrimary_FormattedString/Invocation - One parameter", same (Some "foo(1)") (nd no_pos KExprPrimary [(FIdent, VPtr (Some (nd no_pos KIdent [(FParts, VStrs (Some (tt, ["foo"])))]))); (FMonads, VList (Some (tt, [Some (nd no_pos KExprInvocationParams [(FValues, VList (Some (tt, [Some (nd no_pos KExpr [(FLeft, VPtr (Some (nd no_pos KExprConditional [(FCondition, VEmb (nd no_pos KExprLogicalOr [(FLeft, VEmb (nd no_pos KExprLogicalAnd [(FLeft, VEmb (nd no_pos KExprBitwiseOr [(FLeft, VEmb (nd no_pos KExprBitwiseXor [(FLeft, VEmb (nd no_pos KExprBitwiseAnd [(FLeft, VEmb (nd no_pos KExprEquality [(FLeft, VEmb (nd no_pos KExprRelational [(FLeft, VEmb (nd no_pos KExprShift [(FLeft, VEmb (nd no_pos KExprAdditive [(FLeft, VEmb (nd no_pos KExprMultiplicative [(FLeft, VEmb (nd no_pos KExprUnary [(FRight, VEmb (nd no_pos KExprPostfix [(FValue, VEmb (nd no_pos KExprPrimary [(FValue, VPtr (Some (nd no_pos KValue [(FNumber, VPtr (Some (nd no_pos KValueNumber [(FValue, VFloat (Some (tt, "1"))); (FSource, VStr "1")])))])))]))]))]))]))]))]))]))]))]))]))]))]))]))])))])])))])])))]));
("TestPrimary_FormattedString/Invocation - Several parameters", same (Some "foo(1, 2)") (nd no_pos KExprPrimary [(FIdent, VPtr (Some (nd no_pos KIdent [(FParts, VStrs (Some (tt, ["foo"])))]))); (FMonads, VList (Some (tt, [Some (nd no_pos KExprInvocationParams [(FValues, VList (Some (tt, [Some (nd no_pos KExpr [(FLeft, VPtr (Some (nd no_pos KExprConditional [(FCondition, VEmb (nd no_pos KExprLogicalOr [(FLeft, VEmb (nd no_pos KExprLogicalAnd [(FLeft, VEmb (nd no_pos KExprBitwiseOr [(FLeft, VEmb (nd no_pos KExprBitwiseXor [(FLeft, VEmb (nd no_pos KExprBitwiseAnd [(FLeft, VEmb (nd no_pos KExprEquality [(FLeft, VEmb (nd no_pos KExprRelational [(FLeft, VEmb (nd no_pos KExprShift [(FLeft, VEmb (nd no_pos KExprAdditive [(FLeft, VEmb (nd no_pos KExprMultiplicative [(FLeft, VEmb (nd no_pos KExprUnary [(FRight, VEmb (nd no_pos KExprPostfix [(FValue, VEmb (nd no_pos KExprPrimary [(FValue, VPtr (Some (nd no_pos KValue [(FNumber, VPtr (Some (nd no_pos KValueNumber [(FValue, VFloat (Some (tt, "1"))); (FSource, VStr "1")])))])))]))]))]))]))]))]))]))]))]))]))]))]))]))])))]); Some (nd no_pos KExpr [(FLeft, VPtr (Some (nd no_pos KExprConditional [(FCondition, VEmb (nd no_pos KExprLogicalOr [(FLeft, VEmb (nd no_pos KExprLogicalAnd [(FLeft, VEmb (nd no_pos KExprBitwiseOr [(FLeft, VEmb (nd no_pos KExprBitwiseXor [(FLeft, VEmb (nd no_pos KExprBitwiseAnd [(FLeft, VEmb (nd no_pos KExprEquality [(FLeft, VEmb (nd no_pos KExprRelational [(FLeft, VEmb (nd no_pos KExprShift [(FLeft, VEmb (nd no_pos KExprAdditive [(FLeft, VEmb (nd no_pos KExprMultiplicative [(FLeft, VEmb (nd no_pos KExprUnary [(FRight, VEmb (nd no_pos KExprPostfix [(FValue, VEmb (nd no_pos KExprPrimary [(FValue, VPtr (Some (nd no_pos KValue [(FNumber, VPtr (Some (nd no_pos KValueNumber [(FValue, VFloat (Some (tt, "2"))); (FSource, VStr "2")])))])))]))]))]))]))]))]))]))]))]))]))]))]))]))])))])])))])])))]));
("TestPrimary_FormattedString/Invocation - Monadic", same (Some "foo(1)(2)") (nd no_pos KExprPrimary [(FIdent, VPtr (Some (nd no_pos KIdent [(FParts, VStrs (Some (tt, ["foo"])))]))); (FMonads, VList (Some (tt, [Some (nd no_pos KExprInvocationParams [(FValues, VList (Some (tt, [Some (nd no_pos KExpr [(FLeft, VPtr (Some (nd no_pos KExprConditional [(FCondition, VEmb (nd no_pos KExprLogicalOr [(FLeft, VEmb (nd no_pos KExprLogicalAnd [(FLeft, VEmb (nd no_pos KExprBitwiseOr [(FLeft, VEmb (nd no_pos KExprBitwiseXor [(FLeft, VEmb (nd no_pos KExprBitwiseAnd [(FLeft, VEmb (nd no_pos KExprEquality [(FLeft, VEmb (nd no_pos KExprRelational [(FLeft, VEmb (nd no_pos KExprShift [(FLeft, VEmb (nd no_pos KExprAdditive [(FLeft, VEmb (nd no_pos KExprMultiplicative [(FLeft, VEmb (nd no_pos KExprUnary [(FRight, VEmb (nd no_pos KExprPostfix [(FValue, VEmb (nd no_pos KExprPrimary [(FValue, VPtr (Some (nd no_pos KValue [(FNumber, VPtr (Some (nd no_pos KValueNumber [(FValue, VFloat (Some (tt, "1"))); (FSource, VStr "1")])))])))]))]))]))]))]))]))]))]))]))]))]))]))]))])))])])))]); Some (nd no_pos KExprInvocationParams [(FValues, VList (Some (tt, [Some (nd no_pos KExpr [(FLeft, VPtr (Some (nd no_pos KExprConditional [(FCondition, VEmb (nd no_pos KExprLogicalOr [(FLeft, VEmb (nd no_pos KExprLogicalAnd [(FLeft, VEmb (nd no_pos KExprBitwiseOr [(FLeft, VEmb (nd no_pos KExprBitwiseXor [(FLeft, VEmb (nd no_pos KExprBitwiseAnd [(FLeft, VEmb (nd no_pos KExprEquality [(FLeft, VEmb (nd no_pos KExprRelational [(FLeft, VEmb (nd no_pos KExprShift [(FLeft, VEmb (nd no_pos KExprAdditive [(FLeft, VEmb (nd no_pos KExprMultiplicative [(FLeft, VEmb (nd no_pos KExprUnary [(FRight, VEmb (nd no_pos KExprPostfix [(FValue, VEmb (nd no_pos KExprPrimary [(FValue, VPtr (Some (nd no_pos KValue [(FNumber, VPtr (Some (nd no_pos KValueNumber [(FValue, VFloat (Some (tt, "2"))); (FSource, VStr "2")])))])))]))]))]))]))]))]))]))]))]))]))]))]))]))])))])])))])])))]));
("TestPrimary_FormattedString/Invocation - Postfix", same (Some "foo().bar") (nd no_pos KExprPrimary [(FIdent, VPtr (Some (nd no_pos KIdent [(FParts, VStrs (Some (tt, ["foo"])))]))); (FMonads, VList (Some (tt, [Some (nd no_pos KExprInvocationParams [])]))); (FPost, VPtr (Some (nd no_pos KExprPostfix [(FValue, VEmb (nd no_pos KExprPrimary [(FIdent, VPtr (Some (nd no_pos KIdent [(FParts, VStrs (Some (tt, ["bar"])))])))]))])))]));
("TestInvocationParams_FormattedString/Empty", same (Some "") (nd no_pos KExprInvocationParams []));
("TestInvocationParams_FormattedString/One value", same (Some "foo") (nd no_pos KExprInvocationParams [(FValues, VList (Some (tt, [Some (nd no_pos KExpr [(FLeft, VPtr (Some (nd no_pos KExprConditional [(FCondition, VEmb (nd no_pos KExprLogicalOr [(FLeft, VEmb (nd no_pos KExprLogicalAnd [(FLeft, VEmb (nd no_pos KExprBitwiseOr [(FLeft, VEmb (nd no_pos KExprBitwiseXor [(FLeft, VEmb (nd no_pos KExprBitwiseAnd [(FLeft, VEmb (nd no_pos KExprEquality [(FLeft, VEmb (nd no_pos KExprRelational [(FLeft, VEmb (nd no_pos KExprShift [(FLeft, VEmb (nd no_pos KExprAdditive [(FLeft, VEmb (nd no_pos KExprMultiplicative [(FLeft, VEmb (nd no_pos KExprUnary [(FRight, VEmb (nd no_pos KExprPostfix [(FValue, VEmb (nd no_pos KExprPrimary [(FIdent, VPtr (Some (nd no_pos KIdent [(FParts, VStrs (Some (tt, ["foo"])))])))]))]))]))]))]))]))]))]))]))]))]))]))]))])))])])))]));
("TestInvocationParams_FormattedString/Two values", same (Some "foo, bar") (nd no_pos KExprInvocationParams [(FValues, VList (Some (tt, [Some (nd no_pos KExpr [(FLeft, VPtr (Some (nd no_pos KExprConditional [(FCondition, VEmb (nd no_pos KExprLogicalOr [(FLeft, VEmb (nd no_pos KExprLogicalAnd [(FLeft, VEmb (nd no_pos KExprBitwiseOr [(FLeft, VEmb (nd no_pos KExprBitwiseXor [(FLeft, VEmb (nd no_pos KExprBitwiseAnd [(FLeft, VEmb (nd no_pos KExprEquality [(FLeft, VEmb (nd no_pos KExprRelational [(FLeft, VEmb (nd no_pos KExprShift [(FLeft, VEmb (nd no_pos KExprAdditive [(FLeft, VEmb (nd no_pos KExprMultiplicative [(FLeft, VEmb (nd no_pos KExprUnary [(FRight, VEmb (nd no_pos KExprPostfix [(FValue, VEmb (nd no_pos KExprPrimary [(FIdent, VPtr (Some (nd no_pos KIdent [(FParts, VStrs (Some (tt, ["foo"])))])))]))]))]))]))]))]))]))]))]))]))]))]))]))])))]); Some (nd no_pos KExpr [(FLeft, VPtr (Some (nd no_pos KExprConditional [(FCondition, VEmb (nd no_pos KExprLogicalOr [(FLeft, VEmb (nd no_pos KExprLogicalAnd [(FLeft, VEmb (nd no_pos KExprBitwiseOr [(FLeft, VEmb (nd no_pos KExprBitwiseXor [(FLeft, VEmb (nd no_pos KExprBitwiseAnd [(FLeft, VEmb (nd no_pos KExprEquality [(FLeft, VEmb (nd no_pos KExprRelational [(FLeft, VEmb (nd no_pos KExprShift [(FLeft, VEmb (nd no_pos KExprAdditive [(FLeft, VEmb (nd no_pos KExprMultiplicative [(FLeft, VEmb (nd no_pos KExprUnary [(FRight, VEmb (nd no_pos KExprPostfix [(FValue, VEmb (nd no_pos KExprPrimary [(FIdent, VPtr (Some (nd no_pos KIdent [(FParts, VStrs (Some (tt, ["bar"])))])))]))]))]))]))]))]))]))]))]))]))]))]))]))])))])])))]));
("TestFunc_FormattedString/Empty", same (Some "def () {}") (nd no_pos KFunc []));
("TestFunc_FormattedString/Label - no params - no return - no body", same (Some "def foo() {}") (nd no_pos KFunc [(FLabel, VStr "foo")]));
("TestFunc_FormattedString/Label - one param - no return - no body", same (Some "def foo(bar) {}") (nd no_pos KFunc [(FLabel, VStr "foo"); (FParameters, VList (Some (tt, [Some (nd no_pos KFuncParameter [(FLabel, VStr "bar")])])))]));
("TestFunc_FormattedString/Label - two params - no return - no body", same (Some "def foo(bar, baz) {}") (nd no_pos KFunc [(FLabel, VStr "foo"); (FParameters, VList (Some (tt, [Some (nd no_pos KFuncParameter [(FLabel, VStr "bar")]); Some (nd no_pos KFuncParameter [(FLabel, VStr "baz")])])))]));
("TestFunc_FormattedString/Label - no params - one return type - no body", same (Some "def foo() number {}") (nd no_pos KFunc [(FLabel, VStr "foo"); (FReturn, VList (Some (tt, [Some (nd no_pos KParameterType [(FIdent, VPtr (Some (nd no_pos KIdent [(FParts, VStrs (Some (tt, ["number"])))])))])])))]));
("TestFunc_FormattedString/Label - no params - two return types - no body", same (Some "def foo() (number, bool) {}") (nd no_pos KFunc [(FLabel, VStr "foo"); (FReturn, VList (Some (tt, [Some (nd no_pos KParameterType [(FIdent, VPtr (Some (nd no_pos KIdent [(FParts, VStrs (Some (tt, ["number"])))])))]); Some (nd no_pos KParameterType [(FIdent, VPtr (Some (nd no_pos KIdent [(FParts, VStrs (Some (tt, ["bool"])))])))])])))]));
("TestFunc_FormattedString/Label - no params - no return - body", same (Some ("def foo() {" +:+ (String "010" "") +:+ (String "009" "") +:+ "1" +:+ (String "010" "") +:+ "}")) (nd no_pos KFunc [(FLabel, VStr "foo"); (FBody, VList (Some (tt, [Some (nd no_pos KFuncStatement [(FExpr, VPtr (Some (nd no_pos KExpr [(FLeft, VPtr (Some (nd no_pos KExprConditional [(FCondition, VEmb (nd no_pos KExprLogicalOr [(FLeft, VEmb (nd no_pos KExprLogicalAnd [(FLeft, VEmb (nd no_pos KExprBitwiseOr [(FLeft, VEmb (nd no_pos KExprBitwiseXor [(FLeft, VEmb (nd no_pos KExprBitwiseAnd [(FLeft, VEmb (nd no_pos KExprEquality [(FLeft, VEmb (nd no_pos KExprRelational [(FLeft, VEmb (nd no_pos KExprShift [(FLeft, VEmb (nd no_pos KExprAdditive [(FLeft, VEmb (nd no_pos KExprMultiplicative [(FLeft, VEmb (nd no_pos KExprUnary [(FRight, VEmb (nd no_pos KExprPostfix [(FValue, VEmb (nd no_pos KExprPrimary [(FValue, VPtr (Some (nd no_pos KValue [(FNumber, VPtr (Some (nd no_pos KValueNumber [(FValue, VFloat (Some (tt, "1"))); (FSource, VStr "1")])))])))]))]))]))]))]))]))]))]))]))]))]))]))]))])))])))])])))]));
("TestFuncParameter_FormattedString/Empty", same (Some "") (nd no_pos KFuncParameter []));
("TestFuncParameter_FormattedString/Label only", same (Some "foo") (nd no_pos KFuncParameter [(FLabel, VStr "foo")]));
("TestFuncParameter_FormattedString/Label and type", same (Some "foo: number") (nd no_pos KFuncParameter [(FLabel, VStr "foo"); (FType, VPtr (Some (nd no_pos KParameterType [(FIdent, VPtr (Some (nd no_pos KIdent [(FParts, VStrs (Some (tt, ["number"])))])))])))]));
("TestFuncStatement_FormattedString/Empty", same (Some "") (nd no_pos KFuncStatement []));
("TestFuncStatement_FormattedString/EmptyLine", same (Some ((String "010" ""))) (nd no_pos KFuncStatement [(FEmptyLine, VStr ((String "010" "")))]));
("TestFuncStatement_FormattedString/Decl", same (Some "val foo = 1") (nd no_pos KFuncStatement [(FDecl, VPtr (Some (nd no_pos KFuncDecl [(FDeclType, VStr "val"); (FLabel, VStr "foo"); (FValue, VPtr (Some (nd no_pos KExpr [(FLeft, VPtr (Some (nd no_pos KExprConditional [(FCondition, VEmb (nd no_pos KExprLogicalOr [(FLeft, VEmb (nd no_pos KExprLogicalAnd [(FLeft, VEmb (nd no_pos KExprBitwiseOr [(FLeft, VEmb (nd no_pos KExprBitwiseXor [(FLeft, VEmb (nd no_pos KExprBitwiseAnd [(FLeft, VEmb (nd no_pos KExprEquality [(FLeft, VEmb (nd no_pos KExprRelational [(FLeft, VEmb (nd no_pos KExprShift [(FLeft, VEmb (nd no_pos KExprAdditive [(FLeft, VEmb (nd no_pos KExprMultiplicative [(FLeft, VEmb (nd no_pos KExprUnary [(FRight, VEmb (nd no_pos KExprPostfix [(FValue, VEmb (nd no_pos KExprPrimary [(FValue, VPtr (Some (nd no_pos KValue [(FNumber, VPtr (Some (nd no_pos KValueNumber [(FValue, VFloat (Some (tt, "1"))); (FSource, VStr "1")])))])))]))]))]))]))]))]))]))]))]))]))]))]))]))])))])))])))]));
("TestFuncStatement_FormattedString/Expr", same (Some "1") (nd no_pos KFuncStatement [(FExpr, VPtr (Some (nd no_pos KExpr [(FLeft, VPtr (Some (nd no_pos KExprConditional [(FCondition, VEmb (nd no_pos KExprLogicalOr [(FLeft, VEmb (nd no_pos KExprLogicalAnd [(FLeft, VEmb (nd no_pos KExprBitwiseOr [(FLeft, VEmb (nd no_pos KExprBitwiseXor [(FLeft, VEmb (nd no_pos KExprBitwiseAnd [(FLeft, VEmb (nd no_pos KExprEquality [(FLeft, VEmb (nd no_pos KExprRelational [(FLeft, VEmb (nd no_pos KExprShift [(FLeft, VEmb (nd no_pos KExprAdditive [(FLeft, VEmb (nd no_pos KExprMultiplicative [(FLeft, VEmb (nd no_pos KExprUnary [(FRight, VEmb (nd no_pos KExprPostfix [(FValue, VEmb (nd no_pos KExprPrimary [(FValue, VPtr (Some (nd no_pos KValue [(FNumber, VPtr (Some (nd no_pos KValueNumber [(FValue, VFloat (Some (tt, "1"))); (FSource, VStr "1")])))])))]))]))]))]))]))]))]))]))]))]))]))]))]))])))])))]));
("TestFuncStatement_FormattedString/Comment", same (Some ("// foo" +:+ (String "010" ""))) (nd no_pos KFuncStatement [(FComment, VPtr (Some (nd no_pos KComment [(FSingleLine, VStrs (Some (tt, ["// foo"])))])))]));
("TestFuncDecl_FormattedString/Empty", same (Some "") (nd no_pos KFuncDecl []));
("TestFuncDecl_FormattedString/Label only", same (Some "val foo") (nd no_pos KFuncDecl [(FDeclType, VStr "val"); (FLabel, VStr "foo")]));
("TestFuncDecl_FormattedString/Label and type", same (Some "val foo: number") (nd no_pos KFuncDecl [(FDeclType, VStr "val"); (FLabel, VStr "foo"); (FType, VPtr (Some (nd no_pos KParameterType [(FIdent, VPtr (Some (nd no_pos KIdent [(FParts, VStrs (Some (tt, ["number"])))])))])))]));
("TestFuncDecl_FormattedString/Label and value", same (Some "val foo = 1") (nd no_pos KFuncDecl [(FDeclType, VStr "val"); (FLabel, VStr "foo"); (FValue, VPtr (Some (nd no_pos KExpr [(FLeft, VPtr (Some (nd no_pos KExprConditional [(FCondition, VEmb (nd no_pos KExprLogicalOr [(FLeft, VEmb (nd no_pos KExprLogicalAnd [(FLeft, VEmb (nd no_pos KExprBitwiseOr [(FLeft, VEmb (nd no_pos KExprBitwiseXor [(FLeft, VEmb (nd no_pos KExprBitwiseAnd [(FLeft, VEmb (nd no_pos KExprEquality [(FLeft, VEmb (nd no_pos KExprRelational [(FLeft, VEmb (nd no_pos KExprShift [(FLeft, VEmb (nd no_pos KExprAdditive [(FLeft, VEmb (nd no_pos KExprMultiplicative [(FLeft, VEmb (nd no_pos KExprUnary [(FRight, VEmb (nd no_pos KExprPostfix [(FValue, VEmb (nd no_pos KExprPrimary [(FValue, VPtr (Some (nd no_pos KValue [(FNumber, VPtr (Some (nd no_pos KValueNumber [(FValue, VFloat (Some (tt, "1"))); (FSource, VStr "1")])))])))]))]))]))]))]))]))]))]))]))]))]))]))]))])))])))]));
("TestFuncDecl_FormattedString/Label, type and value", same (Some "val foo: number = 1") (nd no_pos KFuncDecl [(FDeclType, VStr "val"); (FLabel, VStr "foo"); (FType, VPtr (Some (nd no_pos KParameterType [(FIdent, VPtr (Some (nd no_pos KIdent [(FParts, VStrs (Some (tt, ["number"])))])))]))); (FValue, VPtr (Some (nd no_pos KExpr [(FLeft, VPtr (Some (nd no_pos KExprConditional [(FCondition, VEmb (nd no_pos KExprLogicalOr [(FLeft, VEmb (nd no_pos KExprLogicalAnd [(FLeft, VEmb (nd no_pos KExprBitwiseOr [(FLeft, VEmb (nd no_pos KExprBitwiseXor [(FLeft, VEmb (nd no_pos KExprBitwiseAnd [(FLeft, VEmb (nd no_pos KExprEquality [(FLeft, VEmb (nd no_pos KExprRelational [(FLeft, VEmb (nd no_pos KExprShift [(FLeft, VEmb (nd no_pos KExprAdditive [(FLeft, VEmb (nd no_pos KExprMultiplicative [(FLeft, VEmb (nd no_pos KExprUnary [(FRight, VEmb (nd no_pos KExprPostfix [(FValue, VEmb (nd no_pos KExprPrimary [(FValue, VPtr (Some (nd no_pos KValue [(FNumber, VPtr (Some (nd no_pos KValueNumber [(FValue, VFloat (Some (tt, "1"))); (FSource, VStr "1")])))])))]))]))]))]))]))]))]))]))]))]))]))]))]))])))])))]));
("TestIdent_FormattedString/One part", same (Some "foo") (nd no_pos KIdent [(FParts, VStrs (Some (tt, ["foo"])))]));
("TestIdent_FormattedString/Several parts", same (Some "foo.bar.baz") (nd no_pos KIdent [(FParts, VStrs (Some (tt, ["foo"; "bar"; "baz"])))]));
("TestLambda_FormattedString/Empty", same None (nd no_pos KLambda []));
("TestLambda_FormattedString/No Parameters", same (Some "() => 1") (nd no_pos KLambda [(FParameters, VList None); (FExpr, VEmb (nd no_pos KExpr [(FLeft, VPtr (Some (nd no_pos KExprConditional [(FCondition, VEmb (nd no_pos KExprLogicalOr [(FLeft, VEmb (nd no_pos KExprLogicalAnd [(FLeft, VEmb (nd no_pos KExprBitwiseOr [(FLeft, VEmb (nd no_pos KExprBitwiseXor [(FLeft, VEmb (nd no_pos KExprBitwiseAnd [(FLeft, VEmb (nd no_pos KExprEquality [(FLeft, VEmb (nd no_pos KExprRelational [(FLeft, VEmb (nd no_pos KExprShift [(FLeft, VEmb (nd no_pos KExprAdditive [(FLeft, VEmb (nd no_pos KExprMultiplicative [(FLeft, VEmb (nd no_pos KExprUnary [(FRight, VEmb (nd no_pos KExprPostfix [(FValue, VEmb (nd no_pos KExprPrimary [(FValue, VPtr (Some (nd no_pos KValue [(FNumber, VPtr (Some (nd no_pos KValueNumber [(FValue, VFloat (Some (tt, "1"))); (FSource, VStr "1")])))])))]))]))]))]))]))]))]))]))]))]))]))]))]))])))]))]));
("TestLambda_FormattedString/One Parameter", same (Some "(foo) => 1") (nd no_pos KLambda [(FParameters, VList (Some (tt, [Some (nd no_pos KLambdaParameter [(FLabel, VStr "foo")])]))); (FExpr, VEmb (nd no_pos KExpr [(FLeft, VPtr (Some (nd no_pos KExprConditional [(FCondition, VEmb (nd no_pos KExprLogicalOr [(FLeft, VEmb (nd no_pos KExprLogicalAnd [(FLeft, VEmb (nd no_pos KExprBitwiseOr [(FLeft, VEmb (nd no_pos KExprBitwiseXor [(FLeft, VEmb (nd no_pos KExprBitwiseAnd [(FLeft, VEmb (nd no_pos KExprEquality [(FLeft, VEmb (nd no_pos KExprRelational [(FLeft, VEmb (nd no_pos KExprShift [(FLeft, VEmb (nd no_pos KExprAdditive [(FLeft, VEmb (nd no_pos KExprMultiplicative [(FLeft, VEmb (nd no_pos KExprUnary [(FRight, VEmb (nd no_pos KExprPostfix [(FValue, VEmb (nd no_pos KExprPrimary [(FValue, VPtr (Some (nd no_pos KValue [(FNumber, VPtr (Some (nd no_pos KValueNumber [(FValue, VFloat (Some (tt, "1"))); (FSource, VStr "1")])))])))]))]))]))]))]))]))]))]))]))]))]))]))]))])))]))]));
("TestLambda_FormattedString/Two Parameters", same (Some "(foo, bar) => 1") (nd no_pos KLambda [(FParameters, VList (Some (tt, [Some (nd no_pos KLambdaParameter [(FLabel, VStr "foo")]); Some (nd no_pos KLambdaParameter [(FLabel, VStr "bar")])]))); (FExpr, VEmb (nd no_pos KExpr [(FLeft, VPtr (Some (nd no_pos KExprConditional [(FCondition, VEmb (nd no_pos KExprLogicalOr [(FLeft, VEmb (nd no_pos KExprLogicalAnd [(FLeft, VEmb (nd no_pos KExprBitwiseOr [(FLeft, VEmb (nd no_pos KExprBitwiseXor [(FLeft, VEmb (nd no_pos KExprBitwiseAnd [(FLeft, VEmb (nd no_pos KExprEquality [(FLeft, VEmb (nd no_pos KExprRelational [(FLeft, VEmb (nd no_pos KExprShift [(FLeft, VEmb (nd no_pos KExprAdditive [(FLeft, VEmb (nd no_pos KExprMultiplicative [(FLeft, VEmb (nd no_pos KExprUnary [(FRight, VEmb (nd no_pos KExprPostfix [(FValue, VEmb (nd no_pos KExprPrimary [(FValue, VPtr (Some (nd no_pos KValue [(FNumber, VPtr (Some (nd no_pos KValueNumber [(FValue, VFloat (Some (tt, "1"))); (FSource, VStr "1")])))])))]))]))]))]))]))]))]))]))]))]))]))]))]))])))]))]));
("TestLambda_FormattedString/Comment", same (Some ("// foo" +:+ (String "010" "") +:+ "() => 1")) (nd no_pos KLambda [(FComment, VPtr (Some (nd no_pos KComment [(FSingleLine, VStrs (Some (tt, ["// foo"])))]))); (FParameters, VList None); (FExpr, VEmb (nd no_pos KExpr [(FLeft, VPtr (Some (nd no_pos KExprConditional [(FCondition, VEmb (nd no_pos KExprLogicalOr [(FLeft, VEmb (nd no_pos KExprLogicalAnd [(FLeft, VEmb (nd no_pos KExprBitwiseOr [(FLeft, VEmb (nd no_pos KExprBitwiseXor [(FLeft, VEmb (nd no_pos KExprBitwiseAnd [(FLeft, VEmb (nd no_pos KExprEquality [(FLeft, VEmb (nd no_pos KExprRelational [(FLeft, VEmb (nd no_pos KExprShift [(FLeft, VEmb (nd no_pos KExprAdditive [(FLeft, VEmb (nd no_pos KExprMultiplicative [(FLeft, VEmb (nd no_pos KExprUnary [(FRight, VEmb (nd no_pos KExprPostfix [(FValue, VEmb (nd no_pos KExprPrimary [(FValue, VPtr (Some (nd no_pos KValue [(FNumber, VPtr (Some (nd no_pos KValueNumber [(FValue, VFloat (Some (tt, "1"))); (FSource, VStr "1")])))])))]))]))]))]))]))]))]))]))]))]))]))]))]))])))]))]));
("TestLambdaParameter_FormattedString/Empty", same (Some "") (nd no_pos KLambdaParameter []));
("TestLambdaParameter_FormattedString/No Type", same (Some "foo") (nd no_pos KLambdaParameter [(FLabel, VStr "foo")]));
("TestLambdaParameter_FormattedString/Typed", same (Some "foo: number") (nd no_pos KLambdaParameter [(FLabel, VStr "foo"); (FType, VPtr (Some (nd no_pos KParameterType [(FIdent, VPtr (Some (nd no_pos KIdent [(FParts, VStrs (Some (tt, ["number"])))])))])))]));
("TestType_FormattedString/Empty", same None (nd no_pos KType []));
("TestType_FormattedString/Enum", same (Some ("type foo enum {" +:+ (String "010" "") +:+ (String "009" "") +:+ "bar: 1" +:+ (String "010" "") +:+ "}")) (nd no_pos KType [(FLabel, VStr "foo"); (FEnum, VPtr (Some (nd no_pos KTypeEnum [(FItems, VList (Some (tt, [Some (nd no_pos KTypeEnumItem [(FLabel, VStr "bar"); (FValue, VEmb (nd no_pos KExpr [(FLeft, VPtr (Some (nd no_pos KExprConditional [(FCondition, VEmb (nd no_pos KExprLogicalOr [(FLeft, VEmb (nd no_pos KExprLogicalAnd [(FLeft, VEmb (nd no_pos KExprBitwiseOr [(FLeft, VEmb (nd no_pos KExprBitwiseXor [(FLeft, VEmb (nd no_pos KExprBitwiseAnd [(FLeft, VEmb (nd no_pos KExprEquality [(FLeft, VEmb (nd no_pos KExprRelational [(FLeft, VEmb (nd no_pos KExprShift [(FLeft, VEmb (nd no_pos KExprAdditive [(FLeft, VEmb (nd no_pos KExprMultiplicative [(FLeft, VEmb (nd no_pos KExprUnary [(FRight, VEmb (nd no_pos KExprPostfix [(FValue, VEmb (nd no_pos KExprPrimary [(FValue, VPtr (Some (nd no_pos KValue [(FNumber, VPtr (Some (nd no_pos KValueNumber [(FValue, VFloat (Some (tt, "1"))); (FSource, VStr "1")])))])))]))]))]))]))]))]))]))]))]))]))]))]))]))])))]))])])))])))]));
("TestType_FormattedString/Object", same (Some ("type foo object {" +:+ (String "010" "") +:+ (String "009" "") +:+ "bar: number" +:+ (String "010" "") +:+ "}")) (nd no_pos KType [(FLabel, VStr "foo"); (FObject, VPtr (Some (nd no_pos KTypeObject [(FItems, VList (Some (tt, [Some (nd no_pos KTypeObjectItem [(FLabel, VStr "bar"); (FType, VEmb (nd no_pos KParameterType [(FIdent, VPtr (Some (nd no_pos KIdent [(FParts, VStrs (Some (tt, ["number"])))])))]))])])))])))]));
("TestTypeEnum_FormattedString/Empty", same (Some "") (nd no_pos KTypeEnum []));
("TestTypeEnum_FormattedString/One Value", same (Some ((String "010" "") +:+ "foo: 1")) (nd no_pos KTypeEnum [(FItems, VList (Some (tt, [Some (nd no_pos KTypeEnumItem [(FLabel, VStr "foo"); (FValue, VEmb (nd no_pos KExpr [(FLeft, VPtr (Some (nd no_pos KExprConditional [(FCondition, VEmb (nd no_pos KExprLogicalOr [(FLeft, VEmb (nd no_pos KExprLogicalAnd [(FLeft, VEmb (nd no_pos KExprBitwiseOr [(FLeft, VEmb (nd no_pos KExprBitwiseXor [(FLeft, VEmb (nd no_pos KExprBitwiseAnd [(FLeft, VEmb (nd no_pos KExprEquality [(FLeft, VEmb (nd no_pos KExprRelational [(FLeft, VEmb (nd no_pos KExprShift [(FLeft, VEmb (nd no_pos KExprAdditive [(FLeft, VEmb (nd no_pos KExprMultiplicative [(FLeft, VEmb (nd no_pos KExprUnary [(FRight, VEmb (nd no_pos KExprPostfix [(FValue, VEmb (nd no_pos KExprPrimary [(FValue, VPtr (Some (nd no_pos KValue [(FNumber, VPtr (Some (nd no_pos KValueNumber [(FValue, VFloat (Some (tt, "1"))); (FSource, VStr "1")])))])))]))]))]))]))]))]))]))]))]))]))]))]))]))])))]))])])))]));
("TestTypeEnum_FormattedString/Two Values", same (Some ((String "010" "") +:+ "foo: 1" +:+ (String "010" "") +:+ "bar: 2")) (nd no_pos KTypeEnum [(FItems, VList (Some (tt, [Some (nd no_pos KTypeEnumItem [(FLabel, VStr "foo"); (FValue, VEmb (nd no_pos KExpr [(FLeft, VPtr (Some (nd no_pos KExprConditional [(FCondition, VEmb (nd no_pos KExprLogicalOr [(FLeft, VEmb (nd no_pos KExprLogicalAnd [(FLeft, VEmb (nd no_pos KExprBitwiseOr [(FLeft, VEmb (nd no_pos KExprBitwiseXor [(FLeft, VEmb (nd no_pos KExprBitwiseAnd [(FLeft, VEmb (nd no_pos KExprEquality [(FLeft, VEmb (nd no_pos KExprRelational [(FLeft, VEmb (nd no_pos KExprShift [(FLeft, VEmb (nd no_pos KExprAdditive [(FLeft, VEmb (nd no_pos KExprMultiplicative [(FLeft, VEmb (nd no_pos KExprUnary [(FRight, VEmb (nd no_pos KExprPostfix [(FValue, VEmb (nd no_pos KExprPrimary [(FValue, VPtr (Some (nd no_pos KValue [(FNumber, VPtr (Some (nd no_pos KValueNumber [(FValue, VFloat (Some (tt, "1"))); (FSource, VStr "1")])))])))]))]))]))]))]))]))]))]))]))]))]))]))]))])))]))]); Some (nd no_pos KTypeEnumItem [(FLabel, VStr "bar"); (FValue, VEmb (nd no_pos KExpr [(FLeft, VPtr (Some (nd no_pos KExprConditional [(FCondition, VEmb (nd no_pos KExprLogicalOr [(FLeft, VEmb (nd no_pos KExprLogicalAnd [(FLeft, VEmb (nd no_pos KExprBitwiseOr [(FLeft, VEmb (nd no_pos KExprBitwiseXor [(FLeft, VEmb (nd no_pos KExprBitwiseAnd [(FLeft, VEmb (nd no_pos KExprEquality [(FLeft, VEmb (nd no_pos KExprRelational [(FLeft, VEmb (nd no_pos KExprShift [(FLeft, VEmb (nd no_pos KExprAdditive [(FLeft, VEmb (nd no_pos KExprMultiplicative [(FLeft, VEmb (nd no_pos KExprUnary [(FRight, VEmb (nd no_pos KExprPostfix [(FValue, VEmb (nd no_pos KExprPrimary [(FValue, VPtr (Some (nd no_pos KValue [(FNumber, VPtr (Some (nd no_pos KValueNumber [(FValue, VFloat (Some (tt, "1"))); (FSource, VStr "2")])))])))]))]))]))]))]))]))]))]))]))]))]))]))]))])))]))])])))]));
("TestTypeEnumItem_FormattedString/Empty", same None (nd no_pos KTypeEnumItem []));
("TestTypeEnumItem_FormattedString/Value", same (Some "foo: 1") (nd no_pos KTypeEnumItem [(FLabel, VStr "foo"); (FValue, VEmb (nd no_pos KExpr [(FLeft, VPtr (Some (nd no_pos KExprConditional [(FCondition, VEmb (nd no_pos KExprLogicalOr [(FLeft, VEmb (nd no_pos KExprLogicalAnd [(FLeft, VEmb (nd no_pos KExprBitwiseOr [(FLeft, VEmb (nd no_pos KExprBitwiseXor [(FLeft, VEmb (nd no_pos KExprBitwiseAnd [(FLeft, VEmb (nd no_pos KExprEquality [(FLeft, VEmb (nd no_pos KExprRelational [(FLeft, VEmb (nd no_pos KExprShift [(FLeft, VEmb (nd no_pos KExprAdditive [(FLeft, VEmb (nd no_pos KExprMultiplicative [(FLeft, VEmb (nd no_pos KExprUnary [(FRight, VEmb (nd no_pos KExprPostfix [(FValue, VEmb (nd no_pos KExprPrimary [(FValue, VPtr (Some (nd no_pos KValue [(FNumber, VPtr (Some (nd no_pos KValueNumber [(FValue, VFloat (Some (tt, "1"))); (FSource, VStr "1")])))])))]))]))]))]))]))]))]))]))]))]))]))]))]))])))]))]));
("TestTypeEnumItem_FormattedString/Comment", same (Some ("// foo" +:+ (String "010" ""))) (nd no_pos KTypeEnumItem [(FComment, VPtr (Some (nd no_pos KComment [(FSingleLine, VStrs (Some (tt, ["// foo"])))])))]));
("TestTypeEnumItem_FormattedString/Empty Line", same (Some ((String "010" ""))) (nd no_pos KTypeEnumItem [(FEmptyLine, VStr ((String "010" "")))]));
("TestTypeObject_FormattedString/Empty", same (Some "") (nd no_pos KTypeObject []));
("TestTypeObject_FormattedString/One Type", same (Some ((String "010" "") +:+ "foo: number")) (nd no_pos KTypeObject [(FItems, VList (Some (tt, [Some (nd no_pos KTypeObjectItem [(FLabel, VStr "foo"); (FType, VEmb (nd no_pos KParameterType [(FIdent, VPtr (Some (nd no_pos KIdent [(FParts, VStrs (Some (tt, ["number"])))])))]))])])))]));
("TestTypeObject_FormattedString/Two Types", same (Some ((String "010" "") +:+ "foo: number" +:+ (String "010" "") +:+ "bar: string")) (nd no_pos KTypeObject [(FItems, VList (Some (tt, [Some (nd no_pos KTypeObjectItem [(FLabel, VStr "foo"); (FType, VEmb (nd no_pos KParameterType [(FIdent, VPtr (Some (nd no_pos KIdent [(FParts, VStrs (Some (tt, ["number"])))])))]))]); Some (nd no_pos KTypeObjectItem [(FLabel, VStr "bar"); (FType, VEmb (nd no_pos KParameterType [(FIdent, VPtr (Some (nd no_pos KIdent [(FParts, VStrs (Some (tt, ["string"])))])))]))])])))]));
("TestTypeObjectItem_FormattedString/Empty", same None (nd no_pos KTypeObjectItem []));
("TestTypeObjectItem_FormattedString/Value", same (Some "foo: bar") (nd no_pos KTypeObjectItem [(FLabel, VStr "foo"); (FType, VEmb (nd no_pos KParameterType [(FIdent, VPtr (Some (nd no_pos KIdent [(FParts, VStrs (Some (tt, ["bar"])))])))]))]));
("TestTypeObjectItem_FormattedString/Comment", same (Some ("// foo" +:+ (String "010" ""))) (nd no_pos KTypeObjectItem [(FComment, VPtr (Some (nd no_pos KComment [(FSingleLine, VStrs (Some (tt, ["// foo"])))])))]));
("TestTypeObjectItem_FormattedString/Empty Line", same (Some ((String "010" ""))) (nd no_pos KTypeObjectItem [(FEmptyLine, VStr ((String "010" "")))]));
("TestHeredoc_FormattedString/Empty", same None (nd no_pos KHeredoc []));
("TestHeredoc_FormattedString/No value", same (Some ("<<EOF" +:+ (String "010" "") +:+ "EOF")) (nd no_pos KHeredoc [(FDelimiter, VStr "EOF"); (FLeadingTabs, VBool false)]));
("TestHeredoc_FormattedString/Only linebreaks", same (Some ("<<EOF" +:+ (String "010" "") +:+ (String "010" "") +:+ (String "010" "") +:+ "EOF")) (nd no_pos KHeredoc [(FFragments, VList (Some (tt, [Some (nd no_pos KHeredocFragment [(FText, VStr ((String "010" "") +:+ (String "010" "")))])]))); (FDelimiter, VStr "EOF"); (FLeadingTabs, VBool false)]));
("TestHeredoc_FormattedString/value with leading linebreaks", same (Some ("<<EOF" +:+ (String "010" "") +:+ (String "010" "") +:+ "foo" +:+ (String "010" "") +:+ "EOF")) (nd no_pos KHeredoc [(FFragments, VList (Some (tt, [Some (nd no_pos KHeredocFragment [(FText, VStr ((String "010" "") +:+ (String "010" "") +:+ "foo"))])]))); (FDelimiter, VStr "EOF"); (FLeadingTabs, VBool false)]));
("TestHeredoc_FormattedString/value with trailing linebreaks", same (Some ("<<EOF" +:+ (String "010" "") +:+ "foo" +:+ (String "010" "") +:+ (String "010" "") +:+ "EOF")) (nd no_pos KHeredoc [(FFragments, VList (Some (tt, [Some (nd no_pos KHeredocFragment [(FText, VStr ((String "010" "") +:+ "foo" +:+ (String "010" "")))])]))); (FDelimiter, VStr "EOF"); (FLeadingTabs, VBool false)]));
("TestHeredoc_FormattedString/value - no trailing tabs", same (Some ("<<EOF" +:+ (String "010" "") +:+ "foo" +:+ (String "010" "") +:+ "EOF")) (nd no_pos KHeredoc [(FFragments, VList (Some (tt, [Some (nd no_pos KHeredocFragment [(FText, VStr ((String "010" "") +:+ "foo"))])]))); (FDelimiter, VStr "EOF"); (FLeadingTabs, VBool false)]));
("TestHeredoc_FormattedString/value - trailing tabs", same (Some ("<<-EOF" +:+ (String "010" "") +:+ "foo" +:+ (String "010" "") +:+ "EOF")) (nd no_pos KHeredoc [(FFragments, VList (Some (tt, [Some (nd no_pos KHeredocFragment [(FText, VStr ((String "010" "") +:+ "foo"))])]))); (FDelimiter, VStr "EOF"); (FLeadingTabs, VBool true)]));
("TestHeredocFragment_FormattedString/Empty", same (Some "") (nd no_pos KHeredocFragment []));
("TestHeredocFragment_FormattedString/Expr", same (Some "${ 1 }") (nd no_pos KHeredocFragment [(FExpr, VPtr (Some (nd no_pos KExpr [(FLeft, VPtr (Some (nd no_pos KExprConditional [(FCondition, VEmb (nd no_pos KExprLogicalOr [(FLeft, VEmb (nd no_pos KExprLogicalAnd [(FLeft, VEmb (nd no_pos KExprBitwiseOr [(FLeft, VEmb (nd no_pos KExprBitwiseXor [(FLeft, VEmb (nd no_pos KExprBitwiseAnd [(FLeft, VEmb (nd no_pos KExprEquality [(FLeft, VEmb (nd no_pos KExprRelational [(FLeft, VEmb (nd no_pos KExprShift [(FLeft, VEmb (nd no_pos KExprAdditive [(FLeft, VEmb (nd no_pos KExprMultiplicative [(FLeft, VEmb (nd no_pos KExprUnary [(FRight, VEmb (nd no_pos KExprPostfix [(FValue, VEmb (nd no_pos KExprPrimary [(FValue, VPtr (Some (nd no_pos KValue [(FNumber, VPtr (Some (nd no_pos KValueNumber [(FValue, VFloat (Some (tt, "1"))); (FSource, VStr "1")])))])))]))]))]))]))]))]))]))]))]))]))]))]))]))])))])))]));
("TestHeredocFragment_FormattedString/Directive", same (Some "%{ 1 }") (nd no_pos KHeredocFragment [(FDirective, VPtr (Some (nd no_pos KExpr [(FLeft, VPtr (Some (nd no_pos KExprConditional [(FCondition, VEmb (nd no_pos KExprLogicalOr [(FLeft, VEmb (nd no_pos KExprLogicalAnd [(FLeft, VEmb (nd no_pos KExprBitwiseOr [(FLeft, VEmb (nd no_pos KExprBitwiseXor [(FLeft, VEmb (nd no_pos KExprBitwiseAnd [(FLeft, VEmb (nd no_pos KExprEquality [(FLeft, VEmb (nd no_pos KExprRelational [(FLeft, VEmb (nd no_pos KExprShift [(FLeft, VEmb (nd no_pos KExprAdditive [(FLeft, VEmb (nd no_pos KExprMultiplicative [(FLeft, VEmb (nd no_pos KExprUnary [(FRight, VEmb (nd no_pos KExprPostfix [(FValue, VEmb (nd no_pos KExprPrimary [(FValue, VPtr (Some (nd no_pos KValue [(FNumber, VPtr (Some (nd no_pos KValueNumber [(FValue, VFloat (Some (tt, "1"))); (FSource, VStr "1")])))])))]))]))]))]))]))]))]))]))]))]))]))]))]))])))])))]));
("TestHeredocFragment_FormattedString/Text", same (Some "foo") (nd no_pos KHeredocFragment [(FText, VStr "foo")]));
("TestList_FormattedString/Empty", same (Some "[]") (nd no_pos KValueList []));
("TestList_FormattedString/One item", same (Some ("[" +:+ (String "010" "") +:+ (String "009" "") +:+ "a," +:+ (String "010" "") +:+ "]")) (nd no_pos KValueList [(FItems, VList (Some (tt, [Some (nd no_pos KListItem [(FValue, VPtr (Some (nd no_pos KExpr [(FLeft, VPtr (Some (nd no_pos KExprConditional [(FCondition, VEmb (nd no_pos KExprLogicalOr [(FLeft, VEmb (nd no_pos KExprLogicalAnd [(FLeft, VEmb (nd no_pos KExprBitwiseOr [(FLeft, VEmb (nd no_pos KExprBitwiseXor [(FLeft, VEmb (nd no_pos KExprBitwiseAnd [(FLeft, VEmb (nd no_pos KExprEquality [(FLeft, VEmb (nd no_pos KExprRelational [(FLeft, VEmb (nd no_pos KExprShift [(FLeft, VEmb (nd no_pos KExprAdditive [(FLeft, VEmb (nd no_pos KExprMultiplicative [(FLeft, VEmb (nd no_pos KExprUnary [(FRight, VEmb (nd no_pos KExprPostfix [(FValue, VEmb (nd no_pos KExprPrimary [(FIdent, VPtr (Some (nd no_pos KIdent [(FParts, VStrs (Some (tt, ["a"])))])))]))]))]))]))]))]))]))]))]))]))]))]))]))])))])))])])))]));
("TestList_FormattedString/Two items", same (Some ("[" +:+ (String "010" "") +:+ (String "009" "") +:+ "a," +:+ (String "010" "") +:+ (String "009" "") +:+ "b," +:+ (String "010" "") +:+ "]")) (nd no_pos KValueList [(FItems, VList (Some (tt, [Some (nd no_pos KListItem [(FValue, VPtr (Some (nd no_pos KExpr [(FLeft, VPtr (Some (nd no_pos KExprConditional [(FCondition, VEmb (nd no_pos KExprLogicalOr [(FLeft, VEmb (nd no_pos KExprLogicalAnd [(FLeft, VEmb (nd no_pos KExprBitwiseOr [(FLeft, VEmb (nd no_pos KExprBitwiseXor [(FLeft, VEmb (nd no_pos KExprBitwiseAnd [(FLeft, VEmb (nd no_pos KExprEquality [(FLeft, VEmb (nd no_pos KExprRelational [(FLeft, VEmb (nd no_pos KExprShift [(FLeft, VEmb (nd no_pos KExprAdditive [(FLeft, VEmb (nd no_pos KExprMultiplicative [(FLeft, VEmb (nd no_pos KExprUnary [(FRight, VEmb (nd no_pos KExprPostfix [(FValue, VEmb (nd no_pos KExprPrimary [(FIdent, VPtr (Some (nd no_pos KIdent [(FParts, VStrs (Some (tt, ["a"])))])))]))]))]))]))]))]))]))]))]))]))]))]))]))])))])))]); Some (nd no_pos KListItem [(FValue, VPtr (Some (nd no_pos KExpr [(FLeft, VPtr (Some (nd no_pos KExprConditional [(FCondition, VEmb (nd no_pos KExprLogicalOr [(FLeft, VEmb (nd no_pos KExprLogicalAnd [(FLeft, VEmb (nd no_pos KExprBitwiseOr [(FLeft, VEmb (nd no_pos KExprBitwiseXor [(FLeft, VEmb (nd no_pos KExprBitwiseAnd [(FLeft, VEmb (nd no_pos KExprEquality [(FLeft, VEmb (nd no_pos KExprRelational [(FLeft, VEmb (nd no_pos KExprShift [(FLeft, VEmb (nd no_pos KExprAdditive [(FLeft, VEmb (nd no_pos KExprMultiplicative [(FLeft, VEmb (nd no_pos KExprUnary [(FRight, VEmb (nd no_pos KExprPostfix [(FValue, VEmb (nd no_pos KExprPrimary [(FIdent, VPtr (Some (nd no_pos KIdent [(FParts, VStrs (Some (tt, ["b"])))])))]))]))]))]))]))]))]))]))]))]))]))]))]))])))])))])])))]));
("TestListItem_FormattedString/Empty", same None (nd no_pos KListItem []));
("TestListItem_FormattedString/EmptyLine", same (Some ((String "010" ""))) (nd no_pos KListItem [(FEmptyLine, VStr ((String "010" "")))]));
("TestListItem_FormattedString/Value", same (Some ("a," +:+ (String "010" ""))) (nd no_pos KListItem [(FValue, VPtr (Some (nd no_pos KExpr [(FLeft, VPtr (Some (nd no_pos KExprConditional [(FCondition, VEmb (nd no_pos KExprLogicalOr [(FLeft, VEmb (nd no_pos KExprLogicalAnd [(FLeft, VEmb (nd no_pos KExprBitwiseOr [(FLeft, VEmb (nd no_pos KExprBitwiseXor [(FLeft, VEmb (nd no_pos KExprBitwiseAnd [(FLeft, VEmb (nd no_pos KExprEquality [(FLeft, VEmb (nd no_pos KExprRelational [(FLeft, VEmb (nd no_pos KExprShift [(FLeft, VEmb (nd no_pos KExprAdditive [(FLeft, VEmb (nd no_pos KExprMultiplicative [(FLeft, VEmb (nd no_pos KExprUnary [(FRight, VEmb (nd no_pos KExprPostfix [(FValue, VEmb (nd no_pos KExprPrimary [(FIdent, VPtr (Some (nd no_pos KIdent [(FParts, VStrs (Some (tt, ["a"])))])))]))]))]))]))]))]))]))]))]))]))]))]))]))])))])))]));
("TestListItem_FormattedString/Comment", same (Some "/* foo */") (nd no_pos KListItem [(FComment, VPtr (Some (nd no_pos KComment [(FMultiline, VStr "/* foo */")])))]));
("TestMap_FormattedString/Empty", same (Some "{}") (nd no_pos KValueMap []));
("TestMap_FormattedString/One entry", same (Some ("{" +:+ (String "010" "") +:+ (String "009" "") +:+ "a: 1," +:+ (String "010" "") +:+ "}")) (nd no_pos KValueMap [(FItems, VList (Some (tt, [Some (nd no_pos KMapItem [(FKey, VPtr (Some (nd no_pos KMapKey [(FIdent, VPtr (Some (nd no_pos KIdent [(FParts, VStrs (Some (tt, ["a"])))])))]))); (FValue, VPtr (Some (nd no_pos KExpr [(FLeft, VPtr (Some (nd no_pos KExprConditional [(FCondition, VEmb (nd no_pos KExprLogicalOr [(FLeft, VEmb (nd no_pos KExprLogicalAnd [(FLeft, VEmb (nd no_pos KExprBitwiseOr [(FLeft, VEmb (nd no_pos KExprBitwiseXor [(FLeft, VEmb (nd no_pos KExprBitwiseAnd [(FLeft, VEmb (nd no_pos KExprEquality [(FLeft, VEmb (nd no_pos KExprRelational [(FLeft, VEmb (nd no_pos KExprShift [(FLeft, VEmb (nd no_pos KExprAdditive [(FLeft, VEmb (nd no_pos KExprMultiplicative [(FLeft, VEmb (nd no_pos KExprUnary [(FRight, VEmb (nd no_pos KExprPostfix [(FValue, VEmb (nd no_pos KExprPrimary [(FValue, VPtr (Some (nd no_pos KValue [(FNumber, VPtr (Some (nd no_pos KValueNumber [(FValue, VFloat (Some (tt, "1"))); (FSource, VStr "1")])))])))]))]))]))]))]))]))]))]))]))]))]))]))]))])))])))])])))]));
("TestMap_FormattedString/Two entries", same (Some ("{" +:+ (String "010" "") +:+ (String "009" "") +:+ "a: 1," +:+ (String "010" "") +:+ (String "009" "") +:+ "b: 2," +:+ (String "010" "") +:+ "}")) (nd no_pos KValueMap [(FItems, VList (Some (tt, [Some (nd no_pos KMapItem [(FKey, VPtr (Some (nd no_pos KMapKey [(FIdent, VPtr (Some (nd no_pos KIdent [(FParts, VStrs (Some (tt, ["a"])))])))]))); (FValue, VPtr (Some (nd no_pos KExpr [(FLeft, VPtr (Some (nd no_pos KExprConditional [(FCondition, VEmb (nd no_pos KExprLogicalOr [(FLeft, VEmb (nd no_pos KExprLogicalAnd [(FLeft, VEmb (nd no_pos KExprBitwiseOr [(FLeft, VEmb (nd no_pos KExprBitwiseXor [(FLeft, VEmb (nd no_pos KExprBitwiseAnd [(FLeft, VEmb (nd no_pos KExprEquality [(FLeft, VEmb (nd no_pos KExprRelational [(FLeft, VEmb (nd no_pos KExprShift [(FLeft, VEmb (nd no_pos KExprAdditive [(FLeft, VEmb (nd no_pos KExprMultiplicative [(FLeft, VEmb (nd no_pos KExprUnary [(FRight, VEmb (nd no_pos KExprPostfix [(FValue, VEmb (nd no_pos KExprPrimary [(FValue, VPtr (Some (nd no_pos KValue [(FNumber, VPtr (Some (nd no_pos KValueNumber [(FValue, VFloat (Some (tt, "1"))); (FSource, VStr "1")])))])))]))]))]))]))]))]))]))]))]))]))]))]))]))])))])))]); Some (nd no_pos KMapItem [(FKey, VPtr (Some (nd no_pos KMapKey [(FIdent, VPtr (Some (nd no_pos KIdent [(FParts, VStrs (Some (tt, ["b"])))])))]))); (FValue, VPtr (Some (nd no_pos KExpr [(FLeft, VPtr (Some (nd no_pos KExprConditional [(FCondition, VEmb (nd no_pos KExprLogicalOr [(FLeft, VEmb (nd no_pos KExprLogicalAnd [(FLeft, VEmb (nd no_pos KExprBitwiseOr [(FLeft, VEmb (nd no_pos KExprBitwiseXor [(FLeft, VEmb (nd no_pos KExprBitwiseAnd [(FLeft, VEmb (nd no_pos KExprEquality [(FLeft, VEmb (nd no_pos KExprRelational [(FLeft, VEmb (nd no_pos KExprShift [(FLeft, VEmb (nd no_pos KExprAdditive [(FLeft, VEmb (nd no_pos KExprMultiplicative [(FLeft, VEmb (nd no_pos KExprUnary [(FRight, VEmb (nd no_pos KExprPostfix [(FValue, VEmb (nd no_pos KExprPrimary [(FValue, VPtr (Some (nd no_pos KValue [(FNumber, VPtr (Some (nd no_pos KValueNumber [(FValue, VFloat (Some (tt, "1"))); (FSource, VStr "2")])))])))]))]))]))]))]))]))]))]))]))]))]))]))]))])))])))])])))]));
("TestMapEntry_FormattedString/Empty", same None (nd no_pos KMapItem []));
("TestMapEntry_FormattedString/Values", same (Some "a = 1") (nd no_pos KMapItem [(FKey, VPtr (Some (nd no_pos KMapKey [(FIdent, VPtr (Some (nd no_pos KIdent [(FParts, VStrs (Some (tt, ["a"])))])))]))); (FValue, VPtr (Some (nd no_pos KExpr [(FLeft, VPtr (Some (nd no_pos KExprConditional [(FCondition, VEmb (nd no_pos KExprLogicalOr [(FLeft, VEmb (nd no_pos KExprLogicalAnd [(FLeft, VEmb (nd no_pos KExprBitwiseOr [(FLeft, VEmb (nd no_pos KExprBitwiseXor [(FLeft, VEmb (nd no_pos KExprBitwiseAnd [(FLeft, VEmb (nd no_pos KExprEquality [(FLeft, VEmb (nd no_pos KExprRelational [(FLeft, VEmb (nd no_pos KExprShift [(FLeft, VEmb (nd no_pos KExprAdditive [(FLeft, VEmb (nd no_pos KExprMultiplicative [(FLeft, VEmb (nd no_pos KExprUnary [(FRight, VEmb (nd no_pos KExprPostfix [(FValue, VEmb (nd no_pos KExprPrimary [(FValue, VPtr (Some (nd no_pos KValue [(FNumber, VPtr (Some (nd no_pos KValueNumber [(FValue, VFloat (Some (tt, "1"))); (FSource, VStr "1")])))])))]))]))]))]))]))]))]))]))]))]))]))]))]))])))])))]));
("TestMapEntry_FormattedString/Comment", same (Some ("// foo" +:+ (String "010" ""))) (nd no_pos KMapItem [(FComment, VPtr (Some (nd no_pos KComment [(FSingleLine, VStrs (Some (tt, ["// foo"])))])))]));
("TestMapEntry_FormattedString/EmptyLine", same (Some ((String "010" ""))) (nd no_pos KMapItem [(FEmptyLine, VStr ((String "010" "")))]));
("TestMapKey_FormattedString/Empty", same None (nd no_pos KMapKey []));
("TestMapKey_FormattedString/Ident", same (Some "a") (nd no_pos KMapKey [(FIdent, VPtr (Some (nd no_pos KIdent [(FParts, VStrs (Some (tt, ["a"])))])))]));
("TestMapKey_FormattedString/Str", same (Some """a""") (nd no_pos KMapKey [(FStr, VPtr (Some (nd no_pos KValueString [(FFragment, VList (Some (tt, [Some (nd no_pos KStringFragment [(FText, VStr "a")])])))])))]));
("TestNumber_FormattedString/Empty", same None (nd no_pos KValueNumber []));
("TestNumber_FormattedString/Value and string match", same (Some "0") (nd no_pos KValueNumber [(FValue, VFloat (Some (tt, "0"))); (FSource, VStr "0")]));
("TestNumber_FormattedString/Value and string mismatch", same (Some "1") (nd no_pos KValueNumber [(FValue, VFloat (Some (tt, "0"))); (FSource, VStr "1")]));
("TestNumber_FormattedString/Empty string ", same (Some "0") (nd no_pos KValueNumber [(FValue, VFloat (Some (tt, "0"))); (FSource, VStr "")]));
("TestString_FormattedString/Empty", same (Some """""") (nd no_pos KValueString []));
("TestString_FormattedString/Empty String", same (Some """""") (nd no_pos KValueString [(FFragment, VList (Some (tt, [Some (nd no_pos KStringFragment [(FText, VStr "")])])))]));
("TestString_FormattedString/One Text Fragment", same (Some """hello world""") (nd no_pos KValueString [(FFragment, VList (Some (tt, [Some (nd no_pos KStringFragment [(FText, VStr "hello world")])])))]));
("TestString_FormattedString/Several Text Fragments", same (Some """hello world""") (nd no_pos KValueString [(FFragment, VList (Some (tt, [Some (nd no_pos KStringFragment [(FText, VStr "hello ")]); Some (nd no_pos KStringFragment [(FText, VStr "world")])])))]));
("TestString_FormattedString/Text and Escaped", same (Some """hello \t world""") (nd no_pos KValueString [(FFragment, VList (Some (tt, [Some (nd no_pos KStringFragment [(FText, VStr "hello ")]); Some (nd no_pos KStringFragment [(FEscaped, VStr "t")]); Some (nd no_pos KStringFragment [(FText, VStr " world")])])))]));
("TestString_FormattedString/Text and Unicode", same (Some """hello \u1234 world""") (nd no_pos KValueString [(FFragment, VList (Some (tt, [Some (nd no_pos KStringFragment [(FText, VStr "hello ")]); Some (nd no_pos KStringFragment [(FUnicode, VStr "1234")]); Some (nd no_pos KStringFragment [(FText, VStr " world")])])))]));
("TestString_FormattedString/Text and Expression", same (Some """hello ${foo} world""") (nd no_pos KValueString [(FFragment, VList (Some (tt, [Some (nd no_pos KStringFragment [(FText, VStr "hello ")]); Some (nd no_pos KStringFragment [(FExpr, VPtr (Some (nd no_pos KExpr [(FLeft, VPtr (Some (nd no_pos KExprConditional [(FCondition, VEmb (nd no_pos KExprLogicalOr [(FLeft, VEmb (nd no_pos KExprLogicalAnd [(FLeft, VEmb (nd no_pos KExprBitwiseOr [(FLeft, VEmb (nd no_pos KExprBitwiseXor [(FLeft, VEmb (nd no_pos KExprBitwiseAnd [(FLeft, VEmb (nd no_pos KExprEquality [(FLeft, VEmb (nd no_pos KExprRelational [(FLeft, VEmb (nd no_pos KExprShift [(FLeft, VEmb (nd no_pos KExprAdditive [(FLeft, VEmb (nd no_pos KExprMultiplicative [(FLeft, VEmb (nd no_pos KExprUnary [(FRight, VEmb (nd no_pos KExprPostfix [(FValue, VEmb (nd no_pos KExprPrimary [(FIdent, VPtr (Some (nd no_pos KIdent [(FParts, VStrs (Some (tt, ["foo"])))])))]))]))]))]))]))]))]))]))]))]))]))]))]))])))])))]); Some (nd no_pos KStringFragment [(FText, VStr " world")])])))]));
("TestString_FormattedString/Text and Directive", same (Some """hello %{foo} world""") (nd no_pos KValueString [(FFragment, VList (Some (tt, [Some (nd no_pos KStringFragment [(FText, VStr "hello ")]); Some (nd no_pos KStringFragment [(FDirective, VPtr (Some (nd no_pos KExpr [(FLeft, VPtr (Some (nd no_pos KExprConditional [(FCondition, VEmb (nd no_pos KExprLogicalOr [(FLeft, VEmb (nd no_pos KExprLogicalAnd [(FLeft, VEmb (nd no_pos KExprBitwiseOr [(FLeft, VEmb (nd no_pos KExprBitwiseXor [(FLeft, VEmb (nd no_pos KExprBitwiseAnd [(FLeft, VEmb (nd no_pos KExprEquality [(FLeft, VEmb (nd no_pos KExprRelational [(FLeft, VEmb (nd no_pos KExprShift [(FLeft, VEmb (nd no_pos KExprAdditive [(FLeft, VEmb (nd no_pos KExprMultiplicative [(FLeft, VEmb (nd no_pos KExprUnary [(FRight, VEmb (nd no_pos KExprPostfix [(FValue, VEmb (nd no_pos KExprPrimary [(FIdent, VPtr (Some (nd no_pos KIdent [(FParts, VStrs (Some (tt, ["foo"])))])))]))]))]))]))]))]))]))]))]))]))]))]))]))])))])))]); Some (nd no_pos KStringFragment [(FText, VStr " world")])])))]));
("TestStringFragment_FormattedString/Empty", same (Some "") (nd no_pos KStringFragment []));
("TestStringFragment_FormattedString/Text", same (Some "hello world") (nd no_pos KStringFragment [(FText, VStr "hello world")]));
("TestStringFragment_FormattedString/Escaped", same (Some "\t") (nd no_pos KStringFragment [(FEscaped, VStr "t")]));
("TestStringFragment_FormattedString/Unicode", same (Some "\u1234") (nd no_pos KStringFragment [(FUnicode, VStr "1234")]));
("TestStringFragment_FormattedString/Expression", same (Some "${foo}") (nd no_pos KStringFragment [(FExpr, VPtr (Some (nd no_pos KExpr [(FLeft, VPtr (Some (nd no_pos KExprConditional [(FCondition, VEmb (nd no_pos KExprLogicalOr [(FLeft, VEmb (nd no_pos KExprLogicalAnd [(FLeft, VEmb (nd no_pos KExprBitwiseOr [(FLeft, VEmb (nd no_pos KExprBitwiseXor [(FLeft, VEmb (nd no_pos KExprBitwiseAnd [(FLeft, VEmb (nd no_pos KExprEquality [(FLeft, VEmb (nd no_pos KExprRelational [(FLeft, VEmb (nd no_pos KExprShift [(FLeft, VEmb (nd no_pos KExprAdditive [(FLeft, VEmb (nd no_pos KExprMultiplicative [(FLeft, VEmb (nd no_pos KExprUnary [(FRight, VEmb (nd no_pos KExprPostfix [(FValue, VEmb (nd no_pos KExprPrimary [(FIdent, VPtr (Some (nd no_pos KIdent [(FParts, VStrs (Some (tt, ["foo"])))])))]))]))]))]))]))]))]))]))]))]))]))]))]))])))])))]));
("TestStringFragment_FormattedString/Directive", same (Some "%{foo}") (nd no_pos KStringFragment [(FDirective, VPtr (Some (nd no_pos KExpr [(FLeft, VPtr (Some (nd no_pos KExprConditional [(FCondition, VEmb (nd no_pos KExprLogicalOr [(FLeft, VEmb (nd no_pos KExprLogicalAnd [(FLeft, VEmb (nd no_pos KExprBitwiseOr [(FLeft, VEmb (nd no_pos KExprBitwiseXor [(FLeft, VEmb (nd no_pos KExprBitwiseAnd [(FLeft, VEmb (nd no_pos KExprEquality [(FLeft, VEmb (nd no_pos KExprRelational [(FLeft, VEmb (nd no_pos KExprShift [(FLeft, VEmb (nd no_pos KExprAdditive [(FLeft, VEmb (nd no_pos KExprMultiplicative [(FLeft, VEmb (nd no_pos KExprUnary [(FRight, VEmb (nd no_pos KExprPostfix [(FValue, VEmb (nd no_pos KExprPrimary [(FIdent, VPtr (Some (nd no_pos KIdent [(FParts, VStrs (Some (tt, ["foo"])))])))]))]))]))]))]))]))]))]))]))]))]))]))]))])))])))]));
("TestValue_FormattedString/Empty", same None (nd no_pos KValue []));
("TestValue_FormattedString/Null", same (Some "null") (nd no_pos KValue [(FNull, VBool true)]));
("TestValue_FormattedString/Bool Value", same (Some "true") (nd no_pos KValue [(FBool, VPtr (Some (nd no_pos KValueBool [(FValue, VBool true)])))]));
("TestValue_FormattedString/Number Value", same (Some "1") (nd no_pos KValue [(FNumber, VPtr (Some (nd no_pos KValueNumber [(FValue, VFloat (Some (tt, "1"))); (FSource, VStr "1")])))]));
("TestValue_FormattedString/Str Value", same (Some """""") (nd no_pos KValue [(FStr, VPtr (Some (nd no_pos KValueString [(FFragment, VList (Some (tt, [])))])))]));
("TestValue_FormattedString/Heredoc Value", same (Some ("<<FOO" +:+ (String "010" "") +:+ "bar" +:+ (String "010" "") +:+ "FOO")) (nd no_pos KValue [(FHeredoc, VPtr (Some (nd no_pos KHeredoc [(FFragments, VList (Some (tt, [Some (nd no_pos KHeredocFragment [(FText, VStr ((String "010" "") +:+ "bar"))])]))); (FDelimiter, VStr "FOO")])))]));
("TestValue_FormattedString/List Value", same (Some "[]") (nd no_pos KValue [(FList, VPtr (Some (nd no_pos KValueList [(FItems, VList (Some (tt, [])))])))]));
("TestValue_FormattedString/Map Value", same (Some "{}") (nd no_pos KValue [(FMap, VPtr (Some (nd no_pos KValueMap [(FItems, VList (Some (tt, [])))])))]))].
Example formatting_tests_agree : map fst (filter (λ c, c.2 = false) cases) = [].
Proof. vm_compute. reflexivity. Qed.
