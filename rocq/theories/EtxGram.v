(** * The grammar of pkg/etx

    The struct tags of the AST types, read as participle v2 reads them: the tags of the
    fields of a struct are joined, and @ assigns to the field in whose tag it stands. *)
From stdpp Require Import base list option strings.
From Verif Require Import GoBase EtxAst EtxText EtxLex.

Inductive gexp : Type :=
| GLit (s : string)                  (* 's': a token with this text *)
| GTok (t : tname)                   (* Name: a token of this kind *)
| GSub (f : fld) (k : kind)          (* @@ in the tag of the field f of type k, *k or []*k *)
| GCap (f : fld) (g : gexp)          (* @g in the tag of the field f *)
| GSeq (gs : list gexp)              (* g g ... *)
| GAlt (gs : list gexp)              (* g | g ... *)
| GOpt (g : gexp)                    (* g? or [ g ] *)
| GMany (g : gexp)                   (* g* *)
| GSome (g : gexp).                  (* g+ *)

(** [ LF+ ] *)
Definition g_lfs : gexp := GOpt (GSome (GTok TLF)).
Definition g_lf : gexp := GOpt (GTok TLF).
(** @@ (',' @@)* *)
Definition g_list (f : fld) (k : kind) : list gexp := [GSub f k; GMany (GSeq [GLit ","; GSub f k])].
(** The tags of the ten binary operator levels:  @@ [ @Op @@ ] *)
Definition g_binary (left right : kind) (ops : gexp) : gexp :=
  GSeq [GSub FLeft left; GOpt (GSeq [GCap FOp ops; GSub FRight right])].
Definition g_decl (ds : list string) : gexp :=
  GSeq [GCap FDeclType (GAlt (map GLit ds)); GCap FLabel (GTok TIdent);
        GOpt (GSeq [GLit ":"; GSub FType KParameterType]); GOpt (GSeq [GLit "="; GSub FValue KExpr])].
Definition g_param : gexp :=
  GSeq [GCap FLabel (GTok TIdent); GOpt (GSeq [GLit ":"; GSub FType KParameterType])].
Definition g_empty_line : gexp := GSome (GCap FEmptyLine (GTok TLF)).

Definition grammar (k : kind) : gexp :=
  match k with
  (* ast.go:43 *)
  | KAST => GMany (GSub FItems KRootItem)
  (* ast.go:92-98 *)
  | KRootItem =>
      GAlt [g_empty_line; GSeq [GSub FDecl KDecl; g_lf]; GSeq [GSub FFunc KFunc; g_lf];
            GSeq [GSub FType KType; g_lf]; GSeq [GSub FBlock KBlock; g_lf];
            GSeq [GSub FAttribute KAttribute; g_lf]; GSub FComment KComment]
  (* ast.go:164-165 *)
  | KParameterType => GAlt [GSub FIdent KIdent; GSub FFunc KFuncSignature]
  (* ast.go:208-209 *)
  | KFuncSignature =>
      GSeq [GLit "("; GOpt (GSeq (g_list FParameters KParameterType)); GLit ")"; GTok TOpLambdaDef;
            GSub FReturn KParameterType]
  (* decl.go:14-17 *)
  | KDecl => g_decl ["input"; "output"; "const"; "val"]
  (* func.go:11-14 *)
  | KFunc =>
      GSeq [GLit "def"; GCap FLabel (GTok TIdent);
            GLit "("; GOpt (GSeq (g_list FParameters KFuncParameter)); GLit ")";
            GOpt (GAlt [GSeq [GLit "("; GOpt (GSeq (g_list FReturn KParameterType)); GLit ")"];
                        GSub FReturn KParameterType]);
            g_lfs; GLit "{"; g_lfs; GMany (GSub FBody KFuncStatement); GLit "}"]
  (* func.go:90-91 *)
  | KFuncParameter => g_param
  (* func.go:127-130 *)
  | KFuncStatement =>
      GAlt [g_empty_line; GSub FComment KComment; GSeq [GSub FDecl KFuncDecl; g_lf];
            GSeq [GSub FExpr KExpr; g_lf]]
  (* func.go:183-186 *)
  | KFuncDecl => g_decl ["const"; "val"]
  (* lambda.go:11-13; no other struct refers to Lambda *)
  | KLambda =>
      GSeq [GOpt (GSub FComment KComment); GLit "("; GOpt (GSeq (g_list FParameters KLambdaParameter));
            GLit ")"; GTok TOpLambda; GSub FExpr KExpr]
  (* lambda.go:65-66 *)
  | KLambdaParameter => g_param
  (* type.go:13-15 *)
  | KType =>
      GSeq [GLit "type"; GCap FLabel (GTok TIdent);
            GAlt [GSeq [GLit "enum"; GLit "{"; g_lfs; GSub FEnum KTypeEnum];
                  GSeq [GLit "object"; GLit "{"; g_lfs; GSub FObject KTypeObject]];
            GLit "}"]
  (* type.go:67 *)
  | KTypeEnum => GMany (GSub FItems KTypeEnumItem)
  (* type.go:112-115 *)
  | KTypeEnumItem =>
      GAlt [g_empty_line; GSub FComment KComment;
            GSeq [GCap FLabel (GTok TIdent); GLit ":"; GSub FValue KExpr; g_lf]]
  (* type.go:158 *)
  | KTypeObject => GMany (GSub FItems KTypeObjectItem)
  (* type.go:205-208 *)
  | KTypeObjectItem =>
      GAlt [g_empty_line; GSub FComment KComment;
            GSeq [GCap FLabel (GTok TIdent); GLit ":"; GSub FType KParameterType; g_lf]]
  (* block.go:11-13 *)
  | KBlock =>
      GSeq [GCap FName (GTok TIdent);
            GMany (GAlt [GSeq [GTok TString; GCap FLabels (GTok TChar); GTok TStringEnd];
                         GCap FLabels (GTok TIdent)]);
            GLit "{"; g_lf; GMany (GSub FBody KBlockItem); GLit "}"]
  (* block.go:71-74 *)
  | KBlockItem =>
      GAlt [g_empty_line; GSeq [GSub FBlock KBlock; g_lf]; GSeq [GSub FAttribute KAttribute; g_lf];
            GSub FComment KComment]
  (* attribute.go:11-12 *)
  | KAttribute => GSeq [GCap FKey (GTok TIdent); GOpt (GSeq [GLit "="; GSub FValue KExpr])]
  (* comment.go:9-10 *)
  | KComment =>
      GAlt [GSome (GSeq [GCap FSingleLine (GTok TSingleLineComment); g_lf]);
            GCap FMultiline (GSeq [GTok TMultilineComment; g_lf])]
  (* ident.go:10 *)
  | KIdent =>
      GSeq [GCap FParts (GTok TIdent); GOpt (GMany (GSeq [GLit "."; GCap FParts (GTok TIdent)]))]
  (* value.go:23-29 *)
  | KValue =>
      GAlt [GCap FNull (GLit "null"); GCap FBool (GAlt [GLit "true"; GLit "false"]);
            GCap FNumber (GTok TNumber); GSub FStr KValueString; GSub FHeredoc KHeredoc;
            GSub FList KValueList; GSub FMap KValueMap]
  (* value.go:119, 155: these are captured, not parsed *)
  | KValueBool | KValueNumber => GAlt []
  (* value.go:215-216 *)
  | KHeredoc => GSeq [GCap FDelimiter (GTok THeredoc); GMany (GSub FFragments KHeredocFragment); GTok THeredocEnd]
  (* value.go:296-298 *)
  | KHeredocFragment =>
      GAlt [GSeq [GTok TExpr; GSub FExpr KExpr; GTok TExprEnd];
            GSeq [GTok TDirective; GSub FDirective KExpr; GTok TExprEnd];
            GSome (GCap FText (GAlt [GTok TBody; GTok TEOL; GTok TNonExpr]))]
  (* value.go:344 *)
  | KValueString => GSeq [GTok TString; GMany (GSub FFragment KStringFragment); GTok TStringEnd]
  (* value.go:383-387 *)
  | KStringFragment =>
      GAlt [GCap FEscaped (GTok TEscaped);
            GSeq [GTok TUnicode; GCap FUnicode (GAlt [GTok TUnicodeLong; GTok TUnicodeShort])];
            GSeq [GTok TExpr; GSub FExpr KExpr; GTok TExprEnd];
            GSeq [GTok TDirective; GSub FDirective KExpr; GTok TExprEnd];
            GCap FText (GAlt [GTok TChar; GTok TQuote; GTok TNonExpr])]
  (* value.go:439 *)
  | KValueList => GSeq [GLit "["; g_lfs; GMany (GSub FItems KListItem); GLit "]"]
  (* value.go:481-483 *)
  | KListItem =>
      GAlt [g_empty_line; GSeq [GSub FValue KExpr; GOpt (GLit ","); g_lf]; GSub FComment KComment]
  (* value.go:529 *)
  | KValueMap => GSeq [GLit "{"; g_lfs; GMany (GSub FItems KMapItem); GLit "}"]
  (* value.go:573-576 *)
  | KMapItem =>
      GAlt [g_empty_line; GSeq [GSub FKey KMapKey; GLit "="; GSub FValue KExpr; GOpt (GLit ","); g_lf];
            GSub FComment KComment]
  (* value.go:626-627 *)
  | KMapKey => GAlt [GSub FIdent KIdent; GSub FStr KValueString]
  (* expr.go:11-13 *)
  | KExpr => GAlt [GSub FLeft KExprConditional; GSub FIf KExprIf; GSub FSwitch KExprSwitch]
  (* expr.go:61-63 *)
  | KExprIf =>
      GSeq [GTok TIf; GSub FCondition KExprLogicalOr; g_lfs; GLit "{"; g_lfs;
            GOpt (GSub FLeft KExpr); g_lfs; GLit "}"; g_lfs;
            GOpt (GSeq [GTok TElse; GLit "{"; g_lfs; GSub FRight KExpr; g_lfs; GLit "}"])]
  (* expr.go:110-111 *)
  | KExprSwitch =>
      GSeq [GTok TSwitch; GSub FSelector KExprLogicalOr; g_lfs; GLit "{"; g_lfs;
            GMany (GSeq [GSub FCases KExprCase; g_lfs]); GLit "}"]
  (* expr.go:157-159 *)
  | KExprCase =>
      GSeq [GAlt [GSeq ([GTok TCase] ++ g_list FConditions KExprLogicalOr ++ [GLit ":"]);
                  GSeq [GCap FDefault (GLit "default"); GLit ":"]];
            g_lfs; GLit "{"; g_lfs; GSub FExpr KExpr; g_lfs; GLit "}"]
  (* expr.go:215-218 *)
  | KExprConditional =>
      GSeq [GSub FCondition KExprLogicalOr;
            GOpt (GSeq [GCap FConditionOp (GLit "?"); GSub FTrueExpr KExpr; GLit ":"; GSub FFalseExpr KExpr])]
  (* expr.go:271-273, 316-318, 361-363, 406-408, 451-453 *)
  | KExprLogicalOr => g_binary KExprLogicalAnd KExprLogicalOr (GTok TOpLogicalOr)
  | KExprLogicalAnd => g_binary KExprBitwiseOr KExprLogicalAnd (GTok TOpLogicalAnd)
  | KExprBitwiseOr => g_binary KExprBitwiseXor KExprBitwiseOr (GTok TOpBitwiseOr)
  | KExprBitwiseXor => g_binary KExprBitwiseAnd KExprBitwiseXor (GTok TOpBitwiseXOr)
  | KExprBitwiseAnd => g_binary KExprEquality KExprBitwiseAnd (GTok TOpBitwiseAnd)
  (* expr.go:496-498, 541-543, 586-588, 631-633, 676-678 *)
  | KExprEquality => g_binary KExprRelational KExprEquality (GAlt [GTok TOpNotEqual; GTok TOpEqual])
  | KExprRelational =>
      g_binary KExprShift KExprRelational
        (GAlt [GTok TOpMore; GTok TOpMoreOrEqual; GTok TOpLess; GTok TOpLessOrEqual])
  | KExprShift =>
      g_binary KExprAdditive KExprShift (GAlt [GTok TOpBitwiseShiftLeft; GTok TOpBitwiseShiftRight])
  | KExprAdditive => g_binary KExprMultiplicative KExprAdditive (GAlt [GTok TOpMinus; GTok TOpPlus])
  | KExprMultiplicative =>
      g_binary KExprUnary KExprMultiplicative
        (GAlt [GTok TOpDivision; GTok TOpMultiplication; GTok TOpModulo])
  (* expr.go:721-722 *)
  | KExprUnary =>
      GSeq [GOpt (GCap FOp (GAlt [GTok TOpBitwiseNot; GTok TOpLogicalNot; GTok TOpMinus; GTok TOpPlus]));
            GSub FRight KExprPostfix]
  (* expr.go:752-754 *)
  | KExprPostfix =>
      GSeq [GSub FValue KExprPrimary; GOpt (GSeq [GLit "["; GSub FIndex KExpr; GLit "]"]);
            GOpt (GSeq [GLit "."; GSub FPost KExprPostfix])]
  (* expr.go:800-804 *)
  | KExprPrimary =>
      GAlt [GSeq [GLit "("; GSub FSubExpression KExpr; GLit ")"]; GSub FValue KValue;
            GSeq [GSub FIdent KIdent;
                  GOpt (GSome (GSeq [GLit "("; GSub FMonads KExprInvocationParams; GLit ")"]));
                  GOpt (GSeq [GLit "."; GSub FPost KExprPostfix])]]
  (* expr.go:884 *)
  | KExprInvocationParams => GOpt (GSeq (g_list FValues KExpr))
  end.
