(** * What is claimed about lexing

    Definitions for the statements about the lexer, independent of its rules. *)
From stdpp Require Import base list option strings.
From Coq Require Import Ascii.
From Verif Require Import GoBase EtxHeap EtxText EtxTextFacts EtxLex.

(** The tokens read, whether or not lexing succeeds. *)
Definition tokens_of (l : lexed) : list token :=
  match l with Lexed ts _ => ts | LexError ts _ => ts end.
Definition text_of (ts : list token) : text := concat (map value ts).

(** ** Brackets *)
(** Code, where the rules of the language itself apply. *)
Definition code_state (m : state) : Prop := m = SRoot ∨ m = SStringExpr.
Definition quoted_state (m : state) : Prop := m = SString ∨ m = SHeredoc.

(** A token that opens a part of the text in another mode. *)
Inductive opens : state → token → state → Prop :=
| opens_string m t : code_state m → kind_of_token t = TString → opens m t SString
| opens_heredoc m t : code_state m → kind_of_token t = THeredoc → opens m t SHeredoc
| opens_expr m t : quoted_state m → kind_of_token t = TExpr → opens m t SStringExpr
| opens_directive m t : quoted_state m → kind_of_token t = TDirective → opens m t SStringExpr
| opens_unicode t : kind_of_token t = TUnicode → opens SString t SUnicode.
(** A token that closes what another one opened: the same quote, the same delimiter, the
    brace of an interpolation, the digits of a unicode escape. *)
Inductive closes : token → token → Prop :=
| closes_string o c :
    kind_of_token o = TString → kind_of_token c = TStringEnd → value c = value o → closes o c
| closes_heredoc o c dash :
    kind_of_token o = THeredoc → kind_of_token c = THeredocEnd →
    value o = chars "<<" ++ (if dash : bool then chars "-" else []) ++ value c ++ [lf] → closes o c
| closes_expr o c :
    kind_of_token o = TExpr ∨ kind_of_token o = TDirective →
    kind_of_token c = TExprEnd → value c = chars "}" → closes o c
| closes_unicode o c :
    kind_of_token o = TUnicode → kind_of_token c = TUnicodeLong ∨ kind_of_token c = TUnicodeShort →
    closes o c.
(** Any other token of a mode. *)
Definition plain_kind (m : state) (k : tname) : Prop :=
  match m with
  | SRoot | SStringExpr =>
      k ∉ [TString; TStringEnd; THeredoc; THeredocEnd; TExpr; TDirective; TExprEnd; TUnicode;
           TUnicodeLong; TUnicodeShort; TEscaped; TQuote; TNonExpr; TChar; TEOL; TBody]
  | SString => k ∈ [TEscaped; TQuote; TNonExpr; TChar]
  | SHeredoc => k ∈ [TEOL; TNonExpr; TBody]
  | SUnicode => False
  end.
(** Tokens in which everything that is opened is closed, innermost first. *)
Inductive nested : state → list token → Prop :=
| nested_nil m : nested m []
| nested_plain m t ts : plain_kind m (kind_of_token t) → nested m ts → nested m (t :: ts)
| nested_group m m' o ts c ts' :
    opens m o m' → nested m' ts → closes o c → nested m ts' → nested m (o :: ts ++ c :: ts').
(** The same, except that the given openers, outermost first, are still open at the end. *)
Inductive nested_open : state → list token → list token → Prop :=
| nested_closed m ts : nested m ts → nested_open m ts []
| nested_more m m' ts o ts' os :
    nested m ts → opens m o m' → nested_open m' ts' os → nested_open m (ts ++ o :: ts') (o :: os).

(** ** Operators *)
(** lexer.go:9-41 *)
Definition operators : list (string * tname) :=
  [("=", TOpAssign); ("&", TOpBitwiseAnd); ("~", TOpBitwiseNot); ("|", TOpBitwiseOr);
   ("<<", TOpBitwiseShiftLeft); (">>", TOpBitwiseShiftRight); ("^", TOpBitwiseXOr); (":", TOpColon);
   ("?", TOpCondition); ("/", TOpDivision); ("==", TOpEqual); ("[", TOpLBracket); ("(", TOpLParen);
   ("<", TOpLess); ("<=", TOpLessOrEqual); ("&&", TOpLogicalAnd); ("!", TOpLogicalNot);
   ("||", TOpLogicalOr); ("-", TOpMinus); ("%", TOpModulo); (">", TOpMore); (">=", TOpMoreOrEqual);
   ("*", TOpMultiplication); ("!=", TOpNotEqual); ("+", TOpPlus); ("]", TOpRBracket); (")", TOpRParen);
   ("=>", TOpLambda); ("->", TOpLambdaDef); ("{", TBlockStart); ("}", TBlockEnd); (",", TOpComma);
   (".", TDot)].
(** The characters that may continue an operator: those of a longer operator, of a
    comment, of a heredoc delimiter, of a number. *)
Definition extends (o : string) (c : ascii) : bool :=
  existsb (λ ok, bool_decide (take (S (String.length o)) (chars (fst ok)) = chars o ++ [c])) operators ||
  (String.eqb o "/" && one_of_chars "/*" c) ||
  (String.eqb o "<<" && (is_word c || Ascii.eqb c "-")) ||
  (String.eqb o "." && (is_digit c || Ascii.eqb c "_")).

(** ** Identifiers *)
Definition word (u : text) : Prop := u ≠ [] ∧ Forall (λ c, is_word c = true) u.
(** A word that starts with a letter, followed by words with a dash in front. *)
Definition dashed (us : list text) : text := concat (map (cons "-"%char) us).
Definition identifier (u : text) (us : list text) : Prop :=
  word u ∧ (∃ c, head u = Some c ∧ is_alpha c = true) ∧ Forall word us.
(** What follows does not continue the identifier. *)
Definition ident_ends (s : text) : Prop :=
  match s with
  | [] => True
  | c :: s => is_word c = false ∧ (c = "-"%char → match s with d :: _ => is_word d = false | [] => True end)
  end.
Definition keywords : list (string * tname) :=
  [("if", TIf); ("else", TElse); ("switch", TSwitch); ("case", TCase)].
(** The kind of token of a word. *)
Definition kind_of_word (u : text) : tname :=
  match list_find (λ kw, chars (fst kw) = u) keywords with Some (_, (_, k)) => k | None => TIdent end.
Definition is_keyword (u : text) : Prop := str u ∈ map fst keywords.

(** ** Strings *)
(** The texts that may stand between two quotes [q], without interpolation. *)
Inductive string_body (q : ascii) : text → Prop :=
| body_nil : string_body q []
| body_char c b : c ∉ chars "$%\""'" → string_body q b → string_body q (c :: b)
| body_quote c b : is_quote c = true → c ≠ q → string_body q b → string_body q (c :: b)
| body_escape c b : c ≠ lf → c ≠ "u"%char → string_body q b → string_body q (backslash :: c :: b)
| body_unicode h b :
    length h = 4 → Forall (λ c, is_hex c = true) h → string_body q b →
    string_body q (backslash :: "u"%char :: h ++ b)
| body_dollar b : string_body q b → string_body q (chars "$${" ++ b)
| body_percent b : string_body q b → string_body q (chars "%%{" ++ b).
(** The tokens of text in strings. *)
Definition text_kind (k : tname) : Prop :=
  k ∈ [TUnicode; TUnicodeLong; TUnicodeShort; TEscaped; TQuote; TNonExpr; TChar].
(** The texts one would expect to be allowed between two quotes [q]: no [q] and no start of
    an interpolation that is not escaped. *)
Inductive quotable (q : ascii) : text → Prop :=
| quotable_nil : quotable q []
| quotable_char c b :
    c ≠ q → c ≠ backslash → ¬ (c ∈ chars "$%" ∧ head b = Some "{"%char) → quotable q b → quotable q (c :: b)
| quotable_escape c b : quotable q b → quotable q (backslash :: c :: b).
(** The tokens of a string without interpolation. *)
Definition string_tokens (q : ascii) (b : text) (ts : list token) : Prop :=
  ∃ o us c, ts = o :: us ++ [c] ∧ kind_of_token o = TString ∧ value o = [q] ∧
    kind_of_token c = TStringEnd ∧ value c = [q] ∧
    text_of us = b ∧ Forall (λ t, text_kind (kind_of_token t)) us.
(** Some steps of the lexer: from a stack, a position and a text, the tokens read and the
    stack, the position and the text that are left. *)
Inductive lexes : list frame → pos → text → list token → list frame → pos → text → Prop :=
| lexes_nil st p s : lexes st p s [] st p s
| lexes_cons st p s t st1 s1 ts st2 p2 s2 :
    lex_step st p s = Some (t, s1, st1) → lexes st1 (advance p (value t)) s1 ts st2 p2 s2 →
    lexes st p s (t :: ts) st2 p2 s2.
