(** * The lexer of pkg/etx

    The rules of lexer.go, and the "stateful" lexer of participle v2.0.0-alpha8 that
    runs them: in the current state the rules are tried in order, the first one whose
    pattern matches at the current position gives the token. *)
From stdpp Require Import base list option strings.
From Coq Require Import Ascii.
From Verif Require Import GoBase EtxHeap EtxText.

(** ** Regular expressions

    The part of the syntax that lexer.go uses, with the semantics of package regexp:
    the first match in the order of the alternatives, longer repetitions first for
    greedy operators and shorter first for lazy ones. *)
Inductive re : Type :=
| RSet (p : ascii → bool)      (* one ASCII character of a class *)
| RNot (p : ascii → bool)      (* one rune that is no ASCII character of a class *)
| REps
| RCat (r1 r2 : re)
| RAlt (r1 r2 : re)
| RStar (r : re)               (* r* *)
| RLazy (r : re)               (* r*? *)
| RWordB                       (* \b *)
| RGroup (r : re).             (* (r), group 1 *)
Definition RPlus (r : re) : re := RCat r (RStar r).
Definition ROpt (r : re) : re := RAlt r REps.
Definition RChar (c : ascii) : re := RSet (Ascii.eqb c).
(** regexp.QuoteMeta *)
Fixpoint RText (s : text) : re :=
  match s with
  | [] => REps
  | [c] => RChar c
  | c :: s => RCat (RChar c) (RText s)
  end.
Definition RLit (s : string) : re := RText (chars s).
Fixpoint RTimes (n : nat) (r : re) : re :=
  match n with 0 => REps | S n => RCat r (RTimes n r) end.
Fixpoint RAny (l : list re) : re :=
  match l with [] => RSet (λ _, false) | [r] => r | r :: l => RAlt r (RAny l) end.

(** A position in the input: the byte before it (none at the start of the text given to
    the pattern), the rest of the text, and what group 1 has matched. *)
Record spot : Type := Spot { before : option ascii; rest : text; group : option text }.

Definition is_word_opt (o : option ascii) : bool :=
  match o with Some c => is_word c | None => false end.
(** The ends of all matches of a pattern that start at a position, best first. *)
Fixpoint matches (r : re) (x : spot) : list spot :=
  match r with
  | RSet p =>
      match rest x with
      | c :: s => if is_ascii_byte c && p c then [Spot (Some c) s (group x)] else []
      | [] => []
      end
  | RNot p =>
      match rest x with
      | c :: s =>
          if is_ascii_byte c && p c then []
          else [Spot (Some c) (drop (rune_width (c :: s)) (c :: s)) (group x)]
      | [] => []
      end
  | REps => [x]
  | RCat r1 r2 => flat_map (matches r2) (matches r1 x)
  | RAlt r1 r2 => matches r1 x ++ matches r2 x
  | RStar r =>
      (fix star (n : nat) (x : spot) : list spot :=
         match n with
         | 0 => [x]
         | S n => flat_map (star n) (matches r x) ++ [x]
         end) (length (rest x)) x
  | RLazy r =>
      (fix star (n : nat) (x : spot) : list spot :=
         match n with
         | 0 => [x]
         | S n => x :: flat_map (star n) (matches r x)
         end) (length (rest x)) x
  | RWordB =>
      if xorb (is_word_opt (before x)) (is_word_opt (head (rest x))) then [x] else []
  | RGroup r =>
      map (λ y, Spot (before y) (rest y) (Some (take (length (rest x) - length (rest y)) (rest x))))
        (matches r x)
  end.
(** FindStringSubmatch of ^(?:r) on a text. *)
Definition find (r : re) (s : text) : option spot := head (matches r (Spot None s None)).

(** ** Rules *)
Inductive tname : Type :=
| TSingleLineComment | TMultilineComment | TOpLambda | TOpLambdaDef | TOpLParen | TOpRParen
| TIf | TElse | TSwitch | TCase | TBlockStart | TBlockEnd | TIdent | TNumber | THeredoc
| TOpComma | TOpEqual | TOpNotEqual | TOpLogicalAnd | TOpLogicalOr | TOpBitwiseShiftLeft
| TOpBitwiseShiftRight | TOpLogicalNot | TOpBitwiseNot | TOpBitwiseAnd | TOpBitwiseOr | TOpBitwiseXOr
| TOpMultiplication | TOpDivision | TOpModulo | TOpPlus | TOpMinus | TOpLessOrEqual | TOpMoreOrEqual
| TOpLess | TOpMore | TOpAssign | TOpCondition | TOpColon | TOpLBracket | TOpRBracket | TString | TDot | TLF
| TWhitespace | TUnicode | TEscaped | TStringEnd | TQuote | TNonExpr | TExpr | TDirective | TChar
| TUnicodeLong | TUnicodeShort | THeredocEnd | TEOL | TBody | TExprEnd.
Global Instance tname_eq_dec : EqDecision tname.
Proof. solve_decision. Defined.

(** The states of lexer.go:47-54; Core is part of Root and StringExpr. *)
Inductive state : Type := SRoot | SString | SStringExpr | SUnicode | SHeredoc.
Global Instance state_eq_dec : EqDecision state.
Proof. solve_decision. Defined.
Inductive action : Type := Stay | Push (s : state) | Pop.
Record rule : Type := Rule { rname : tname; pattern : re; act : action }.
(** An entry of the stack: the state, and group 1 of the match that pushed it. *)
Notation frame := (state * text)%type.

Definition quote : ascii := """".
Definition apostrophe : ascii := "'".
Definition backslash : ascii := "\".
Definition one_of_chars (s : string) (c : ascii) : bool := existsb (Ascii.eqb c) (chars s).
Definition is_quote (c : ascii) : bool := Ascii.eqb c quote || Ascii.eqb c apostrophe.
Definition digit_or (s : string) (c : ascii) : bool := is_digit c || one_of_chars s c.

(** lexer.go:79 *)
Definition re_ident : re :=
  RCat RWordB (RCat (RSet is_alpha) (RCat (RStar (RSet is_word))
    (RCat (RStar (RCat (RChar "-") (RPlus (RSet is_word)))) RWordB))).
(** lexer.go:80 *)
Definition re_number : re :=
  RAny [RCat (RChar "0") (RCat (RSet (one_of_chars "xX")) (RPlus (RSet (λ c, is_hex c || Ascii.eqb c "_"))));
        RCat (RChar "0") (RCat (RSet (one_of_chars "bB")) (RStar (RSet (one_of_chars "01_"))));
        RCat (RChar "0") (RCat (RSet (one_of_chars "oO")) (RStar (RSet (one_of_chars "01234567_"))));
        RCat (RStar (RSet (digit_or "_"))) (RCat (ROpt (RChar ".")) (RCat (RPlus (RSet (digit_or "_")))
          (ROpt (RCat (RSet (one_of_chars "eE")) (RCat (ROpt (RSet (one_of_chars "-+")))
             (RPlus (RSet (digit_or "_"))))))))].
(** lexer.go:82 *)
Definition re_heredoc : re :=
  RCat (RLit "<<") (RCat (ROpt (RChar "-")) (RCat (RGroup (RPlus (RSet is_word))) (RChar lf))).
Definition keyword (s : string) : re := RCat RWordB (RCat (RGroup (RLit s)) RWordB).
Definition op (n : tname) (s : string) : rule := Rule n (RLit s) Stay.

(** lexer.go:61-117 *)
Definition core : list rule :=
  [Rule TSingleLineComment (RCat (RAlt (RLit "//") (RLit "#")) (RStar (RNot (Ascii.eqb lf)))) Stay;
   Rule TMultilineComment
     (RCat (RLit "/*") (RCat (RLazy (RGroup (RAlt (RNot (Ascii.eqb lf)) (RChar lf)))) (RLit "*/"))) Stay;
   op TOpLambda "=>"; op TOpLambdaDef "->";
   op TOpLParen "("; op TOpRParen ")";
   Rule TIf (keyword "if") Stay; Rule TElse (keyword "else") Stay;
   Rule TSwitch (keyword "switch") Stay; Rule TCase (keyword "case") Stay;
   op TBlockStart "{"; op TBlockEnd "}";
   Rule TIdent re_ident Stay;
   Rule TNumber re_number Stay;
   Rule THeredoc re_heredoc (Push SHeredoc);
   op TOpComma ","; op TOpEqual "=="; op TOpNotEqual "!="; op TOpLogicalAnd "&&"; op TOpLogicalOr "||";
   op TOpBitwiseShiftLeft "<<"; op TOpBitwiseShiftRight ">>"; op TOpLogicalNot "!"; op TOpBitwiseNot "~";
   op TOpBitwiseAnd "&"; op TOpBitwiseOr "|"; op TOpBitwiseXOr "^"; op TOpMultiplication "*";
   op TOpDivision "/"; op TOpModulo "%"; op TOpPlus "+"; op TOpMinus "-"; op TOpLessOrEqual "<=";
   op TOpMoreOrEqual ">="; op TOpLess "<"; op TOpMore ">"; op TOpAssign "="; op TOpCondition "?";
   op TOpColon ":"; op TOpLParen "("; op TOpRParen ")"; op TOpLBracket "["; op TOpRBracket "]";
   Rule TString (RGroup (RSet is_quote)) (Push SString);
   op TDot ".";
   Rule TLF (RSet (λ c, Ascii.eqb c cr || Ascii.eqb c lf)) Stay;
   Rule TWhitespace (RPlus (RSet (λ c, Ascii.eqb c tab || Ascii.eqb c " "))) Stay].

Definition re_non_expr : re := RGroup (RAlt (RLit "$${") (RLit "%%{")).
(** [g] is group 1 of the frame, for the patterns with \1. *)
Definition rules (fr : frame) : list rule :=
  let '(s, g) := fr in
  match s with
  (* lexer.go:58-60 *)
  | SRoot => core
  (* lexer.go:119-128 *)
  | SString =>
      [Rule TUnicode (RLit "\u") (Push SUnicode);
       Rule TEscaped (RCat (RChar backslash) (RNot (Ascii.eqb lf))) Stay;
       Rule TStringEnd (RText g) Pop;
       Rule TQuote (RSet is_quote) Stay;
       Rule TNonExpr re_non_expr Stay;
       Rule TExpr (RLit "${") (Push SStringExpr);
       Rule TDirective (RLit "%{") (Push SStringExpr);
       Rule TChar (RPlus (RNot (λ c, one_of_chars "$%\" c || is_quote c))) Stay]
  (* lexer.go:129-132 *)
  | SUnicode =>
      [Rule TUnicodeLong (RTimes 8 (RSet is_hex)) Pop;
       Rule TUnicodeShort (RTimes 4 (RSet is_hex)) Pop]
  (* lexer.go:133-140 *)
  | SHeredoc =>
      [Rule THeredocEnd (RText g) Pop;
       op TEOL (str [lf]);
       Rule TNonExpr re_non_expr Stay;
       Rule TExpr (RLit "${") (Push SStringExpr);
       Rule TDirective (RLit "%{") (Push SStringExpr);
       Rule TBody (RPlus (RNot (λ c, Ascii.eqb c lf || one_of_chars "$%" c))) Stay]
  (* lexer.go:141-145 *)
  | SStringExpr => Rule TExprEnd (RLit "}") Pop :: core
  end.

(** ** The lexer of participle *)
Record token : Type := Token { kind_of_token : tname; value : text; start : pos }.

(** The first rule that matches. *)
Fixpoint first_match (l : list rule) (s : text) : option (rule * spot) :=
  match l with
  | [] => None
  | r :: l => match find (pattern r) s with Some y => Some (r, y) | None => first_match l s end
  end.
Definition apply_action (a : action) (y : spot) (st : list frame) : list frame :=
  match a with
  | Stay => st
  | Push s => (s, default [] (group y)) :: st
  | Pop => tail st
  end.
(** One token: the token, the rest of the input, the new stack.  None: no rule matches,
    or the rule that does consumes nothing. *)
Definition lex_step (st : list frame) (p : pos) (s : text) : option (token * text * list frame) :=
  match st with
  | [] => None
  | fr :: _ =>
      match first_match (rules fr) s with
      | Some (r, y) =>
          let span := take (length s - length (rest y)) s in
          if decide (span = []) then None
          else Some (Token (rname r) span p, rest y, apply_action (act r) y st)
      | None => None
      end
  end.
Inductive lexed : Type :=
| Lexed (ts : list token) (st : list frame)        (* all input read *)
| LexError (ts : list token) (p : pos).            (* an error at p *)
Definition lex_cons (t : token) (l : lexed) : lexed :=
  match l with Lexed ts st => Lexed (t :: ts) st | LexError ts p => LexError (t :: ts) p end.
Fixpoint lex_fuel (n : nat) (st : list frame) (p : pos) (s : text) : res lexed :=
  match s with
  | [] => Ok (Lexed [] st)
  | _ =>
      match n with
      | 0 => OutOfFuel
      | S n =>
          match lex_step st p s with
          | None => Ok (LexError [] p)
          | Some (t, s', st') =>
              match lex_fuel n st' (advance p (value t)) s' with
              | Ok l => Ok (lex_cons t l)
              | Panic => Panic
              | OutOfFuel => OutOfFuel
              end
          end
      end
  end.
Definition start_pos (file : string) : pos := Pos file 0 1 1.
Definition lex (file : string) (s : text) : res lexed :=
  lex_fuel (length s) [(SRoot, [])] (start_pos file) s.

(** What the parser gets: the tokens of rules whose name starts with a lower-case
    letter, that is whitespace (lexer.go:44), are left out. *)
Definition elide (ts : list token) : list token := filter (λ t, kind_of_token t ≠ TWhitespace) ts.
