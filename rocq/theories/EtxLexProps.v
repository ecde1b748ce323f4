(** * The properties of the lexer of pkg/etx

    [lex file s] runs the rules of lexer.go on the bytes [s].  [tokens_of] are the tokens
    read, white space included. *)
From stdpp Require Import base list option strings.
From Coq Require Import Ascii.
From Verif Require Import GoBase EtxHeap EtxText EtxLex EtxLexSpec EtxLexPropProofs EtxLexExample.

Theorem C36_lexing_is_lossless file s l :
  lex file s = Ok l →
  Forall (λ t, value t ≠ []) (tokens_of l) ∧
  match l with
  | Lexed ts _ => concat (map value ts) = s
  | LexError ts _ => ∃ s', s = concat (map value ts) ++ s' ∧ s' ≠ []
  end.
Proof. exact (p36 file s l). Qed.
Example C36_example :
  map (λ t, (kind_of_token t, str (value t))) (toks sample) =
    [(TIdent, "x"); (TWhitespace, " "); (TOpAssign, "="); (TWhitespace, " "); (TString, """");
     (TChar, "aé"); (TExpr, "${"); (TIdent, "b-1"); (TOpLogicalAnd, "&&"); (TString, "'"); (TUnicode, "\u");
     (TUnicodeShort, "00e9"); (TStringEnd, "'"); (TExprEnd, "}"); (TEscaped, "\n"); (TStringEnd, """");
     (TWhitespace, " "); (TMultilineComment, "/* * */"); (TLF, str [lf]); (TIdent, "y");
     (TOpAssign, "="); (THeredoc, "<<-EOT" +:+ str [lf]); (TBody, "z"); (TEOL, str [lf]);
     (THeredocEnd, "EOT"); (TLF, str [lf])] ∧
  str (text_of (toks sample)) = str sample ∧
  map (λ t, str (value t)) (toks (chars "a $ b")) = ["a"; " "] ∧
  lex "f" (chars "a $ b") = Ok (LexError (toks (chars "a $ b")) (Pos "f" 2 1 3)).
Proof. vm_compute. by split_and!. Qed.
Print Assumptions C36_lexing_is_lossless.

Theorem C37_lexing_terminates file s :
  ∃ l, lex file s = Ok l ∧ length (tokens_of l) ≤ length s.
Proof. exact (p37 file s). Qed.
Example C37_example : length (toks sample) = 26 ∧ length sample = 51.
Proof. vm_compute. by split_and!. Qed.
Print Assumptions C37_lexing_terminates.

(** [pos_at file pre] is the position after the text [pre]: its length, one plus its
    newlines, one plus the runes after the last of them. *)
Theorem C38_token_positions file s l i t :
  lex file s = Ok l → tokens_of l !! i = Some t →
  ∃ pre post, s = pre ++ value t ++ post ∧ pre = concat (map value (take i (tokens_of l))) ∧
    start t = pos_at file pre.
Proof. exact (p38 file s l i t). Qed.
Example C38_example :
  start <$> toks sample !! 5 = Some (Pos "f" 5 1 6) ∧ start <$> toks sample !! 6 = Some (Pos "f" 8 1 8) ∧
  start <$> toks sample !! 24 = Some (Pos "f" 47 4 1).
Proof. vm_compute. by split_and!. Qed.
Print Assumptions C38_token_positions.

Theorem C38_error_position file s ts p :
  lex file s = Ok (LexError ts p) → p = pos_at file (concat (map value ts)).
Proof. exact (p38b file s ts p). Qed.
Example C38_error_example :
  lex "f" (chars "a $") = Ok (LexError (toks (chars "a $")) (pos_at "f" (chars "a "))) ∧
  pos_at "f" (chars "a ") = Pos "f" 2 1 3.
Proof. vm_compute. by split_and!. Qed.
Print Assumptions C38_error_position.

(** Missing: that nothing is open at the end; see C39_unclosed_refuted. *)
Theorem C39_modes_are_bracketed_partial file s ts st :
  lex file s = Ok (Lexed ts st) →
  ∃ os, nested_open SRoot ts os ∧ (os = [] → nested SRoot ts).
Proof. exact (p39 file s ts st). Qed.
Example C39_example : ∃ ts, lex "f" sample = Ok (Lexed ts [(SRoot, [])]) ∧ length ts = 26.
Proof. eexists. split; [vm_compute; reflexivity|reflexivity]. Qed.
Print Assumptions C39_modes_are_bracketed_partial.

(** An unterminated string is no error. *)
Theorem C39_unclosed_refuted :
  ∃ file s ts st, lex file s = Ok (Lexed ts st) ∧ ¬ nested SRoot ts.
Proof. exact (p39r). Qed.
Print Assumptions C39_unclosed_refuted.

Theorem C57_brackets_close_innermost_first file s l :
  lex file s = Ok l →
  ∃ os, nested_open SRoot (tokens_of l) os ∧
    match l with Lexed _ st => length st = S (length os) | LexError _ _ => True end.
Proof. exact (p57 file s l). Qed.
Example C57_example :
  match lex "f" (chars "x=""a${b+'c") with Ok (Lexed ts st) => (length ts, map fst st) | _ => (0, []) end =
    (9, [SString; SStringExpr; SString; SRoot]).
Proof. by vm_compute. Qed.
Print Assumptions C57_brackets_close_innermost_first.

Theorem C40_operators_at_the_start file o k s :
  (o, k) ∈ operators → match s with c :: _ => extends o c = false | [] => True end →
  ∃ l, lex file (chars o ++ s) = Ok l ∧ head (tokens_of l) = Some (Token k (chars o) (start_pos file)).
Proof. exact (p40 file o k s). Qed.
Example C40_example :
  ("<<", TOpBitwiseShiftLeft) ∈ operators ∧ extends "<<" " " = false ∧ extends "<<" "E" = true ∧
  extends "<" "<" = true ∧ extends "=" ">" = true ∧ extends "=" "!" = false ∧ extends "&" "a" = false.
Proof. split; [apply (bool_decide_unpack _); by vm_compute|]. vm_compute. by split_and!. Qed.
Print Assumptions C40_operators_at_the_start.

(** Anywhere in code; the only exception is the brace that ends an interpolation. *)
Theorem C40_operators_in_code m g st p o k s :
  code_state m → (o, k) ∈ operators → (m = SStringExpr → o ≠ "}") →
  match s with c :: _ => extends o c = false | [] => True end →
  lex_step ((m, g) :: st) p (chars o ++ s) = Some (Token k (chars o) p, s, (m, g) :: st).
Proof. exact (p40b m g st p o k s). Qed.
Example C40_code_example :
  code_state SStringExpr ∧ (">=", TOpMoreOrEqual) ∈ operators ∧ ">=" ≠ "}" ∧ extends ">=" "=" = false.
Proof. split; [by right|]. split; [apply (bool_decide_unpack _); by vm_compute|]. by split. Qed.
Print Assumptions C40_operators_in_code.

(** Missing: identifiers with dashes whose first word is a keyword; see
    C41_if_with_a_dash_refuted. *)
Theorem C41_identifiers_partial file u us s :
  identifier u us → ident_ends s → (¬ is_keyword u ∨ us = []) →
  ∃ l, lex file ((u ++ dashed us) ++ s) = Ok l ∧
    head (tokens_of l) = Some (Token (kind_of_word (u ++ dashed us)) (u ++ dashed us) (start_pos file)).
Proof. exact (p41 file u us s). Qed.
Example C41_example :
  identifier (chars "foo_1") [chars "if"; chars "2"] ∧ ident_ends (chars "- 1") ∧ ¬ is_keyword (chars "foo_1") ∧
  kind_of_word (chars "foo_1-if-2") = TIdent ∧ kind_of_word (chars "if") = TIf ∧
  identifier (chars "if") [] ∧ ident_ends (chars "(x)").
Proof. lex_checks. Qed.
Print Assumptions C41_identifiers_partial.

Theorem C41_identifiers_in_code_partial m g st p u us s :
  code_state m → identifier u us → ident_ends s → (¬ is_keyword u ∨ us = []) →
  lex_step ((m, g) :: st) p ((u ++ dashed us) ++ s) =
    Some (Token (kind_of_word (u ++ dashed us)) (u ++ dashed us) p, s, (m, g) :: st).
Proof. exact (p41b m g st p u us s). Qed.
Example C41_code_example :
  code_state SStringExpr ∧ identifier (chars "elsewhere") [] ∧ ident_ends (chars "}""") ∧
  ¬ is_keyword (chars "elsewhere").
Proof. lex_checks. Qed.
Print Assumptions C41_identifiers_in_code_partial.

Theorem C41_if_with_a_dash_refuted :
  ∃ file u us s l,
  identifier u us ∧ ident_ends s ∧ lex file ((u ++ dashed us) ++ s) = Ok l ∧
  ¬ ∃ k p, head (tokens_of l) = Some (Token k (u ++ dashed us) p).
Proof. exact (p41r). Qed.
Print Assumptions C41_if_with_a_dash_refuted.

Theorem C58_keyword_with_a_dash m g st p u us s :
  code_state m → identifier u us → ident_ends s → is_keyword u →
  lex_step ((m, g) :: st) p ((u ++ dashed us) ++ s) = Some (Token (kind_of_word u) u p, dashed us ++ s, (m, g) :: st).
Proof. exact (p58 m g st p u us s). Qed.
Example C58_example :
  code_state SRoot ∧ identifier (chars "case") [chars "x"] ∧ ident_ends (chars " ") ∧ is_keyword (chars "case").
Proof. lex_checks. Qed.
Print Assumptions C58_keyword_with_a_dash.

(** Missing: a dollar or percent sign outside of interpolation openers, a backslash at the
    end of a line, \u without four digits; see C42_lone_dollar_refuted. *)
Theorem C42_string_bodies_partial m g st p q b s :
  code_state m → is_quote q = true → string_body q b →
  ∃ ts p', string_tokens q b ts ∧
    lexes ((m, g) :: st) p (q :: b ++ q :: s) ts ((m, g) :: st) p' s.
Proof. exact (p42 m g st p q b s). Qed.
Example C42_example :
  code_state SRoot ∧ is_quote quote = true ∧ string_body quote (chars "é 'a' \"" $${b} \u00e9f\\").
Proof.
  split; [by left|]. split; [done|]. apply (body_check_ok quote 40). vm_compute. reflexivity.
Qed.
Print Assumptions C42_string_bodies_partial.

Theorem C42_lone_dollar_refuted :
  ∃ file q b ts p,
  is_quote q = true ∧ quotable q b ∧ lex file (q :: b ++ [q]) = Ok (LexError ts p).
Proof. exact (p42r). Qed.
Print Assumptions C42_lone_dollar_refuted.

Theorem C56_string_bodies_exactly file q b :
  is_quote q = true →
  string_body q b ↔ ∃ ts st, lex file (q :: b ++ [q]) = Ok (Lexed ts st) ∧ string_tokens q b ts.
Proof. exact (p56 file q b). Qed.
Example C56_example :
  is_quote apostrophe = true ∧ string_body apostrophe (chars "don\'t 50%%{ ""x""") ∧
  ¬ string_body apostrophe (chars "don't") ∧ ¬ string_body apostrophe (chars "50%").
Proof.
  split; [done|]. split; [apply (body_check_ok apostrophe 40); vm_compute; reflexivity|].
  split; intros H; no_body H.
Qed.
Print Assumptions C56_string_bodies_exactly.
