(** * The properties of indentation and of the captured tokens of pkg/etx

    [indent] is the indentation of the formatter; [capture_bool], [capture_delimiter] and
    [capture_number] turn tokens into values.  A [number] is the value of a literal as an
    exact fraction, before rounding. *)
From stdpp Require Import base list option strings.
From Coq Require Import Ascii NArith ZArith Lia.
From Verif Require Import GoBase EtxHeap EtxText EtxLex EtxLexSpec EtxUtil EtxUtilSpec EtxUtilProofs EtxNumProofs EtxLexExample.

Theorem C31_indent_lines s p :
  indent s p = unlines (map (λ l, if decide (l = []) then [] else p ++ l) (lines s)) ∧
  unlines (lines s) = s ∧ Forall (λ l, lf ∉ l) (lines s).
Proof. exact (p31 s p). Qed.
Example C31_example :
  let s := [lf] ++ chars "a" ++ [lf; lf] ++ chars " b" ++ [lf] in
  indent s (chars "--") = [lf] ++ chars "--a" ++ [lf; lf] ++ chars "-- b" ++ [lf] ∧
  map str (lines s) = [""; "a"; ""; " b"; ""].
Proof. vm_compute. by split_and!. Qed.
Print Assumptions C31_indent_lines.

Theorem C31_indent_is_undone s p :
  lf ∉ p →
  unlines (map (drop (length p)) (lines (indent s p))) = s ∧
  length (lines (indent s p)) = length (lines s).
Proof. exact (p31b s p). Qed.
Example C31_undone_example : lf ∉ chars "  " ∧ lines (indent (chars "a" ++ lf :: chars "b") (chars "  ")) = [chars "  a"; chars "  b"].
Proof. split; [apply (bool_decide_unpack _); by vm_compute|by vm_compute]. Qed.
Print Assumptions C31_indent_is_undone.

Theorem C31_indent_composes s t p q :
  indent (s ++ lf :: t) p = indent s p ++ lf :: indent t p ∧
  (lf ∉ p → indent (indent s p) q = indent s (q ++ p)).
Proof. exact (p31c s t p q). Qed.
Example C31_composes_example :
  lf ∉ chars "a" ∧ indent (indent (chars "x") (chars "a")) (chars "b") = chars "bax" ∧
  indent (indent (chars "x") (chars "a" ++ [lf])) (chars "b") ≠ indent (chars "x") (chars "ba" ++ [lf]).
Proof. split; [apply (bool_decide_unpack _); by vm_compute|]. split; [by vm_compute|]. by vm_compute. Qed.
Print Assumptions C31_indent_composes.

Theorem C35_booleans v :
  v = chars "true" ∨ v = chars "false" → format_bool (capture_bool v) = v.
Proof. exact (p35 v). Qed.
Example C35_example : capture_bool (chars "true") = true ∧ capture_bool (chars "false") = false.
Proof. by vm_compute. Qed.
Print Assumptions C35_booleans.

Theorem C35_heredoc_openers file s l t :
  lex file s = Ok l → t ∈ tokens_of l → kind_of_token t = THeredoc →
  ∃ dash u f, capture_delimiter (value t) = Some (dash, u) ∧ format_delimiter (dash, u) = Some f ∧
    value t = chars "<<" ++ f ++ [lf] ∧ word u.
Proof. exact (p35b file s l t). Qed.
Example C35_openers_example :
  (λ t, (kind_of_token t, value t, capture_delimiter (value t))) <$> toks sample !! 21 =
    Some (THeredoc, chars "<<-EOT" ++ [lf], Some (true, chars "EOT")).
Proof. by vm_compute. Qed.
Print Assumptions C35_heredoc_openers.

(** The delimiter captured is the text that ends the heredoc. *)
Theorem C35_heredoc_end st p s t s' st' :
  lex_step st p s = Some (t, s', st') → kind_of_token t = THeredoc →
  ∃ dash u, capture_delimiter (value t) = Some (dash, u) ∧ st' = (SHeredoc, u) :: st ∧
    ∀ p' v, lex_step st' p' (u ++ v) = Some (Token THeredocEnd u p', v, st).
Proof. exact (p35c st p s t s' st'). Qed.
Example C35_end_example :
  ∃ t st, lex_step [(SRoot, [])] (start_pos "f") (chars "<<X" ++ lf :: chars "aX") = Some (t, chars "aX", st) ∧
    kind_of_token t = THeredoc.
Proof. eexists _, _. split; [vm_compute; reflexivity|reflexivity]. Qed.
Print Assumptions C35_heredoc_end.

(** Exactly the texts that are a 0 followed by digits and underscores are rewritten, to the
    same digits after 0o, and rewriting again changes nothing. *)
Theorem C34_only_leading_zeros s :
  (∀ ds, s = "0"%char :: ds → ds ≠ [] → Forall (λ c, is_digit c = true ∨ c = "_"%char) ds →
    normalise s = chars "0o" ++ ds) ∧
  (¬ (∃ ds, s = "0"%char :: ds ∧ ds ≠ [] ∧ Forall (λ c, is_digit c = true ∨ c = "_"%char) ds) → normalise s = s) ∧
  normalise (normalise s) = normalise s.
Proof. exact (p34 s). Qed.
Example C34_example :
  normalise (chars "01_7") = chars "0o1_7" ∧ normalise (chars "0") = chars "0" ∧ normalise (chars "0.5") = chars "0.5" ∧
  normalise (chars "0o7") = chars "0o7" ∧ normalise (chars "00") = chars "0o0".
Proof. by vm_compute. Qed.
Print Assumptions C34_only_leading_zeros.

(** A leading 0 makes the literal octal: the digits are octal digits and the value is theirs
    to base 8. *)
Theorem C34_octal_value ds src n :
  ds ≠ [] → Forall (λ c, is_digit c = true ∨ c = "_"%char) ds → capture_number ("0"%char :: ds) = Some (src, n) →
  Forall (λ c, is_octal c = true ∨ c = "_"%char) ds ∧ src = chars "0o" ++ ds ∧ n = Number (numeral 8 ds) 8 0 10 0.
Proof. exact (p34b ds src n). Qed.
Example C34_value_example : capture_number (chars "0_1_7") = Some (chars "0o_1_7", Number 15 8 0 10 0).
Proof. by vm_compute. Qed.
Print Assumptions C34_octal_value.

(** The text kept for an accepted number token is again one number token, and capturing that
    one gives the same text and value. *)
Theorem C34_captured_again file s l t src n :
  lex file s = Ok l → t ∈ tokens_of l → kind_of_token t = TNumber → capture_number (value t) = Some (src, n) →
  (∀ file', lex file' src = Ok (Lexed [Token TNumber src (start_pos file')] [(SRoot, [])])) ∧
  capture_number src = Some (src, n).
Proof. exact (p34c file s l t src n). Qed.
Example C34_again_example :
  tokens_of <$> match lex "f" (chars "a+0755") with Ok l => Some l | _ => None end =
    Some [Token TIdent (chars "a") (Pos "f" 0 1 1); Token TOpPlus (chars "+") (Pos "f" 1 1 2);
          Token TNumber (chars "0755") (Pos "f" 2 1 3)] ∧
  capture_number (chars "0755") = Some (chars "0o755", Number 493 8 0 10 0).
Proof. by vm_compute. Qed.
Print Assumptions C34_captured_again.

(** Not every number token stays one: 08 becomes 0o8, which is two tokens, and is then
    rejected. *)
Theorem C34_rewritten_tokens_refuted :
  ∃ file s t, lex file s = Ok (Lexed [t] [(SRoot, [])]) ∧ kind_of_token t = TNumber ∧
    capture_number (value t) = None ∧
    ¬ (∃ t' st, lex file (normalise (value t)) = Ok (Lexed [t'] st)).
Proof. exact (p34d). Qed.
Print Assumptions C34_rewritten_tokens_refuted.

Theorem C59_accepted_literals file s l t src n :
  lex file s = Ok l → t ∈ tokens_of l → kind_of_token t = TNumber →
  (capture_number (value t) = Some (src, n) ↔ literal (value t) n ∧ in_range n ∧ src = normalise (value t)).
Proof. exact (p59 file s l t src n). Qed.
Example C59_example :
  literal (chars "1_0.25e-3") (Number 1025 10 2 10 (-3)) ∧ in_range (Number 1025 10 2 10 (-3)) ∧
  capture_number (chars "1_0.25e-3") = Some (chars "1_0.25e-3", Number 1025 10 2 10 (-3)) ∧
  capture_number (chars "0x_Fe") = Some (chars "0x_Fe", Number 254 16 0 10 0) ∧
  map capture_number [chars "1__0"; chars "1_"; chars "_"; chars "0b"; chars "09"; chars "0x1_"; chars "1e_1"] = replicate 7 None.
Proof.
  split; [|split; [|split; [|split]]].
  - change (chars "1_0.25e-3") with (chars "1_0" ++ "."%char :: chars "25" ++ "e"%char :: "-"%char :: chars "3").
    change (Number 1025 10 2 10 (-3)) with (Number (numeral 10 (chars "1_0" ++ chars "25")) 10 (count_digits (chars "25")) 10 (-3)).
    apply literal_fraction; [right; apply (groups_underscore _ "1" (chars "0")); repeat constructor|repeat constructor|].
    apply (exponent_minus "e" (chars "3")); repeat constructor.
  - unfold in_range. vm_compute. split; [by split|right; by split].
  - by vm_compute.
  - by vm_compute.
  - by vm_compute.
Qed.
Print Assumptions C59_accepted_literals.

(** Conversely every literal is lexed as one token where nothing that continues it follows. *)
Theorem C59_every_literal_is_a_token m g st p s n s' :
  code_state m → literal s n →
  match s' with c :: _ => is_word c = false ∧ c ≠ "."%char | [] => True end →
  lex_step ((m, g) :: st) p (s ++ s') = Some (Token TNumber s p, s', (m, g) :: st).
Proof. exact (p59b m g st p s n s'). Qed.
Example C59_token_example :
  literal (chars "0b1_1") (Number 3 2 0 10 0) ∧
  lex_step [(SRoot, [])] (start_pos "f") (chars "0b1_1 + x") =
    Some (Token TNumber (chars "0b1_1") (start_pos "f"), chars " + x", [(SRoot, [])]).
Proof. split; [|by vm_compute]. apply (literal_binary "b" (chars "1_1")); [repeat constructor|left].
  apply (groups_underscore _ "1" (chars "1")); repeat constructor. Qed.
Print Assumptions C59_every_literal_is_a_token.

(** A text denotes at most one number. *)
Theorem C59_one_value s n n' :
  literal s n → literal s n' → in_range n → in_range n' → n = n'.
Proof. exact (p59c s n n'). Qed.
Example C59_one_example : literal (chars "00") (Number 0 8 0 10 0) ∧ literal (chars "0e1") (Number 0 10 0 10 1).
Proof.
  split; [apply (literal_zero (chars "0")); repeat constructor|].
  apply (literal_whole (chars "0") (chars "e1") 1); [repeat constructor| |by left].
  apply (exponent_plain "e" (chars "1")); repeat constructor.
Qed.
Print Assumptions C59_one_value.
