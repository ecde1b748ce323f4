(** * A newline at the end of a file

    [ends_open] (EtxFinalSpec.v): the tokens end with << and a word.  [parse_at n] (EtxLook.v):
    the parser with a lookahead of [n] tokens; [parse] is [parse_at 50]. *)
From stdpp Require Import base list option strings.
From Coq Require Import Ascii.
From Verif Require Import GoBase EtxAst EtxHeap EtxHeapSpec EtxText EtxLex EtxLexSpec EtxUtil EtxGram EtxParse EtxLook EtxFinalSpec EtxFinalTop.

(** A file with a shift to the left near its end, a block, and no newline at its end. *)
Definition a_file : text :=
  chars "val x = a << (b) // c" ++ [lf] ++ chars "a ""b"" {" ++ [lf] ++ chars "c = d <<e.f(1)" ++ [lf] ++ chars "}".
(** Files that end with << and a word. *)
Definition an_open_file : text := chars "val x = a <<b".
Definition another_open_file : text := chars "a {}" ++ [lf] ++ chars "b = c <<-d_1".

(** The lexer reads the newline as one more token, and all else as before. *)
Theorem C89_same_tokens s ts :
  lex "" s = Ok (Lexed ts [(SRoot, [])]) → ¬ ends_open ts →
  ∃ p, lex "" (s ++ [lf]) = Ok (Lexed (ts ++ [Token TLF [lf] p]) [(SRoot, [])]).
Proof. exact (same_tokens s ts). Qed.
Example C89_tokens :
  match lex "" a_file, lex "" (a_file ++ [lf]) with
  | Ok (Lexed ts st), Ok (Lexed us st') => (length ts, length us, st, st') = (39, 40, [(SRoot, [])], [(SRoot, [])]) ∧ ends_openb ts = false
  | _, _ => False
  end.
Proof. vm_compute. split; reflexivity. Qed.
Print Assumptions C89_same_tokens.

(** A file that ends with << and a word is accepted with no newline at its end, if at all. *)
Theorem C89_open_end_refused s ts st :
  lex "" s = Ok (Lexed ts st) → ends_open ts → ∀ r, parse (s ++ [lf]) ≠ Ok (Some r).
Proof. exact (open_end_refused s ts st). Qed.
Example C89_refused :
  Forall (λ s, ends_open_file s = Some true ∧ says_yes (parse s) = true ∧ says_yes (parse (s ++ [lf])) = false) [an_open_file; another_open_file].
Proof. repeat constructor; vm_compute; reflexivity. Qed.
Print Assumptions C89_open_end_refused.

(** C74 for the files that the parser also accepts with a lookahead of one token less, and that
    do not end with << and a word. *)
Theorem C74_final_newline_partial s r ts st :
  parse_at 49 s = Ok (Some r) → lex "" s = Ok (Lexed ts st) → ¬ ends_open ts → ∃ r', parse (s ++ [lf]) = Ok (Some r').
Proof. exact (final_newline s r ts st). Qed.
Example C74_partial_met :
  ∃ r ts st, parse_at 49 a_file = Ok (Some r) ∧ lex "" a_file = Ok (Lexed ts st) ∧ ¬ ends_open ts.
Proof. apply example_met; vm_compute; reflexivity. Qed.
Print Assumptions C74_final_newline_partial.

(** For these files, the newline does no harm exactly if they do not end with << and a word. *)
Theorem C89_final_newline s r ts st :
  parse_at 49 s = Ok (Some r) → lex "" s = Ok (Lexed ts st) →
  (∃ r', parse (s ++ [lf]) = Ok (Some r')) ↔ ¬ ends_open ts.
Proof. exact (final_newline_iff s r ts st). Qed.
(** The last << of a file need not be the last operator, and the word may be followed by
    something else. *)
Example C89_harmless :
  Forall (λ s, ends_open_file s = Some false ∧ says_yes (parse s) = true ∧ says_yes (parse (s ++ [lf])) = true)
    [a_file; chars "val x = a << b"; chars "val x = a <<b.c"; chars "val x = a <<(b)"; chars "val x = a <<b + c"; chars "val x = a <<b "; chars "val x = a <<b-c"].
Proof. repeat constructor; vm_compute; reflexivity. Qed.
Print Assumptions C89_final_newline.

(** All files of up to 49 tokens are among them. *)
Theorem C89_short_files s r ts st :
  parse s = Ok (Some r) → lex "" s = Ok (Lexed ts st) → length (elide ts) <= 49 →
  (∃ r', parse (s ++ [lf]) = Ok (Some r')) ↔ ¬ ends_open ts.
Proof. exact (short_final_newline s r ts st). Qed.
Example C89_short : match lex "" a_file with Ok (Lexed ts _) => length (elide ts) = 28 | _ => False end ∧ says_yes (parse a_file) = true.
Proof. vm_compute. split; reflexivity. Qed.
Print Assumptions C89_short_files.

(** Several newlines. *)
Theorem C89_more_newlines n s r ts st :
  parse s = Ok (Some r) → lex "" s = Ok (Lexed ts st) → ¬ ends_open ts → length (elide ts) + n <= 50 →
  ∃ r', parse (s ++ replicate n lf) = Ok (Some r').
Proof. exact (more_newlines n s r ts st). Qed.
Example C89_many : says_yes (parse (a_file ++ replicate 22 lf)) = true.
Proof. vm_compute. reflexivity. Qed.
Print Assumptions C89_more_newlines.
