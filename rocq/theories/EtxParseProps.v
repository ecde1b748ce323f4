(** * The properties of the parser of pkg/etx

    [parse s] is the result of ParseString on [s], [Ok None] standing for an error.
    [builds p k us t] (EtxParseSpec.v) says that the tokens [us] have the form the struct
    tags of [k] describe and that [t] is the tree that belongs to it; [p] is the position
    after them. *)
From stdpp Require Import base list option strings.
From Coq Require Import Ascii.
From Verif Require Import GoBase EtxAst EtxHeap EtxHeapSpec EtxText EtxLex EtxLexSpec EtxLexExample EtxUtil EtxGram EtxParse
  EtxParseSpec EtxParsePropProofs EtxParseExample.

(** Every input gives an AST or an error: the parser neither panics nor runs forever. *)
Theorem C45_parsing_is_total s :
  ∃ o, parse s = Ok o.
Proof. exact (p45_total s). Qed.
Example C45_example :
  shape parse_sample = Some ([KComment; KBlock; KFunc; KAttribute], 238) ∧ parse (chars "x = (1") = Ok None ∧
  parse (chars "x = 08") = Ok None ∧ parse (chars "$") = Ok None.
Proof. vm_compute. by split_and!. Qed.
Print Assumptions C45_parsing_is_total.

(** The same for token sequences, whether or not the lexer can make them, if the opener
    of each heredoc contains a delimiter. *)
Theorem C45_tokens_total eof ts :
  (∀ u, u ∈ ts → kind_of_token u = THeredoc → is_Some (capture_delimiter (value u))) →
  ∃ o, parse_tokens eof ts = Ok o.
Proof. exact (p45_tokens eof ts). Qed.
(** Two tokens the lexer does not make, and one for which the code would panic. *)
Example C45_tokens_example :
  let p := Pos "" 0 1 1 in
  parse_tokens p [Token TIdent (chars "if") p; Token TOpAssign (chars "?") p] = Ok None ∧
  parse_tokens p [Token TIdent (chars "x") p; Token TOpAssign (chars "=") p; Token THeredoc (chars "<<A") p;
                  Token THeredocEnd (chars "A") p] = Panic.
Proof. vm_compute. by split_and!. Qed.
Print Assumptions C45_tokens_total.

(** Which is so for all token sequences the lexer makes. *)
Theorem C45_lexed_openers file s ts st u :
  lex file s = Ok (Lexed ts st) → u ∈ elide ts → kind_of_token u = THeredoc → is_Some (capture_delimiter (value u)).
Proof. exact (p45_openers file s ts st u). Qed.
Example C45_openers_example :
  map (λ u, str (value u)) (filter (λ u, kind_of_token u = THeredoc) (elide (toks parse_sample))) = ["<<-EOT" +:+ nl] ∧
  capture_delimiter (chars ("<<-EOT" +:+ nl)) = Some (true, chars "EOT").
Proof. vm_compute. by split_and!. Qed.
Print Assumptions C45_lexed_openers.

(** No token sequence at all makes the parser run forever: fuel linear in its length
    suffices to parse any struct, and more fuel changes nothing. *)
Theorem C45_tokens_terminate eof k ts n :
  60 * length ts + 60 ≤ n →
  parse_struct eof n k ts ≠ PNoFuel ∧ parse_struct eof n k ts = parse_struct eof (60 * length ts + 60) k ts.
Proof. exact (p45_terminates eof k ts n). Qed.
Example C45_terminate_example :
  length (elide (toks parse_sample)) = 71 ∧ 60 * 71 + 60 ≤ 5000 ∧
  match parse_struct (Pos "" 0 1 1) 5000 KAST (elide (toks parse_sample)) with PNode _ us => us = [] | _ => False end.
Proof. split_and!; [by vm_compute|apply Nat.leb_le; by vm_compute|vm_compute; reflexivity]. Qed.
Print Assumptions C45_tokens_terminate.

(** The tokens of a parsed file have the whole input as text, and the grammar, read
    declaratively, derives the tree from all of them but the white space. *)
Theorem C46_parse_accounts_for_all_input s t :
  parse s = Ok (Some t) →
  ∃ ts st, lex "" s = Ok (Lexed ts st) ∧ text_of ts = s ∧
    builds (advance (start_pos "") s) KAST (filter (λ u, kind_of_token u ≠ TWhitespace) ts) t.
Proof. exact (p46_all_input s t). Qed.
(** A token too many at the end is an error. *)
Example C46_example :
  shape (chars "x = 1") = Some ([KAttribute], 20) ∧ shape (chars "x = 1 y") = Some ([KAttribute; KAttribute], 22) ∧
  shape (chars "x = 1 )") = None ∧ shape (chars "x = 1 ""a""") = None.
Proof. vm_compute. by split_and!. Qed.
Print Assumptions C46_parse_accounts_for_all_input.

Theorem C60_parsed_trees_are_well_formed s t :
  parse s = Ok (Some t) → kind_of t = KAST ∧ typed t = true ∧ well_formed t.
Proof. exact (p60_well_formed s t). Qed.
Example C60_example :
  match parse parse_sample with
  | Ok (Some t) => (kind_of t, typed t, length (nodes t))
  | _ => (KExpr, false, 0)
  end = (KAST, true, 238).
Proof. by vm_compute. Qed.
Print Assumptions C60_parsed_trees_are_well_formed.

(** A successful parse is only possible if every string, heredoc, interpolation and
    unicode escape has been closed, innermost first. *)
Theorem C61_nothing_is_left_open s t :
  parse s = Ok (Some t) → ∃ ts, lex "" s = Ok (Lexed ts [(SRoot, [])]) ∧ nested SRoot ts.
Proof. exact (p61_closed s t). Qed.
(** A heredoc in an interpolation in a string; and two files that are lexed but leave
    something open. *)
Example C61_example :
  shape (chars ("x = ""a${<<E" +:+ nl +:+ "${b}" +:+ nl +:+ "E}""")) = Some ([KAttribute], 57) ∧
  map (λ s, shape (chars s)) ["x = ""a"; "x = ""${a"] = [None; None] ∧
  map (λ s, match lex "" (chars s) with Ok (Lexed _ st) => map fst st | _ => [] end) ["x = ""a"; "x = ""${a"] =
    [[SString; SRoot]; [SStringExpr; SString; SRoot]].
Proof. vm_compute. by split_and!. Qed.
Print Assumptions C61_nothing_is_left_open.
