(** * Proofs of the properties of the parser of pkg/etx *)
From stdpp Require Import base list option strings.
From Coq Require Import Ascii Lia.
From Verif Require Import GoBase EtxAst EtxHeap EtxHeapSpec EtxText EtxLex EtxLexSpec EtxLexFacts EtxLexPropProofs EtxUtil
  EtxGram EtxParse EtxParseBase EtxParseSpec EtxParseLevel EtxParseLexed EtxParseTotal EtxParseTyped EtxParseNest.

Lemma parse_built s t :
  parse s = Ok (Some t) →
  ∃ ts st, lex "" s = Ok (Lexed ts st) ∧ builds (advance (start_pos "") s) KAST (elide ts) t.
Proof.
  unfold parse. destruct (lex "" s) as [[ts st|]| |] eqn:E; try done. intros H. exists ts, st. split; [done|].
  apply parse_tokens_builds; [|done]. apply elide_regular. exact (lexed_regular _ _ _ E).
Qed.

(*P C45_parsing_is_total *)
(** Every input gives an AST or an error: the parser neither panics nor runs forever. *)
Lemma p45_total s : ∃ o, parse s = Ok o.
Proof.
  unfold parse. pose proof (p37 "" s) as (l & E & _). rewrite E. destruct l as [ts st|]; [|by eexists].
  apply parse_tokens_total. by eapply elide_openers.
Qed.
(*P C45_tokens_total *)
(** The same for token sequences, whether or not the lexer can make them, if the opener
    of each heredoc contains a delimiter. *)
Lemma p45_tokens eof ts :
  (∀ u, u ∈ ts → kind_of_token u = THeredoc → is_Some (capture_delimiter (value u))) →
  ∃ o, parse_tokens eof ts = Ok o.
Proof. apply parse_tokens_total. Qed.
(*P C45_lexed_openers *)
(** Which is so for all token sequences the lexer makes. *)
Lemma p45_openers file s ts st u :
  lex file s = Ok (Lexed ts st) → u ∈ elide ts → kind_of_token u = THeredoc → is_Some (capture_delimiter (value u)).
Proof. intros H. by eapply elide_openers. Qed.
(*P C45_tokens_terminate *)
(** No token sequence at all makes the parser run forever: fuel linear in its length
    suffices to parse any struct, and more fuel changes nothing. *)
Lemma p45_terminates eof k ts n :
  60 * length ts + 60 ≤ n →
  parse_struct eof n k ts ≠ PNoFuel ∧ parse_struct eof n k ts = parse_struct eof (60 * length ts + 60) k ts.
Proof.
  intros Hn. pose proof (kind_facts k) as (_ & _ & Hk).
  rewrite !parser_enough by (unfold enough; lia). split; [apply parser_not_out_of_fuel|done].
Qed.
(*P C46_parse_accounts_for_all_input *)
(** The tokens of a parsed file have the whole input as text, and the grammar, read
    declaratively, derives the tree from all of them but the white space. *)
Lemma p46_all_input s t :
  parse s = Ok (Some t) →
  ∃ ts st, lex "" s = Ok (Lexed ts st) ∧ text_of ts = s ∧
    builds (advance (start_pos "") s) KAST (filter (λ u, kind_of_token u ≠ TWhitespace) ts) t.
Proof.
  intros H. destruct (parse_built _ _ H) as (ts & st & Hl & Hb). exists ts, st. split_and!; [done| |exact Hb].
  by destruct (p36 _ _ _ Hl) as [_ Hp].
Qed.
(*P C60_parsed_trees_are_well_formed *)
Lemma p60_well_formed s t :
  parse s = Ok (Some t) → kind_of t = KAST ∧ typed t = true ∧ well_formed t.
Proof.
  intros H. destruct (parse_built _ _ H) as (ts & st & _ & Hb). apply builds_good in Hb as [Hk [Ht Hw]]. done.
Qed.
(*P C61_nothing_is_left_open *)
(** A successful parse is only possible if every string, heredoc, interpolation and
    unicode escape has been closed, innermost first. *)
Lemma p61_closed s t :
  parse s = Ok (Some t) → ∃ ts, lex "" s = Ok (Lexed ts [(SRoot, [])]) ∧ nested SRoot ts.
Proof.
  intros H. destruct (parse_built _ _ H) as (ts & st & Hl & Hb). exists ts.
  pose proof (built_closed _ _ _ _ _ _ _ Hl Hb) as ->. split; [done|].
  destruct (p57 _ _ _ Hl) as (os & Ho & Hn). destruct os; [|done]. by inversion Ho.
Qed.
