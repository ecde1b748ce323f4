{
 "claims": [
  {
   "property": "C01",
   "status": "proved",
   "theorems": [
    "C01_acyclic"
   ],
   "note": ""
  },
  {
   "property": "C02",
   "status": "proved",
   "theorems": [
    "C02_loop_detection_exact"
   ],
   "note": ""
  },
  {
   "property": "C03",
   "status": "proved",
   "theorems": [
    "C03_refinement"
   ],
   "note": "The specification (DagSpec.v) is a finite map of vertices and a finite set of edges; all 19 API calls refine it."
  },
  {
   "property": "C04",
   "status": "proved",
   "theorems": [
    "C04_descendants_exact",
    "C04_ancestors_exact"
   ],
   "note": ""
  },
  {
   "property": "C05",
   "status": "proved",
   "theorems": [
    "C05_failed_calls_change_nothing"
   ],
   "note": "Observational: no later history of calls can tell the two graphs apart (caches may differ)."
  },
  {
   "property": "C06",
   "status": "proved",
   "theorems": [
    "C06_delete_vertex"
   ],
   "note": ""
  },
  {
   "property": "C07",
   "status": "proved",
   "theorems": [
    "C07_add_edge",
    "C07_delete_edge"
   ],
   "note": ""
  },
  {
   "property": "C08",
   "status": "proved",
   "theorems": [
    "C08_add_vertex"
   ],
   "note": ""
  },
  {
   "property": "C09",
   "status": "proved",
   "theorems": [
    "C09_vertex_error_precedence",
    "C09_add_vertex_error_precedence",
    "C09_add_edge_error_precedence",
    "C09_delete_edge_error_precedence",
    "C09_is_edge_error_precedence"
   ],
   "note": ""
  },
  {
   "property": "C10",
   "status": "proved",
   "theorems": [
    "C10_parents_children_edges_agree"
   ],
   "note": ""
  },
  {
   "property": "C11",
   "status": "proved",
   "theorems": [
    "C11_roots",
    "C11_leaves"
   ],
   "note": ""
  },
  {
   "property": "C12",
   "status": "proved",
   "theorems": [
    "C12_order_and_size"
   ],
   "note": ""
  },
  {
   "property": "C13",
   "status": "proved",
   "theorems": [
    "C13_duality"
   ],
   "note": ""
  },
  {
   "property": "C14",
   "status": "proved",
   "theorems": [
    "C14_reduction_preserves_reachability"
   ],
   "note": ""
  },
  {
   "property": "C15",
   "status": "proved",
   "theorems": [
    "C15_reduction_minimal"
   ],
   "note": ""
  },
  {
   "property": "C16",
   "status": "proved",
   "theorems": [
    "C16_ordered_descendants",
    "C16_ordered_ancestors"
   ],
   "note": ""
  },
  {
   "property": "C17",
   "status": "proved",
   "theorems": [
    "C17_walker_errors",
    "C17_prefix_of_breadth_first_order",
    "C17_silent_client_gets_everything"
   ],
   "note": "The graph does not change while the walker runs (a change would be a data race)."
  },
  {
   "property": "C18",
   "status": "partial",
   "theorems": [
    "C18_at_most_one_id_after_the_signal",
    "C18_receiving_client_sees_the_end",
    "C18_no_goroutine_left_behind_refuted"
   ],
   "note": "REFUTED in one part: a consumer that signals while the goroutine is blocked in its send, and receives no more, leaves it behind for ever (C18_no_goroutine_left_behind_refuted). The other parts are proved; C49 is the true part of the refuted sentence."
  },
  {
   "property": "C19",
   "status": "partial",
   "theorems": [
    "C19_signal_is_safe_before_the_end_partial",
    "C19_signal_never_panics_refuted"
   ],
   "note": "REFUTED: the walker closes the signal channel when it ends; a consumer that signals afterwards panics. The partial theorem says when it is safe."
  },
  {
   "property": "C20",
   "status": "proved",
   "theorems": [
    "C20_no_panic",
    "C20_fuel_irrelevant"
   ],
   "note": "Model recursion runs on fuel; C20_no_panic shows the fuel given suffices, C20_fuel_irrelevant that more changes nothing."
  },
  {
   "property": "C21",
   "status": "proved",
   "theorems": [
    "C21_iteration_order_irrelevant"
   ],
   "note": "Ordered queries and String may differ in the order of ids at the same distance and of lines; same_out in DagObs.v says so."
  },
  {
   "property": "C22",
   "status": "proved",
   "theorems": [
    "C22_queries_pure"
   ],
   "note": ""
  },
  {
   "property": "C23",
   "status": "proved",
   "theorems": [
    "C23_sets_are_independent_values",
    "C23_only_panic_is_add_to_nil"
   ],
   "note": ""
  },
  {
   "property": "C24",
   "status": "proved",
   "theorems": [
    "C24_string"
   ],
   "note": ""
  },
  {
   "property": "C25",
   "status": "proved",
   "theorems": [
    "C25_clone_is_a_structural_copy"
   ],
   "note": "Value equality of ASTs (strip): kinds, positions, scalars, nil against empty slices, sub-nodes; addresses and parents are not compared."
  },
  {
   "property": "C26",
   "status": "partial",
   "theorems": [
    "C26_clone_is_deep_partial",
    "C26_clone_is_deep_refuted",
    "C26_clone_of_declaration_is_deep_refuted"
   ],
   "note": "REFUTED: Value.Clone copies a Heredoc without cloning it (value.go:48-51), FuncDecl.Clone copies the Type pointer (func.go:198). Partial: holds when neither occurs. C52 says exactly what is shared."
  },
  {
   "property": "C27",
   "status": "partial",
   "theorems": [
    "C27_clone_drops_parents_partial",
    "C27_clone_drops_parents_refuted"
   ],
   "note": "REFUTED: the copied Heredoc keeps its parent (value.go:48-51). Partial: holds when neither a Heredoc nor a typed FuncDecl occurs. C53 is the exact statement."
  },
  {
   "property": "C28",
   "status": "partial",
   "theorems": [
    "C28_children_are_the_sub_nodes_partial",
    "C28_children_have_a_fixed_order",
    "C28_children_are_the_sub_nodes_refuted"
   ],
   "note": "REFUTED: ExprPostfix.Children leaves out Post (expr.go:770-778). Partial: holds for all other nodes; at most one of the alternatives of a RootItem, MapKey or Expr is set and slices hold no nil pointers, as in every AST the parser builds. C54 is the exact statement."
  },
  {
   "property": "C29",
   "status": "partial",
   "theorems": [
    "C29_parents_after_update_partial",
    "C29_parents_after_update_refuted"
   ],
   "note": "REFUTED: nodes below ExprPostfix.Post keep their old parent. Partial: holds without such nodes. C55 is the exact statement."
  },
  {
   "property": "C30",
   "status": "partial",
   "theorems": [
    "C30_formatting_can_panic_refuted",
    "C30_without_blank_entries_partial"
   ],
   "note": "REFUTED: a comment or an empty line in an enum, an object or a map makes FormattedString panic. Partial: without those it never does. C63 is the exact statement."
  },
  {
   "property": "C31",
   "status": "proved",
   "theorems": [
    "C31_indent_lines",
    "C31_indent_is_undone",
    "C31_indent_composes"
   ],
   "note": "Lines are what stands between newlines. Undoing and nesting need a prefix without newlines, as in the code."
  },
  {
   "property": "C32",
   "status": "partial",
   "theorems": [
    "C32_output_need_not_parse_refuted",
    "C32_output_can_parse_to_something_else_refuted",
    "C32_one_declaration_partial"
   ],
   "note": "REFUTED: an attribute is printed with a colon, which does not parse; parentheses are dropped, which parses to another tree. Proved: a file of one declaration that ends in a newline survives, if it has no if, switch, parentheses, heredoc, list or map, only strings of plain text without the double quote, and no number beside the dot of a selection. Several declarations, empty lines and a missing final newline are C71. Missing: functions, types and blocks."
  },
  {
   "property": "C33",
   "status": "partial",
   "theorems": [
    "C33_formatting_loses_structure_refuted",
    "C33_one_declaration_partial"
   ],
   "note": "REFUTED: (a + b) * c and a + b * c have the same text, because ExprPrimary.FormattedString drops the parentheses (expr.go:847-849). Proved: two files as in C32_one_declaration_partial with the same text have the same AST; C71_no_two_are_confused for files of many declarations."
  },
  {
   "property": "C34",
   "status": "partial",
   "theorems": [
    "C34_only_leading_zeros",
    "C34_octal_value",
    "C34_captured_again",
    "C34_rewritten_tokens_refuted"
   ],
   "note": "REFUTED in one part: 08 is a number token, rewritten to 0o8, which is two tokens and is rejected. The other parts are proved; for accepted tokens the rewritten text is again one number token with the same value (C34_captured_again). C59 says exactly what is accepted."
  },
  {
   "property": "C35",
   "status": "proved",
   "theorems": [
    "C35_booleans",
    "C35_heredoc_openers",
    "C35_heredoc_end"
   ],
   "note": "The opener is << and the printed delimiter and a newline."
  },
  {
   "property": "C36",
   "status": "proved",
   "theorems": [
    "C36_lexing_is_lossless"
   ],
   "note": "On success the tokens give the whole input; on an error a proper prefix of it."
  },
  {
   "property": "C37",
   "status": "proved",
   "theorems": [
    "C37_lexing_terminates"
   ],
   "note": "Determinism is that lex is a function; the bound is one token per byte, so no input makes the lexer run forever."
  },
  {
   "property": "C38",
   "status": "proved",
   "theorems": [
    "C38_token_positions",
    "C38_error_position"
   ],
   "note": ""
  },
  {
   "property": "C39",
   "status": "partial",
   "theorems": [
    "C39_modes_are_bracketed_partial",
    "C39_unclosed_refuted"
   ],
   "note": "REFUTED: an unterminated string, heredoc or interpolation is no lexer error. Partial: everything that is closed is closed in LIFO order. C57 is the exact statement."
  },
  {
   "property": "C40",
   "status": "proved",
   "theorems": [
    "C40_operators_at_the_start",
    "C40_operators_in_code"
   ],
   "note": "Which characters extend an operator is said by extends in EtxLexSpec.v. In an interpolation the closing brace ends it instead."
  },
  {
   "property": "C41",
   "status": "partial",
   "theorems": [
    "C41_identifiers_partial",
    "C41_identifiers_in_code_partial",
    "C41_if_with_a_dash_refuted"
   ],
   "note": "REFUTED: if-foo is lexed as if, -, foo because \\b holds before a dash. Partial: holds unless the first word of an identifier with dashes is a keyword. C58 is the exact statement for those."
  },
  {
   "property": "C42",
   "status": "partial",
   "theorems": [
    "C42_string_bodies_partial",
    "C42_lone_dollar_refuted"
   ],
   "note": "REFUTED: a lone $ or % in a string is a lexer error. C56 says exactly which bodies are accepted."
  },
  {
   "property": "C43",
   "status": "proved",
   "theorems": [
    "C43_parsed_operators_follow_the_table",
    "C43_written_expressions_follow_the_table"
   ],
   "note": "Both directions: every binary node of every parsed file has exactly one reading, which spells its tokens and follows the table; and every sequence of operands (names, numbers, parenthesised expressions, with or without a sign) and operators is parsed, as the value of an attribute, with that reading. How operators of one level associate is C44 and C62."
  },
  {
   "property": "C44",
   "status": "partial",
   "theorems": [
    "C44_operators_do_not_associate_left_to_right_refuted",
    "C44_without_repeated_levels_partial"
   ],
   "note": "REFUTED: a - b - c is read as a - (b - c) (right recursion in expr.go). Partial: holds if no two operators are of the same level. C62 is the exact statement."
  },
  {
   "property": "C45",
   "status": "proved",
   "theorems": [
    "C45_parsing_is_total",
    "C45_tokens_total",
    "C45_lexed_openers",
    "C45_tokens_terminate"
   ],
   "note": "Every input: C45_parsing_is_total. Arbitrary token sequences: the parser always terminates; it would panic only on a heredoc opener without a delimiter, which the lexer never makes. Participle (v2.0.0-alpha8) is modelled from knowledge of its source; its limit of 1000000 iterations of a repetition is C90."
  },
  {
   "property": "C46",
   "status": "proved",
   "theorems": [
    "C46_parse_accounts_for_all_input"
   ],
   "note": "builds (EtxParseSpec.v) is a declarative reading of the struct tags, without search order, that consumes each token exactly once."
  },
  {
   "property": "C47",
   "status": "proved",
   "theorems": [
    "C47_writes_have_no_effect",
    "C47_write_keeps_graph"
   ],
   "note": "In a model with maps as references (DagMem.v), where a client may overwrite every map and slice it was given with anything."
  },
  {
   "property": "C48",
   "status": "proved",
   "theorems": [
    "C48_clone_leaves_memory_unchanged",
    "C48_clone_leaves_its_source_unchanged"
   ],
   "note": "Clone writes to no existing address, whatever the memory."
  },
  {
   "property": "C49",
   "status": "proved",
   "theorems": [
    "C49_signal_while_not_sending_ends_the_walker"
   ],
   "note": ""
  },
  {
   "property": "C50",
   "status": "proved",
   "theorems": [
    "C50_closing_the_signal_channel_crashes"
   ],
   "note": ""
  },
  {
   "property": "C51",
   "status": "proved",
   "theorems": [
    "C18_at_most_one_id_after_the_signal",
    "C18_receiving_client_sees_the_end"
   ],
   "note": ""
  },
  {
   "property": "C52",
   "status": "proved",
   "theorems": [
    "C52_clone_shares_exactly"
   ],
   "note": ""
  },
  {
   "property": "C53",
   "status": "proved",
   "theorems": [
    "C53_parents_in_a_clone"
   ],
   "note": ""
  },
  {
   "property": "C54",
   "status": "proved",
   "theorems": [
    "C54_children_without_post"
   ],
   "note": ""
  },
  {
   "property": "C55",
   "status": "proved",
   "theorems": [
    "C55_update_parent_refs_exactly"
   ],
   "note": ""
  },
  {
   "property": "C56",
   "status": "proved",
   "theorems": [
    "C56_string_bodies_exactly"
   ],
   "note": ""
  },
  {
   "property": "C57",
   "status": "proved",
   "theorems": [
    "C57_brackets_close_innermost_first"
   ],
   "note": ""
  },
  {
   "property": "C58",
   "status": "proved",
   "theorems": [
    "C58_keyword_with_a_dash"
   ],
   "note": ""
  },
  {
   "property": "C59",
   "status": "proved",
   "theorems": [
    "C59_accepted_literals",
    "C59_every_literal_is_a_token",
    "C59_one_value"
   ],
   "note": "big.Float.Parse and the regular expression engine are modelled from their documented behaviour. What the literal denotes is exact; how it is rounded to 53 bits is C81."
  },
  {
   "property": "C60",
   "status": "proved",
   "theorems": [
    "C60_parsed_trees_are_well_formed"
   ],
   "note": "The hypotheses of C28, C29, C54 and C55 about the shape of a tree hold for every parsed file."
  },
  {
   "property": "C61",
   "status": "proved",
   "theorems": [
    "C61_nothing_is_left_open"
   ],
   "note": "This is what remains true of the refuted part of C39."
  },
  {
   "property": "C62",
   "status": "proved",
   "theorems": [
    "C62_operators_associate_right_to_left",
    "C62_no_two_operators_left_to_right",
    "C62_table_and_direction_determine_the_reading"
   ],
   "note": ""
  },
  {
   "property": "C63",
   "status": "proved",
   "theorems": [
    "C63_when_formatting_panics",
    "C63_otherwise_it_succeeds",
    "C63_formatting_terminates"
   ],
   "note": "The else branch of a conditional without a then branch is not printed, so entries in it do no harm."
  },
  {
   "property": "C64",
   "status": "proved",
   "theorems": [
    "C64_memory_model_agrees",
    "C64_no_shared_set",
    "C64_other_memory_untouched"
   ],
   "note": "This justifies that DagModel.v treats sets as values. One graph is in use; others may be in memory."
  },
  {
   "property": "C65",
   "status": "proved",
   "theorems": [
    "C65_results_are_snapshots",
    "C65_results_are_new"
   ],
   "note": "For calls on one graph; writes by the client itself are C47."
  },
  {
   "property": "C66",
   "status": "proved",
   "theorems": [
    "C66_children_in_source_order",
    "C66_positions_never_decrease",
    "C66_children_without_position"
   ],
   "note": "What Children lists at all is C28 and C54; ExprPostfix.Post is not listed."
  },
  {
   "property": "C67",
   "status": "proved",
   "theorems": [
    "C67_parse_in_memory",
    "C67_allocation_is_possible",
    "C67_parsing_twice"
   ],
   "note": "Reading from the io.Reader does not fail. That participle allocates every struct and slice separately is part of the model (allocates)."
  },
  {
   "property": "C68",
   "status": "proved",
   "theorems": [
    "C68_layout",
    "C68_white_space",
    "C68_tokens"
   ],
   "note": "Two spellings of a number are the same if ValueNumber.Capture makes the same source and value of them (C34)."
  },
  {
   "property": "C69",
   "status": "proved",
   "theorems": [
    "C69_settled_file_parsed",
    "C69_settled_is_described",
    "C69_settled_unique"
   ],
   "note": "The converse of C46, which in general does not hold. Which expressions can start with a token (opens) is defined on the grammar alone."
  },
  {
   "property": "C70",
   "status": "partial",
   "theorems": [
    "C70_described_not_accepted_refuted",
    "C70_two_descriptions_refuted",
    "C70_settled_partial"
   ],
   "note": "REFUTED: def f() (a) -> b {} is described but rejected (func.go:13: the first alternative takes (a)); val x = a.b has two descriptions. Partial: holds for files that one token of lookahead settles (C69)."
  },
  {
   "property": "C71",
   "status": "proved",
   "theorems": [
    "C71_declarations_survive",
    "C71_no_two_are_confused",
    "C71_again_and_again"
   ],
   "note": "plain (EtxReprintSpec.v) is also the condition of C32_one_declaration_partial; a file may lack the final newline and have several declarations on one line."
  },
  {
   "property": "C72",
   "status": "proved",
   "theorems": [
    "C72_positions_do_not_matter",
    "C72_same_ast",
    "C72_layout_is_forgotten"
   ],
   "note": "For all inputs, not only declarations. alike is in EtxLayout.v."
  },
  {
   "property": "C73",
   "status": "partial",
   "theorems": [
    "C73_blank_lines_pile_up",
    "C73_never_settles",
    "C73_formatting_twice_refuted"
   ],
   "note": "REFUTED: AST.FormattedString puts two line feeds between items and prints an empty line as its own line feeds, so the line feeds it adds are read back and get more with every round (ast.go:67-78). Proved of every file of plain declarations: each round adds at least three characters for every declaration after the first (C73_blank_lines_pile_up), so with two or more declarations no round ever gives back its input (C73_never_settles)."
  },
  {
   "property": "C74",
   "status": "partial",
   "theorems": [
    "C74_final_newline_refuted",
    "C74_final_newline_partial"
   ],
   "note": "REFUTED: in val x = a <<b a newline at the end turns <<b into the opener of a heredoc, which is never closed. C74_final_newline_partial: holds for files that do not end with << and a word and that are accepted with a lookahead of 49 tokens, such as all files of up to 49 tokens; C89 says that the first condition is necessary."
  },
  {
   "property": "C75",
   "status": "proved",
   "theorems": [
    "C75_writable_survives",
    "C75_text_determines_tree"
   ],
   "note": "The conditions on the AST are writable in EtxWriteSpec.v; gist is the AST without positions and empty lines, with nil for an empty slice. C75_left_out shows for some of the excluded constructs that they do not survive."
  },
  {
   "property": "C76",
   "status": "proved",
   "theorems": [
    "C76_ordinary_writable",
    "C76_ordinary_survives"
   ],
   "note": "The list of constructs is ordinary in EtxOrdinarySpec.v; it speaks of the AST only. C76_left_out shows for most of them that they do not survive. Follows from C75 and C76_ordinary_writable."
  },
  {
   "property": "C77",
   "status": "proved",
   "theorems": [
    "C77_one_cycle",
    "C77_any_number_of_cycles",
    "C77_ordinary_files"
   ],
   "note": "writable is in EtxWriteSpec.v, ordinary in EtxOrdinarySpec.v. Positive counterpart of C73."
  },
  {
   "property": "C78",
   "status": "proved",
   "theorems": [
    "C78_same_ink",
    "C78_only_layout_changes"
   ],
   "note": "ink (EtxInkSpec.v) is a text without line feeds and tabs; also those within strings and comments are left out, but C77 says that strings and comments stay the same."
  },
  {
   "property": "C79",
   "status": "proved",
   "theorems": [
    "C79_limit_of_the_parser",
    "C79_larger_limit",
    "C79_short_files",
    "C79_limit_is_met",
    "C79_total"
   ],
   "note": "EtxLook.v is the parser of EtxParse.v with the limit as a parameter; C79_limit_of_the_parser says that 50 gives the parser."
  },
  {
   "property": "C80",
   "status": "partial",
   "theorems": [
    "C80_value_is_the_number_refuted",
    "C80_exact_partial"
   ],
   "note": "REFUTED: big.NewFloat(0) has a precision of 53 bits, so 9007199254740993 becomes 9007199254740992; the comment at value.go:154 says arbitrary precision. Proved where 53 bits are enough (C80_exact_partial). What the Value is instead: C81."
  },
  {
   "property": "C81",
   "status": "proved",
   "theorems": [
    "C81_one_nearest",
    "C81_nearest",
    "C81_close",
    "C81_same_number",
    "C81_sharp",
    "C81_infinite",
    "C81_zero"
   ],
   "note": "nearest and off_by are in EtxFloatSpec.v, rounding in EtxFloat.v; C81_sharp shows that 50 is the largest exponent: 1374448664048697661794158298053e51 is not rounded to the nearest number. Between 2^28 and the limits of big.Float the error is not bounded here."
  },
  {
   "property": "C82",
   "status": "partial",
   "theorems": [
    "C82_parallel_queries_refuted"
   ],
   "note": "REFUTED: two goroutines that call GetAncestors of the same vertex write the cache at the same time (dag.go has no locks). C83 is the exact statement."
  },
  {
   "property": "C83",
   "status": "proved",
   "theorems": [
    "C83_no_race",
    "C83_fill_cache",
    "C83_else_race",
    "C83_programs_agree"
   ],
   "note": "DagProg.v models every call as a program of single accesses to memory; C83_programs_agree says that a call that runs alone does what DagMem.v says. A race is that two goroutines are about to access the same map or field and one changes it (DagRaceSpec.v); a walker may halt anywhere."
  },
  {
   "property": "C84",
   "status": "proved",
   "theorems": [
    "C84_same_answers"
   ],
   "note": "The results are what the goroutine read in the maps and slices it was given, right after each call. The walkers that run at the same time are C83; what they send is C17."
  },
  {
   "property": "C85",
   "status": "partial",
   "theorems": [
    "C85_change_during_walk_refuted"
   ],
   "note": "REFUTED: the walker goroutine reads outboundEdges[1] while the client deletes an edge from 1. Walkers and queries are C83."
  },
  {
   "property": "C86",
   "status": "proved",
   "theorems": [
    "C86_the_level_asked_for",
    "C86_interface",
    "C86_other_types",
    "C86_nil",
    "C86_text",
    "C86_what_the_parser_builds"
   ],
   "note": "The value is a tree (EtxBuild.v); that the new nodes refer to the parts of the given one in memory is not modelled. wraps and consists_of are in EtxBuildSpec.v."
  },
  {
   "property": "C87",
   "status": "proved",
   "theorems": [
    "C87_one_rounded",
    "C87_rounded",
    "C87_negative",
    "C87_infinite",
    "C87_error",
    "C87_exact"
   ],
   "note": "Value.String() of math/big is modelled in EtxNumText.v. The Value is kept as a literal; only Values of 53 bits, as the parser and big.NewFloat make them, are modelled. short and rounded are in EtxNumTextSpec.v. That a nil Value makes it panic is C63."
  },
  {
   "property": "C88",
   "status": "partial",
   "theorems": [
    "C88_value_survives_refuted",
    "C88_ten_digits_partial"
   ],
   "note": "REFUTED: a Value of 1234567890.5 is written 1234567890. Proved for Values read from literals of at most ten digits whose last digit stands for 10^-40 to 10^40 (C88_ten_digits_partial). What is written in general is C87."
  },
  {
   "property": "C89",
   "status": "proved",
   "theorems": [
    "C89_same_tokens",
    "C89_open_end_refused",
    "C89_final_newline",
    "C89_short_files",
    "C89_more_newlines"
   ],
   "note": "ends_open is in EtxFinalSpec.v. The parser with another lookahead is that of C79. Whether the condition on the lookahead is needed is not known; it matters only if a branch of the grammar fails after exactly the last 50 tokens of the file."
  },
  {
   "property": "C90",
   "status": "proved",
   "theorems": [
    "C90_only_difference",
    "C90_larger_limit",
    "C90_few_tokens",
    "C90_small_files",
    "C90_limit_is_met"
   ],
   "note": "EtxIter.v is the parser of EtxParse.v with the limit as a parameter; MaxIterations is 1000000 in participle v2.0.0-alpha8, which panics when it is met. The other properties of the parser are about EtxParse.v, that is, files that do not meet the limit, such as all files below a million bytes."
  },
  {
   "property": "C91",
   "status": "partial",
   "theorems": [
    "C91_counts_the_parser",
    "C91_polynomial_refuted"
   ],
   "note": "REFUTED: the files of C92_doubles. EtxCost.v is the parser of EtxParse.v with a count of the calls of strct.Parse of participle; C91_counts_the_parser says that it gives the same results."
  },
  {
   "property": "C92",
   "status": "proved",
   "theorems": [
    "C92_doubles",
    "C92_at_most_exponential"
   ],
   "note": "The base of the bound is not given; it is far from the truth. Time of the lexer is not counted."
  },
  {
   "property": "C93",
   "status": "proved",
   "theorems": [
    "C93_few_loops",
    "C93_short_loops"
   ],
   "note": "The counter of loops is part of DagModel.v, where it selects the iteration order of the next loop. C93_short_loops says that no loop is over a larger map in this way: the order of such maps may be anything, even an order that loses keys, without any effect on the call."
  },
  {
   "property": "C94",
   "status": "proved",
   "theorems": [
    "C94_where_a_node_is",
    "C94_one_node_at_a_place",
    "C94_inside_the_parent"
   ],
   "note": "The AST itself has no Pos; which other nodes have none is C66. A struct that matches no token (TypeEnum, TypeObject, ExprInvocationParams) has the place of the closing token that follows."
  },
  {
   "property": "C95",
   "status": "proved",
   "theorems": [
    "C95_nothing_deleted_remains",
    "C95_no_vertices_no_trace"
   ],
   "note": ""
  },
  {
   "property": "C96",
   "status": "partial",
   "theorems": [
    "C96_topological_refuted"
   ],
   "note": "REFUTED: breadth first is not topological. The exact condition is C97."
  },
  {
   "property": "C97",
   "status": "proved",
   "theorems": [
    "C97_any_may_be_first_descendant",
    "C97_any_may_be_first_ancestor",
    "C97_descendants_in_order",
    "C97_ancestors_in_order",
    "C97_never_in_order",
    "C97_ancestors_never_in_order"
   ],
   "note": ""
  },
  {
   "property": "C98",
   "status": "proved",
   "theorems": [
    "C98_at_most",
    "C98_that_many"
   ],
   "note": ""
  },
  {
   "property": "C99",
   "status": "proved",
   "theorems": [
    "C99_can_be_built",
    "C99_nothing_else_matters"
   ],
   "note": ""
  },
  {
   "property": "C100",
   "status": "proved",
   "theorems": [
    "C100_which_descendant_lists",
    "C100_which_ancestor_lists"
   ],
   "note": ""
  },
  {
   "property": "C101",
   "status": "proved",
   "theorems": [
    "C101_what_a_walker_delivers",
    "C101_walkers_and_ordered_queries",
    "C101_what_a_patient_client_gets"
   ],
   "note": ""
  },
  {
   "property": "C102",
   "status": "proved",
   "theorems": [
    "C102_which_edges_stay",
    "C102_canonical_form"
   ],
   "note": ""
  },
  {
   "property": "C103",
   "status": "proved",
   "theorems": [
    "C103_add_edge_undone",
    "C103_delete_edge_undone",
    "C103_add_vertex_undone",
    "C103_edges_in_any_order"
   ],
   "note": ""
  }
 ]
}