(** * The properties of FormattedString

    [blank_entry m] (EtxFormatSpec.v): [m] is the entry of an enum, an object or a map, and
    is a comment or empty lines.  [printed t m]: [m] is a node of [t] and is not in the else
    branch of a conditional without a then branch. *)
From stdpp Require Import base list option strings.
From Coq Require Import Ascii.
From Verif Require Import GoBase EtxAst EtxHeap EtxHeapSpec EtxText EtxLex EtxUtil EtxGram EtxParse
  EtxPrecSpec EtxFormat EtxFormatSpec EtxFormatPropProofs EtxFormatExample.

(** A parsed file whose FormattedString panics: an enum with an empty line. *)
Theorem C30_formatting_can_panic_refuted :
  ∃ s t, parse s = Ok (Some t) ∧ format t = Panic.
Proof. exact (p30_refuted). Qed.
Example C30_example :
  map formatted [lines ["type x enum {"; "a: 1"; ""; "b: 2"; "}"]; lines ["type x object {"; "// c"; "a: int"; "}"];
                 lines ["const x = {"; "a = 1"; "// c"; "}"]; lines ["const x = [";  "1"; "// c"; "]"]] =
    [Panics; Panics; Panics; Prints (str (lines ["const x = ["; "	1,"; "	// c"; "]"]))].
Proof. vm_compute. reflexivity. Qed.
Print Assumptions C30_formatting_can_panic_refuted.

(** Without comments and empty lines in enums, objects and maps there is no panic.  In
    full: the same without the second hypothesis; that is refuted above. *)
Theorem C30_without_blank_entries_partial s t :
  parse s = Ok (Some t) → (∀ m, m ∈ nodes t → ¬ blank_entry m) → ∃ u, format t = Ok u.
Proof. exact (p30_partial s t). Qed.
Example C30_partial_example :
  let s := lines ["type x enum {"; "a: 1"; "long: if b { 2 } else { [3, 4] }"; "}"; "def f(a: int) int { "; "f(a - 1)"; "}"] in
  blank_inside s = false ∧
  formatted s = Prints (str (lines ["type x enum {"; "	a:    1"; "	long: if b {"; "		2"; "	} else {"; "		["; "			3,"; "			4,"; "		]"; "	}"; "}"; "";
    "def f(a: int) int {"; "	f(a - 1)"; "}"])).
Proof. vm_compute. split; reflexivity. Qed.
Print Assumptions C30_without_blank_entries_partial.

(** Exactly these entries make it panic, if they are printed. *)
Theorem C63_when_formatting_panics s t :
  parse s = Ok (Some t) → format t = Panic ↔ ∃ m, printed t m ∧ blank_entry m.
Proof. exact (p63_exact s t). Qed.
(** A comment in a map, in the else branch: of the first conditional this branch is printed,
    of the second it is not. *)
Example C63_example :
  let s c := lines ["const x = if a {"; c; "} else { {"; "b = 1"; "// c"; "} }"] in
  (formatted (s "d") = Panics ∧ blank_inside (s "d") = true) ∧
  formatted (s "") = Prints (str (lines ["const x = if a { }"])) ∧ blank_inside (s "") = true.
Proof. vm_compute. repeat split; reflexivity. Qed.
Print Assumptions C63_when_formatting_panics.

(** And otherwise there is a text. *)
Theorem C63_otherwise_it_succeeds s t :
  parse s = Ok (Some t) → (∀ m, printed t m → ¬ blank_entry m) → ∃ u, format t = Ok u.
Proof. exact (p63_success s t). Qed.
Example C63_success_example :
  let s := lines ["const x = {"; "a = 1, 'b' = [2]"; "}"] in
  blank_inside s = false ∧ formatted s = Prints (str (lines ["const x = {"; "	a: 1,"; "	""b"": ["; "		2,"; "	],"; "}"])).
Proof. vm_compute. split; reflexivity. Qed.
Print Assumptions C63_otherwise_it_succeeds.

(** For every tree, whether or not it can be parsed. *)
Theorem C63_formatting_terminates t :
  format t ≠ OutOfFuel.
Proof. exact (p63_terminates t). Qed.
(** Trees that cannot be parsed panic or print something. *)
Example C63_terminates_example :
  format (node no_pos KRootItem []) = Panic ∧ format (node no_pos KExprUnary []) = Panic ∧
  format (node no_pos KBlock [(FName, VStr "b")]) = Ok (chars "b {}").
Proof. vm_compute. repeat split; reflexivity. Qed.
Print Assumptions C63_formatting_terminates.

(** An attribute is printed with a colon, which is not its syntax. *)
Theorem C32_output_need_not_parse_refuted :
  ∃ s t u, parse s = Ok (Some t) ∧ format t = Ok u ∧ parse u = Ok None.
Proof. exact (p32_refuted). Qed.
(** Others: maps, heredocs, functions that return a function. *)
Example C32_example :
  map (λ s, match formatted s with Prints u => formatted (chars u) | o => o end)
    [lines ["x = 1"]; lines ["const x = {a = 1}"]; lines ["const x = <<E"; "a"; "E"]; lines ["def f() ((a) -> b) {}"]] =
    [Rejected; Rejected; Rejected; Rejected].
Proof. vm_compute. reflexivity. Qed.
Print Assumptions C32_output_need_not_parse_refuted.

(** Parentheses are not printed, so that the output can be another expression. *)
Theorem C32_output_can_parse_to_something_else_refuted :
  ∃ s t u t', parse s = Ok (Some t) ∧ format t = Ok u ∧ parse u = Ok (Some t') ∧ unplaced t' ≠ unplaced t.
Proof. exact (p32_other). Qed.
(** Each time a string is printed and parsed, an escape gets another backslash. *)
Example C32_other_example :
  map formatted [lines ["const x = (a + b) * c"]; lines ["const x = ""a\nb"""]; lines ["const x = ""a\\nb"""]] =
    map (λ s, Prints (str (lines [s]))) ["const x = a + b * c"; "const x = ""a\\nb"""; "const x = ""a\\\nb"""].
Proof. vm_compute. reflexivity. Qed.
Print Assumptions C32_output_can_parse_to_something_else_refuted.

(** Two attributes with the same text whose expressions mean different things: without
    its parentheses (a + b) * c is printed like a + b * c. *)
Theorem C33_formatting_loses_structure_refuted :
  ∃ s1 s2 t1 t2 u r1 r2,
    parse s1 = Ok (Some t1) ∧ parse s2 = Ok (Some t2) ∧ format t1 = Ok u ∧ format t2 = Ok u ∧
    attribute_reading t1 r1 ∧ attribute_reading t2 r2 ∧ operators_of r1 ≠ operators_of r2.
Proof. exact (p33_refuted). Qed.
Example C33_example :
  map formatted [lines ["x = (a + b) * c"]; lines ["x = a + b * c"]; lines ["x = (a ? b : c) ? d : e"]] =
    map (λ s, Prints (str (lines [s]))) ["x: a + b * c"; "x: a + b * c"; "x: a ? b : c ? d : e"].
Proof. vm_compute. reflexivity. Qed.
Print Assumptions C33_formatting_loses_structure_refuted.
