(** * How long the parser takes *)
From stdpp Require Import base list option strings.
From Coq Require Import Ascii.
From Verif Require Import GoBase EtxAst EtxHeap EtxHeapSpec EtxText EtxLex EtxLexExample EtxUtil EtxGram EtxParse EtxFormatExample EtxCost EtxCostProofs EtxCostBound.

(** The parser that counts is the parser. *)
Theorem C91_counts_the_parser s :
  (parse_cost s).1 = parse s.
Proof. exact (counts_the_parser s). Qed.
Example C91_example :
  let s := lines ["val x = f(1).a[2]"; "def g(a: b) c {"; "a + 1"; "}"] in
  tries s = 136 ∧ match (parse_cost s).1 with Ok (Some r) => length (nodes r) | _ => 0 end = 88.
Proof. vm_compute. split; reflexivity. Qed.
Print Assumptions C91_counts_the_parser.

(** The file val x=a.(a.( and so on: three more characters make the parser try twice as many
    structs, and then it rejects the file. *)
Theorem C92_doubles k :
  let s := chars "val x=" ++ concat (replicate k (chars "a.(")) in
  length s = 6 + 3 * k ∧ tries s + 27 = 60 * 2 ^ k ∧ parse s = Ok None.
Proof. exact (deep_tries k). Qed.
(** The same file with the parentheses closed is accepted, and takes no longer than others. *)
Example C92_closed :
  map (λ s, (tries s, match parse s with Ok (Some _) => true | _ => false end))
    [chars "val x=a.("; chars "val x=a.(a.("; chars "val x=a.(a.(a.("; chars "val x=a.(a.(a.(a)))"; chars "val x=a.(a.(a.(a.(a))))"] =
  [(93, false); (213, false); (453, false); (100, true); (123, true)].
Proof. vm_compute. reflexivity. Qed.
Print Assumptions C92_doubles.

(** No polynomial bounds the number of structs that the parser tries. *)
Theorem C91_polynomial_refuted :
  ∀ c d, ∃ s, c * length s ^ d + c < tries s.
Proof. exact (not_polynomial). Qed.
(** It is more than the square of the length from 9 characters on, and more than the cube from 36 on. *)
Example C91_small : map (λ s, (length s, tries s)) [chars "val x=a.(a.(a.(a.("; chars "val x=a.(a.(a.(a.(a.(a.(a.(a.("] = [(18, 933); (30, 15333)].
Proof. vm_compute. reflexivity. Qed.
Print Assumptions C91_polynomial_refuted.

(** The parser tries at most exponentially many structs. *)
Theorem C92_at_most_exponential :
  ∃ b, ∀ s, tries s ≤ b ^ (length s + 1).
Proof. exact (at_most_exponential). Qed.
Example C92_files : map (λ s, tries (chars s)) [""; "a"; "a = 1"; "val x = 1"; "val x = ((((1))))"; "a {"; "val x = (("] = [8; 14; 30; 26; 86; 18; 79].
Proof. vm_compute. reflexivity. Qed.
Print Assumptions C92_at_most_exponential.
