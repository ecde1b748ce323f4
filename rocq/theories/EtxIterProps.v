(** * The limit on the iterations of a repetition *)
From stdpp Require Import base list option strings.
From Coq Require Import Ascii NArith.
From Verif Require Import GoBase EtxAst EtxHeap EtxHeapSpec EtxText EtxLex EtxLexExample EtxUtil EtxGram EtxParse EtxFormatExample EtxIter EtxIterProofs.

(** The limit makes no difference but that the parser may panic. *)
Theorem C90_only_difference m s :
  parse_upto m s = parse s ∨ parse_upto m s = Panic.
Proof. exact (only_difference m s). Qed.
Definition outcome (o : res (option ast)) : nat := match o with Ok (Some r) => length (nodes r) | Ok None => 0 | _ => 1 end.
Definition calls : text := lines ["a b c {"; "x = f(1, 2)"; "y"; "z"; "}"].
(** The body has three items and one line feed after each. *)
Example C90_limits :
  map (λ m, outcome (parse_upto m calls)) [0; 1; 2; 3; 4; 5; 100] = [1; 1; 1; 1; 60; 60; 60] ∧ outcome (parse calls) = 60 ∧
  outcome (parse_upto 1 (chars "a")) = 1 ∧ outcome (parse_upto 2 (chars "a")) = 3 ∧
  (** an error before the limit *)
  outcome (parse_upto 2 (chars "=")) = 0.
Proof. vm_compute. repeat split; reflexivity. Qed.
Print Assumptions C90_only_difference.

(** A file that does not meet the limit does not meet a larger one. *)
Theorem C90_larger_limit m m' s :
  m ≤ m' → parse_upto m s ≠ Panic → parse_upto m' s ≠ Panic.
Proof. exact (larger_iterations m m' s). Qed.
Example C90_larger : parse_upto 4 calls ≠ Panic ∧ 4 ≤ 1000 ∧ parse_upto 3 calls = Panic.
Proof. vm_compute. split_and!; [done|repeat constructor|reflexivity]. Qed.
Print Assumptions C90_larger_limit.

(** A file of fewer tokens than the limit does not meet it. *)
Theorem C90_few_tokens m s ts st :
  lex "" s = Ok (Lexed ts st) → length (elide ts) < m → parse_upto m s = parse s.
Proof. exact (few_tokens m s ts st). Qed.
Example C90_tokens : match lex "" calls with Ok (Lexed ts _) => length (elide ts) | _ => 0 end = 20.
Proof. vm_compute. reflexivity. Qed.
Print Assumptions C90_few_tokens.

(** Parse never meets the limit of 1000000 in a file of less than 1000000 bytes. *)
Theorem C90_small_files s :
  (N.of_nat (length s) < 1000000)%N → parse_upto max_iterations s = parse s.
Proof. exact (small_files s). Qed.
Example C90_bytes : (N.of_nat (length calls) < 1000000)%N ∧ outcome (parse calls) = 60.
Proof. vm_compute. split; reflexivity. Qed.
Print Assumptions C90_small_files.

(** A file of as many empty lines as the limit meets it. *)
Theorem C90_limit_is_met m :
  parse_upto m (replicate m lf) = Panic ∧ ∃ r, parse (replicate m lf) = Ok (Some r).
Proof. exact (limit_is_reached m). Qed.
Example C90_three_lines : parse_upto 3 (replicate 3 lf) = Panic ∧ outcome (parse (replicate 3 lf)) = 2 ∧ outcome (parse_upto 4 (replicate 3 lf)) = 2.
Proof. vm_compute. repeat split; reflexivity. Qed.
Print Assumptions C90_limit_is_met.
