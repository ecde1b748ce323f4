(** * The lookahead limit of the parser *)
From stdpp Require Import base list option strings.
From Coq Require Import Ascii.
From Verif Require Import GoBase EtxAst EtxHeap EtxHeapSpec EtxText EtxLex EtxLexExample EtxUtil EtxGram EtxParse EtxFormatExample EtxLook EtxLookProofs EtxLookTotal.

(** The parser is the one with limit 50. *)
Theorem C79_limit_of_the_parser s :
  parse_at 50 s = parse s.
Proof. exact (parse_is_at s). Qed.
Definition accepted (o : res (option ast)) : nat := match o with Ok (Some r) => length (nodes r) | _ => 0 end.
Example C79_example : accepted (parse_at 50 (lines ["type a enum {"; "//"; "b = 1"; "}"])) = 24.
Proof. vm_compute. reflexivity. Qed.
Print Assumptions C79_limit_of_the_parser.

(** A file that is accepted is accepted with every larger limit, and the tree is the same. *)
Theorem C79_larger_limit n n' s r :
  n <= n' → parse_at n s = Ok (Some r) → parse_at n' s = Ok (Some r).
Proof. exact (larger_limit n n' s r). Qed.
(** The file that starts like a type is a block.  With one comment line the smallest limit
    that does is 7, with 22 it is 49 and with 23 it is 51. *)
Definition remarks (n : nat) : text := lines (["type a enum {"] ++ replicate n "//" ++ ["b = 1"; "}"]).
Example C79_limits :
  map (λ x, accepted (parse_at x.1 (remarks x.2))) [(6, 1); (7, 1); (8, 1); (48, 22); (49, 22); (50, 22); (50, 23); (51, 23); (100, 23)] =
  [0; 24; 24; 0; 24; 24; 0; 24; 24].
Proof. vm_compute. reflexivity. Qed.
Print Assumptions C79_larger_limit.

(** The limit does not matter to files of no more tokens than the limit. *)
Theorem C79_short_files n n' s ts st :
  lex "" s = Ok (Lexed ts st) → length (elide ts) <= n → n <= n' → parse_at n' s = parse_at n s.
Proof. exact (short_files n n' s ts st). Qed.
Example C79_length : match lex "" (remarks 1) with Ok (Lexed ts _) => length (elide ts) | _ => 0 end = 13.
Proof. vm_compute. reflexivity. Qed.
Print Assumptions C79_short_files.

(** Some files are rejected only because of the limit. *)
Theorem C79_limit_is_met :
  ∃ s, parse s = Ok None ∧ ∃ r, parse_at 51 s = Ok (Some r).
Proof. exact (limit_is_met). Qed.
Print Assumptions C79_limit_is_met.

(** With any limit the parser ends, and it does not panic. *)
Theorem C79_total n s :
  ∃ o, parse_at n s = Ok o.
Proof. exact (any_limit_total n s). Qed.
Example C79_no_lookahead :
  (** with no lookahead at all *)
  map (λ s, match parse_at 0 (chars s) with Ok (Some _) => 2 | Ok None => 1 | _ => 0 end)
    ["val x = <<"; "a {"; "a { } }"; """"; "1.2.3"; "val x"; "a"; "a = b"] = [1; 1; 1; 1; 1; 2; 1; 1].
Proof. vm_compute. reflexivity. Qed.
Print Assumptions C79_total.
