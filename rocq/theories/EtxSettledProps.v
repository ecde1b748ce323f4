(** * What one token of lookahead settles is found

    [settled e k us rest t] is in EtxSettledSpec.v; [builds] in EtxParseSpec.v. *)
From stdpp Require Import base list option strings.
From Coq Require Import Ascii.
From Verif Require Import GoBase EtxAst EtxHeap EtxHeapSpec EtxText EtxLex EtxLexExample EtxUtil EtxGram EtxParse EtxParseSpec
  EtxSettledSpec EtxSettled EtxSettledExample EtxSettledFalse.

Theorem C69_settled_file_parsed s ts sp r :
  lex "" s = Ok (Lexed ts sp) →
  settled (advance (start_pos "") s) KAST (elide ts) [] r →
  parse s = Ok (Some r).
Proof. exact (settled_file_parsed s ts sp r). Qed.
Definition nl : string := String (Ascii.ascii_of_nat 10) "".
Definition count (k : kind) (t : ast) : nat := length (filter (λ m, kind_of m = k) (nodes t)).
(** Three items, with a conditional, a selection, an index, a call, a list and a body. *)
Example C69_example :
  let s := chars ("const d = f(2).g ? e[0] : -h" +:+ nl +:+ nl +:+ "val l = [1, 'x'] + m" +:+ nl +:+
                  "def t(a : int) int {" +:+ nl +:+ " return a" +:+ nl +:+ "}" +:+ nl) in
  ∃ ts sp r, lex "" s = Ok (Lexed ts sp) ∧ settled (advance (start_pos "") s) KAST (elide ts) [] r ∧
    (Nat.eqb (count KDecl r) 2 && Nat.eqb (count KFunc r) 1 && Nat.eqb (count KExprPostfix r) 12) = true.
Proof. apply settled_witness. vm_compute. reflexivity. Qed.
Print Assumptions C69_settled_file_parsed.

Theorem C69_settled_is_described e k us rest t :
  settled e k us rest t → builds (first_pos e rest) k us t.
Proof. exact (settled_is_described e k us rest t). Qed.
Example C69_described_example :
  let s := chars ("input a : (b.c, d) -> e" +:+ nl) in
  ∃ ts sp r, lex "" s = Ok (Lexed ts sp) ∧ settled (advance (start_pos "") s) KAST (elide ts) [] r ∧
    Nat.eqb (count KParameterType r) 4 = true.
Proof. apply settled_witness. vm_compute. reflexivity. Qed.
Print Assumptions C69_settled_is_described.

Theorem C69_settled_unique e k us rest t us' rest' t' :
  settled e k us rest t → settled e k us' rest' t' → us ++ rest = us' ++ rest' →
  t = t' ∧ us = us' ∧ rest = rest'.
Proof. exact (settled_unique e k us rest t us' rest' t'). Qed.
(** A declaration whose type could stop earlier: [a.b] is settled, [a] before [.b] is not. *)
Example C69_unique_example :
  let p := no_pos in
  let ts := [Token TIdent (chars "a") p; Token TDot (chars ".") p; Token TIdent (chars "b") p] in
  (∃ t, settled p KIdent ts [] t) ∧ ¬ ∃ t, settled p KIdent (take 1 ts) (drop 1 ts) t.
Proof.
  cbv zeta. assert (∃ t, settled no_pos KIdent [Token TIdent (chars "a") no_pos; Token TDot (chars ".") no_pos;
    Token TIdent (chars "b") no_pos] [] t) as [t Ht].
  { destruct (settle_struct no_pos 3 KIdent [Token TIdent (chars "a") no_pos; Token TDot (chars ".") no_pos;
      Token TIdent (chars "b") no_pos]) as [[t [|]]|] eqn:E; [|vm_compute in E; congruence..].
    apply settle_struct_sound in E as (us & -> & H). rewrite app_nil_r. by exists t. }
  split; [by exists t|]. intros [t' Ht']. destruct (settled_unique _ _ _ _ _ _ _ _ Ht Ht') as (_ & E & _); [reflexivity|].
  apply (f_equal length) in E. by vm_compute in E.
Qed.
Print Assumptions C69_settled_unique.

Theorem C70_described_not_accepted_refuted :
  ∃ s ts sp r, lex "" s = Ok (Lexed ts sp) ∧ builds (advance (start_pos "") s) KAST (elide ts) r ∧
    parse s = Ok None.
Proof. exact (described_not_accepted). Qed.
Print Assumptions C70_described_not_accepted_refuted.

Theorem C70_two_descriptions_refuted :
  ∃ s ts sp r r', lex "" s = Ok (Lexed ts sp) ∧ builds (advance (start_pos "") s) KAST (elide ts) r ∧
    builds (advance (start_pos "") s) KAST (elide ts) r' ∧ parse s = Ok (Some r) ∧ r ≠ r'.
Proof. exact (two_descriptions). Qed.
Print Assumptions C70_two_descriptions_refuted.

Theorem C70_settled_partial s ts sp r :
  lex "" s = Ok (Lexed ts sp) →
  settled (advance (start_pos "") s) KAST (elide ts) [] r →
  builds (advance (start_pos "") s) KAST (elide ts) r ∧ parse s = Ok (Some r).
Proof. exact (settled_partial s ts sp r). Qed.
(** Several results in parentheses are settled. *)
Example C70_example :
  let s := chars "def f(g : (a) -> b) (a, c) {}" in
  ∃ ts sp r, lex "" s = Ok (Lexed ts sp) ∧ settled (advance (start_pos "") s) KAST (elide ts) [] r ∧
    Nat.eqb (count KParameterType r) 5 = true.
Proof. apply settled_witness. vm_compute. reflexivity. Qed.
Print Assumptions C70_settled_partial.
