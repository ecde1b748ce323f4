(** * Files that are described but not found *)
From stdpp Require Import base list option strings.
From Coq Require Import Ascii Lia.
From Verif Require Import GoBase EtxAst EtxHeap EtxHeapSpec EtxText EtxLex EtxUtil EtxGram EtxParse EtxParseSpec EtxSettledSpec
  EtxSettled EtxSettledExample.

(** Not everything the grammar describes is accepted: a function that returns a function,
    [def f() (a) -> b {}].  The first alternative for the results matches [(a)], and the
    parser does not come back to the second when [->] follows.
    Full statement: lex "" s = Ok (Lexed ts sp) → builds (advance (start_pos "") s) KAST (elide ts) r →
    ∃ r, parse s = Ok (Some r). *)
(*P C70_described_not_accepted_refuted *)
Lemma described_not_accepted :
  ∃ s ts sp r, lex "" s = Ok (Lexed ts sp) ∧ builds (advance (start_pos "") s) KAST (elide ts) r ∧
    parse s = Ok None.
Proof.
  destruct (described_witness (λ _, true) (chars "def f() (a) -> b {}")) as (ts & sp & r & H1 & H2 & _); [vm_compute; reflexivity|].
  exists (chars "def f() (a) -> b {}"), ts, sp, r. split_and!; [done..|]. vm_compute. reflexivity.
Qed.
(** ... and some files have two descriptions, with different trees: [val x = a.b] is the name
    [a.b], or the member [b] of [a]. *)
(*P C70_two_descriptions_refuted *)
Lemma two_descriptions :
  ∃ s ts sp r r', lex "" s = Ok (Lexed ts sp) ∧ builds (advance (start_pos "") s) KAST (elide ts) r ∧
    builds (advance (start_pos "") s) KAST (elide ts) r' ∧ parse s = Ok (Some r) ∧ r ≠ r'.
Proof.
  destruct (settled_witness (λ r, Nat.eqb (length (nodes r)) 19) (chars "val x = a.b")) as (ts & sp & r & H1 & H2 & H3); [vm_compute; reflexivity|].
  destruct (described_witness (λ r, Nat.eqb (length (nodes r)) 22) (chars "val x = a.b")) as (ts' & sp' & r' & H1' & H2' & H3'); [vm_compute; reflexivity|].
  assert (ts' = ts) as -> by congruence. exists (chars "val x = a.b"), ts, sp, r, r'. split_and!; [done| |done|by eapply settled_file_parsed|].
  - by apply (settled_is_described _ _ _ []).
  - intros ->. apply Nat.eqb_eq in H3, H3'. congruence.
Qed.
(** What does hold. *)
(*P C70_settled_partial *)
Lemma settled_partial s ts sp r :
  lex "" s = Ok (Lexed ts sp) →
  settled (advance (start_pos "") s) KAST (elide ts) [] r →
  builds (advance (start_pos "") s) KAST (elide ts) r ∧ parse s = Ok (Some r).
Proof. intros H1 H2. split; [by apply (settled_is_described _ _ _ [])|by eapply settled_file_parsed]. Qed.
