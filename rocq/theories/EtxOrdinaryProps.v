(** * Ordinary files survive formatting

    [ordinary] is in EtxOrdinarySpec.v, [gist] in EtxWriteSpec.v; EtxOrdinaryExample.v has
    a test for [ordinary] that is sound ([ordinary_spec]). *)
From stdpp Require Import base list option strings.
From Coq Require Import Ascii.
From Verif Require Import GoBase EtxAst EtxHeap EtxHeapSpec EtxText EtxLex EtxLexExample EtxUtil EtxGram EtxParse EtxFormat
  EtxFormatSpec EtxFormatExample EtxWriteSpec EtxWriteExample EtxOrdinarySpec EtxOrdinaryExample EtxOrdinary.

(** A file that was parsed and is ordinary can be written down. *)
Theorem C76_ordinary_writable s r :
  parse s = Ok (Some r) → ordinary r → writable r.
Proof. exact (parsed_writable s r). Qed.
Print Assumptions C76_ordinary_writable.

(** Every accepted ordinary file is formatted to a file that is accepted and says the same. *)
Theorem C76_ordinary_survives s r :
  parse s = Ok (Some r) → ordinary r → ∃ u r', format r = Ok u ∧ parse u = Ok (Some r') ∧ gist r' = gist r.
Proof. exact (ordinary_survives s r). Qed.
(** A file of every ordinary construct, badly laid out. *)
Definition untidy : text := lines
  ["// a"; "//b"; "const  a=1+2*-3<<4 ? b.c :['x',"; "  0777]"; ""; "";
   "type point object{ x :int"; "  y: (a)->b }"; "def f ( x:int )int{ val y=x(1)[2]"; "  if y==0x1F { z"; "} else {"; " null"; " }"; ""; "}"].
Definition taken (s : text) (n : nat) : bool :=
  match parse s with Ok (Some r) => ordinary_b r && bool_decide (length (nodes r) = n) | _ => false end.
Lemma taken_spec s n : taken s n = true → ∃ r, parse s = Ok (Some r) ∧ ordinary r ∧ length (nodes r) = n.
Proof.
  unfold taken. destruct (parse s) as [[r|]| |]; try done. intros [H1%ordinary_spec H2%bool_decide_eq_true]%andb_true_iff. by exists r.
Qed.
Example C76_example : ∃ r, parse untidy = Ok (Some r) ∧ ordinary r ∧ length (nodes r) = 247.
Proof. apply taken_spec. vm_compute. reflexivity. Qed.
(** What is left out does not survive in general: each of these files is accepted, and its
    tree or that of the formatted file is another one. *)
Definition digest (r : ast) : list kind * text := (map kind_of (nodes (gist r)), match format (gist r) with Ok u => u | _ => [] end).
Definition changes (l : list string) : bool :=
  match parse (lines l) with
  | Ok (Some r) => match format r with
                   | Ok u => match parse u with Ok (Some r') => negb (bool_decide (digest r = digest r')) | _ => true end
                   | _ => true
                   end
  | _ => false
  end.
Example C76_left_out :
  let files := [["a {"; "b = c"; "}"]; ["def f() ((a) -> b) {}"]; ["type a enum {"; "//x"; "}"]; ["val a = 'b""c'"]; ["val a = ""\n"""]; ["def f() {"; "'a"; "b'"; "}"];
    ["val a = if b { } else { c }"]; ["val a = (b)"]; ["val a = <<e"; "b"; "e"]] in
  map changes files = map (λ _, true) files ∧
  map (λ l, match parse (lines l) with Ok (Some r) => ordinary_b r | _ => true end) files = map (λ _, false) files ∧
  changes ["val a = b"] = false.
Proof. vm_compute. repeat split; reflexivity. Qed.
Print Assumptions C76_ordinary_survives.
