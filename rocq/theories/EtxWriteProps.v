(** * Trees that survive formatting

    [writable], [gist] and what they are made of are in EtxWriteSpec.v; EtxWriteExample.v
    has a test for [writable] that is sound ([writable_spec]). *)
From stdpp Require Import base list option strings.
From Coq Require Import Ascii.
From Verif Require Import GoBase EtxAst EtxHeap EtxHeapSpec EtxText EtxLex EtxLexExample EtxUtil EtxGram EtxParse EtxFormat
  EtxFormatSpec EtxFormatExample EtxWriteSpec EtxWriteExample EtxWriteFile.

Theorem C75_writable_survives r :
  writable r → kind_of r = KAST → ∃ u r', format r = Ok u ∧ parse u = Ok (Some r') ∧ gist r' = gist r.
Proof. exact (writable_survives r). Qed.
(** A tree that no parser made: the items of two files in one. *)
Definition merged (s s' : text) : option ast :=
  match parse s, parse s' with
  | Ok (Some r), Ok (Some r') => Some (T no_pos KAST [(FItems, VList (Some (tt, list_of FItems r ++ list_of FItems r')))])
  | _, _ => None
  end.
Definition shapes : text := lines ["// a note"; "type colour enum {"; "  red: 'r'"; "  blue : ""it's $${x}"""; "}";
  "const t = switch a { "; "case 1, 2: {"; "b"; "}"; "default: {"; " c(d)[e].f "; "}"; "}"].
Definition areas : text := lines ["def area(w:int, h: (a,b)->c)(int, err) {"; "  val x = w*h ? [1"; "a.b(c)"; ""; "]:null"; "  // inner";
  "  if x>0 {"; "   x"; " } else { -x }"; ""; "}"].
Definition printed_tree (o : option ast) : string :=
  match o with Some r => if writable_b r then match format r with Ok u => str u | _ => "" end else "" | None => "" end.
Definition tab_line (s : string) : string := String "009" s.
Example C75_example :
  printed_tree (merged shapes areas) = str (lines
    ["// a note"; ""; ""; "type colour enum {"; tab_line "red:  ""r"""; tab_line "blue: ""it's $${x}"""; "}"; "";
     "const t = switch a {"; tab_line "case 1, 2: {"; tab_line (tab_line "b"); tab_line "}"; tab_line "default: {";
     tab_line (tab_line "c(d)[e].f"); tab_line "}"; "}"; "";
     "def area(w: int, h: (a, b) -> c) (int, err) {"; tab_line "val x = w * h ? ["; tab_line (tab_line "1,"); tab_line (tab_line "a.b(c),"); "";
     tab_line "] : null"; tab_line "// inner"; ""; tab_line "if x > 0 {"; tab_line (tab_line "x"); tab_line "} else {"; tab_line (tab_line "-x");
     tab_line "}"; ""; ""; "}"]).
Proof. vm_compute. reflexivity. Qed.
Lemma meets_it (o : option ast) n :
  match o with Some r => writable_b r && bool_decide (kind_of r = KAST) && bool_decide (length (nodes r) = n) | None => false end = true →
  ∃ r, o = Some r ∧ writable r ∧ kind_of r = KAST ∧ length (nodes r) = n.
Proof.
  destruct o as [r|]; [|done]. intros [[H1%writable_spec H2%bool_decide_eq_true]%andb_true_iff H3%bool_decide_eq_true]%andb_true_iff.
  exists r. done.
Qed.
Example C75_not_empty : ∃ r, merged shapes areas = Some r ∧ writable r ∧ kind_of r = KAST ∧ length (nodes r) = 354.
Proof. apply meets_it. vm_compute. reflexivity. Qed.
(** Some of what is left out, because it does not survive: the kinds of the nodes or the
    text of the second tree differ. *)
Definition digest (r : ast) : list kind * text := (map kind_of (nodes (gist r)), match format (gist r) with Ok u => u | _ => [] end).
Definition twice (s : text) : option (ast * ast) :=
  match parse s with
  | Ok (Some r) => match format r with
                   | Ok u => match parse u with Ok (Some r') => Some (r, r') | _ => None end
                   | _ => None
                   end
  | _ => None
  end.
Definition changes (l : list string) : bool :=
  match twice (lines l) with
  | Some (r, r') => negb (bool_decide (digest r = digest r'))
  | None => match parse (lines l) with Ok (Some _) => true | _ => false end
  end.
Example C75_left_out :
  let files := [["def f() ((a) -> b) {}"]; ["val a = (b)"]; ["def f() {"; "'a"; "b'"; "}"]; ["val a = 'b""c'"]; ["type a enum {"; "//x"; "}"];
    ["val a = if b { } else { c }"]; ["val a = ""\n"""]] in
  map changes files = map (λ _, true) files ∧
  map (λ l, match parse (lines l) with Ok (Some r) => writable_b r | _ => true end) files = map (λ _, false) files ∧
  changes ["val a = b"] = false.
Proof. vm_compute. repeat split; reflexivity. Qed.
Print Assumptions C75_writable_survives.

Theorem C75_text_determines_tree r1 r2 u :
  writable r1 → kind_of r1 = KAST → format r1 = Ok u → writable r2 → kind_of r2 = KAST → format r2 = Ok u → gist r1 = gist r2.
Proof. exact (text_determines_tree r1 r2 u). Qed.
(** Trees of the same text that differ in positions and empty lines only. *)
Example C75_same_text :
  let s := lines ["def f() {a"; "}"] in let s' := lines ["def   f()  {"; "a}"] in
  match parse s, parse s' with
  | Ok (Some r), Ok (Some r') => writable_b r && writable_b r'
  | _, _ => false
  end = true ∧ formatted s = formatted s' ∧ formatted s = Prints (str (lines ["def f() {"; tab_line "a"; "}"])).
Proof. vm_compute. repeat split; reflexivity. Qed.
Print Assumptions C75_text_determines_tree.
