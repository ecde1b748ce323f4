(** * Formatting any number of times

    [gist] and [writable] are in EtxWriteSpec.v, [ordinary] is in EtxOrdinarySpec.v,
    [formats_to] in EtxDeclsSpec.v, [ink] in EtxInkSpec.v. *)
From stdpp Require Import base list option strings relations.
From Coq Require Import Ascii.
From Verif Require Import GoBase EtxAst EtxHeap EtxHeapSpec EtxText EtxLex EtxLexExample EtxUtil EtxGram EtxParse EtxFormat
  EtxFormatSpec EtxFormatExample EtxDeclsSpec EtxWriteSpec EtxWriteExample EtxOrdinarySpec EtxOrdinaryExample EtxInkSpec EtxCycle EtxInk.

(** A tree that can be written down is formatted to a text that is parsed to a tree that
    says the same and can be written down. *)
Theorem C77_one_cycle r :
  writable r → kind_of r = KAST →
  ∃ u r', format r = Ok u ∧ parse u = Ok (Some r') ∧ gist r' = gist r ∧ writable r' ∧ kind_of r' = KAST.
Proof. exact (one_cycle r). Qed.
(** A tree that no parser made: the items of a file, twice. *)
Definition untidy : text := lines
  ["// a"; "const  a=1+2*-3<<4 ? b.c :['x',"; "  777]"; ""; ""; "type point object{ x :int"; "  y: (a)->b }";
   "def f ( x:int )int{ val y=x(1)[2]"; "  if y==31 { z"; "} else {"; " null"; " }"; ""; "}"].
Definition doubled (s : text) : option ast :=
  match parse s with
  | Ok (Some r) => Some (T no_pos KAST [(FItems, VList (Some (tt, list_of FItems r ++ list_of FItems r)))])
  | _ => None
  end.
Lemma can_be_written (o : option ast) n :
  match o with Some r => writable_b r && bool_decide (kind_of r = KAST) && bool_decide (length (nodes r) = n) | None => false end = true →
  ∃ r, o = Some r ∧ writable r ∧ kind_of r = KAST ∧ length (nodes r) = n.
Proof.
  destruct o as [r|]; [|done]. intros [[H1%writable_spec H2%bool_decide_eq_true]%andb_true_iff H3%bool_decide_eq_true]%andb_true_iff.
  exists r. done.
Qed.
Example C77_example : ∃ r, doubled untidy = Some r ∧ writable r ∧ kind_of r = KAST ∧ length (nodes r) = 493.
Proof. apply can_be_written. vm_compute. reflexivity. Qed.
Print Assumptions C77_one_cycle.

(** However often a tree is formatted and parsed again, what it says stays the same, and it can be formatted again. *)
Theorem C77_any_number_of_cycles r r' :
  writable r → kind_of r = KAST → rtc (λ t t', ∃ u, format t = Ok u ∧ parse u = Ok (Some t')) r r' →
  gist r' = gist r ∧ ∃ u r'', format r' = Ok u ∧ parse u = Ok (Some r'') ∧ gist r'' = gist r.
Proof. exact (many_cycles r r'). Qed.
Definition cycle (r : ast) : option ast :=
  match format r with Ok u => match parse u with Ok (Some r') => Some r' | _ => None end | _ => None end.
Lemma cycle_spec r r' : cycle r = Some r' → ∃ u, format r = Ok u ∧ parse u = Ok (Some r').
Proof.
  unfold cycle. destruct (format r) as [u| |]; try done. intros H. exists u. split; [done|]. destruct (parse u) as [[x|]| |]; try done. by injection H as ->.
Qed.
(** Three times, and the number of nodes after each. *)
Example C77_three_times :
  let sizes := λ o, match o with Some r => length (nodes r) | None => 0 end in
  let once := doubled untidy ≫= cycle in let twice := once ≫= cycle in let thrice := twice ≫= cycle in
  (sizes (doubled untidy), sizes once, sizes twice, sizes thrice) = (493, 498, 498, 498).
Proof. vm_compute. reflexivity. Qed.
Print Assumptions C77_any_number_of_cycles.

(** The same for accepted ordinary files, and the text: every text reached by formatting is
    accepted, and says what the file said. *)
Theorem C77_ordinary_files s r u :
  parse s = Ok (Some r) → ordinary r → rtc formats_to s u →
  ∃ r' v, parse u = Ok (Some r') ∧ gist r' = gist r ∧ ordinary r' ∧ format r' = Ok v.
Proof. exact (ordinary_cycles s r u). Qed.
Definition prints (s : text) : option text :=
  match parse s with Ok (Some r) => match format r with Ok u => Some u | _ => None end | _ => None end.
Lemma prints_spec s u : prints s = Some u → formats_to s u.
Proof.
  unfold prints, formats_to. destruct (parse s) as [[r|]| |]; try done. intros H. exists r. split; [done|].
  destruct (format r) as [x| |]; try done. by injection H as ->.
Qed.
Lemma prints_twice s n :
  match parse s with Ok (Some r) => ordinary_b r | _ => false end = true →
  match prints s ≫= prints with Some u => bool_decide (length u = n) | None => false end = true →
  ∃ r u, parse s = Ok (Some r) ∧ ordinary r ∧ rtc formats_to s u ∧ length u = n.
Proof.
  destruct (prints s) as [v|] eqn:Ev; [|done]. cbn. destruct (prints v) as [u|] eqn:Eu; [|done].
  destruct (parse s) as [[r|]| |]; try done. intros H1%ordinary_spec H2%bool_decide_eq_true. exists r, u. split; [done|]. split; [done|].
  split; [|done]. apply rtc_l with v; [by apply prints_spec|]. by apply rtc_once, prints_spec.
Qed.
Example C77_ordinary_example : ∃ r u, parse untidy = Ok (Some r) ∧ ordinary r ∧ rtc formats_to untidy u ∧ length u = 196.
Proof. apply prints_twice; vm_compute; reflexivity. Qed.
Print Assumptions C77_ordinary_files.

(** Trees that can be written down and say the same have texts that differ only in line
    feeds and tabs. *)
Theorem C78_same_ink t t' u u' :
  writable t → writable t' → gist t = gist t' → format t = Ok u → format t' = Ok u' → ink u = ink u'.
Proof. exact (same_ink t t' u u'). Qed.
Example C78_example :
  let s := lines ["def f() {"; "a"; ""; ""; "if b {c} else {d}}"; "val x=1"] in let s' := lines ["def f(){a"; "if b {"; "c"; "} else {"; "d"; "}"; ""; ""; "}"; ""; "val x = 1"] in
  match parse s, parse s' with
  | Ok (Some r), Ok (Some r') =>
      match format r, format r' with
      | Ok u, Ok u' => (writable_b r, writable_b r', bool_decide (u = u'), str (ink u), str (ink u'))
      | _, _ => (false, false, true, "", "")
      end
  | _, _ => (false, false, true, "", "")
  end = (true, true, false, "def f() {aif b {c} else {d}}val x = 1", "def f() {aif b {c} else {d}}val x = 1").
Proof. vm_compute. reflexivity. Qed.
Print Assumptions C78_same_ink.

(** However often an ordinary file is formatted: the text of the first time and that of any
    later time differ only in line feeds and tabs. *)
Theorem C78_only_layout_changes s r u v :
  parse s = Ok (Some r) → ordinary r → formats_to s u → rtc formats_to u v → ink u = ink v.
Proof. exact (only_layout_changes s r u v). Qed.
Lemma prints_thrice s n :
  match parse s with Ok (Some r) => ordinary_b r | _ => false end = true →
  match prints s with Some u => match prints u ≫= prints with Some v => bool_decide (length v = length u + n) | None => false end | None => false end = true →
  ∃ r u v, parse s = Ok (Some r) ∧ ordinary r ∧ formats_to s u ∧ rtc formats_to u v ∧ length v = length u + n.
Proof.
  destruct (prints s) as [u|] eqn:Eu; [|done]. cbn. destruct (prints u) as [w|] eqn:Ew; [|done]. cbn. destruct (prints w) as [v|] eqn:Ev; [|done].
  destruct (parse s) as [[r|]| |]; try done. intros H1%ordinary_spec H2%bool_decide_eq_true. exists r, u, v. split; [done|]. split; [done|].
  split; [by apply prints_spec|]. split; [|done]. apply rtc_l with w; [by apply prints_spec|]. by apply rtc_once, prints_spec.
Qed.
(** The texts do differ: the third is longer. *)
Example C78_text_grows : ∃ r u v,
  parse untidy = Ok (Some r) ∧ ordinary r ∧ formats_to untidy u ∧ rtc formats_to u v ∧ length v = length u + 22.
Proof. apply prints_thrice; vm_compute; reflexivity. Qed.
Print Assumptions C78_only_layout_changes.
