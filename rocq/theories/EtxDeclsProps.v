(** * Files of declarations survive formatting; blank lines pile up

    [only_declarations], [declarations] and [formats_to] are in EtxDeclsSpec.v, [plain] is in
    EtxReprintSpec.v; [unplaced t] is [t] with all positions set to zero. *)
From stdpp Require Import base list option strings relations.
From Coq Require Import Ascii.
From Verif Require Import GoBase EtxAst EtxHeap EtxHeapSpec EtxText EtxLex EtxLexExample EtxUtil EtxGram EtxParse EtxFormat
  EtxFormatSpec EtxFormatExample EtxLayout EtxReprintSpec EtxReprintProps EtxDeclsSpec EtxBare EtxDecls.

(** A file of declarations that are written plainly and of empty lines is formatted, the
    formatted text is parsed, and the declarations in it are those of the file, positions aside. *)
Theorem C71_declarations_survive s r :
  parse s = Ok (Some r) → only_declarations r → Forall plain (declarations r) →
  ∃ u r', format r = Ok u ∧ parse u = Ok (Some r') ∧ only_declarations r' ∧
    map unplaced (declarations r') = map unplaced (declarations r).
Proof. exact (p71 s r). Qed.
(** The hypotheses by computation. *)
Definition only_declarations_b (r : ast) : bool :=
  forallb (λ o : option ast, match o with
    | Some i => negb (is_nil (ptr_of FDecl i)) || negb (bool_decide (str_of FEmptyLine i = []))
    | None => false end) (list_of FItems r).
Lemma only_declarations_b_spec r : only_declarations_b r = true → only_declarations r.
Proof.
  unfold only_declarations_b. rewrite forallb_forall. intros H o Ho. apply elem_of_list_In in Ho. specialize (H o Ho).
  destruct o as [i|]; [|done]. exists i. split; [done|]. apply orb_true_iff in H as [H%negb_true_iff|H%negb_true_iff].
  - left. by destruct (ptr_of FDecl i).
  - right. by apply bool_decide_eq_false in H.
Qed.
Definition declares (n : nat) (s : text) : bool :=
  match parse s with
  | Ok (Some r) => only_declarations_b r && forallb plain_b (declarations r) && bool_decide (length (declarations r) = n)
  | _ => false
  end.
Lemma declares_spec n s : declares n s = true →
  ∃ r, parse s = Ok (Some r) ∧ only_declarations r ∧ Forall plain (declarations r) ∧ length (declarations r) = n.
Proof.
  unfold declares. destruct (parse s) as [[r|]| |]; try done.
  intros [[H1%only_declarations_b_spec H2]%andb_true_iff H3%bool_decide_eq_true]%andb_true_iff. exists r. split_and!; try done.
  apply Forall_forall. intros d Hd. rewrite forallb_forall in H2. apply plain_b_spec, H2. by apply elem_of_list_In.
Qed.
(** Blank lines, two declarations on one line, no newline at the end, and what would be a
    heredoc if there were one. *)
Definition four : text := lines [""; "val a const  b=f('q')"; ""; ""; "input c:d=017"] ++ chars "val e = g ? 1 : x <<y".
Example C71_example :
  declares 4 four = true ∧
  formatted four = Prints (str (lines [""; ""; ""; "val a"; ""; "const b = f(""q"")"; ""; ""; ""; ""; ""; "input c: d = 0o17"; ""; "val e = g ? 1 : x << y"])).
Proof. vm_compute. split; reflexivity. Qed.
(** Lists, comments and functions are left out. *)
Example C71_excluded :
  map (λ s, declares 1 (lines [s])) ["val a = [b]"; "val a // b"; "def a() {}"; "val a = (b)"; "val a = b"] = [false; false; false; false; true].
Proof. vm_compute. reflexivity. Qed.
Print Assumptions C71_declarations_survive.

(** Files with different declarations are formatted differently. *)
Theorem C71_no_two_are_confused s r s' r' u :
  parse s = Ok (Some r) → only_declarations r → Forall plain (declarations r) → parse s' = Ok (Some r') → only_declarations r' → Forall plain (declarations r') →
  format r = Ok u → format r' = Ok u → map unplaced (declarations r) = map unplaced (declarations r').
Proof. exact (p71_injective s r s' r' u). Qed.
Example C71_same_text :
  let s := lines ["const x=017"; ""; "val y"] in let s' := lines ["const x = 0o17"; ""; "val  y"] in
  declares 2 s = true ∧ declares 2 s' = true ∧ formatted s = formatted s' ∧
  formatted s = Prints (str (lines ["const x = 0o17"; ""; ""; ""; ""; "val y"])).
Proof. vm_compute. repeat split; reflexivity. Qed.
Print Assumptions C71_no_two_are_confused.

(** So it is however often the file is formatted, and it can always be formatted once more. *)
Theorem C71_again_and_again s r u :
  parse s = Ok (Some r) → only_declarations r → Forall plain (declarations r) → rtc formats_to s u →
  ∃ r' v, parse u = Ok (Some r') ∧ only_declarations r' ∧ map unplaced (declarations r') = map unplaced (declarations r) ∧ format r' = Ok v.
Proof. exact (p71_again s r u). Qed.
Definition format_once (s : text) : text :=
  match parse s with Ok (Some r) => match format r with Ok u => u | _ => [] end | _ => [] end.
Lemma format_once_spec s : format_once s ≠ [] → formats_to s (format_once s).
Proof. unfold format_once, formats_to. destruct (parse s) as [[r|]| |]; try done. destruct (format r) eqn:E; try done. intros _. by exists r. Qed.
Example C71_twice : ∃ u, rtc formats_to four u ∧ declares 4 u = true ∧ length four < length u.
Proof.
  exists (format_once (format_once four)). split_and!; [|vm_compute; reflexivity|apply (bool_decide_unpack _); vm_compute; reflexivity].
  do 2 (eapply rtc_l; [apply format_once_spec; vm_compute; done|]). apply rtc_refl.
Qed.
Print Assumptions C71_again_and_again.

(** Formatting the formatted text adds at least three characters (in fact line feeds)
    for every declaration after the first one. *)
Theorem C73_blank_lines_pile_up s r u v :
  parse s = Ok (Some r) → only_declarations r → Forall plain (declarations r) → formats_to s u → formats_to u v →
  length u + 3 * (length (declarations r) - 1) <= length v.
Proof. exact (p73_grows s r u v). Qed.
Example C73_example :
  let s := lines ["val a"; "val b"; "val c"] in let u := format_once s in let v := format_once u in let w := format_once v in
  declares 3 s = true ∧ map length [s; u; v; w] = [18; 20; 26; 32] ∧ u = lines ["val a"; ""; "val b"; ""; "val c"].
Proof. vm_compute. repeat split; reflexivity. Qed.
Print Assumptions C73_blank_lines_pile_up.

(** However often such a file with two declarations is formatted, formatting it once more
    changes it. *)
Theorem C73_never_settles s r u :
  parse s = Ok (Some r) → only_declarations r → Forall plain (declarations r) → 2 <= length (declarations r) →
  rtc formats_to s u → ¬ formats_to u u.
Proof. exact (p73_never s r u). Qed.
Example C73_settles :
  (** with one declaration it does settle *)
  let s := lines ["val a = b"] in declares 1 s = true ∧ format_once s = s.
Proof. vm_compute. split; reflexivity. Qed.
Print Assumptions C73_never_settles.

(** Formatting the formatted text can give another text. *)
Theorem C73_formatting_twice_refuted :
  ∃ s u v, formats_to s u ∧ formats_to u v ∧ u ≠ v.
Proof. exact (p73_refuted). Qed.
Print Assumptions C73_formatting_twice_refuted.

(** A text can be a file, and the same text with a newline at the end no file: the newline
    makes the end of a shift to the left the start of a heredoc. *)
Theorem C74_final_newline_refuted :
  ∃ s r, parse s = Ok (Some r) ∧ Forall plain (declarations r) ∧ parse (s ++ [lf]) = Ok None.
Proof. exact (p74_refuted). Qed.
Example C74_example :
  let s := chars "val x = a <<b" in
  formatted s = Prints (str (lines ["val x = a << b"])) ∧ formatted (s ++ [lf]) = Rejected.
Proof. vm_compute. split; reflexivity. Qed.
Print Assumptions C74_final_newline_refuted.

(** Formatting does not look at positions. *)
Theorem C72_positions_do_not_matter t :
  format (unplaced t) = format t.
Proof. exact (p72 t). Qed.
Example C72_example :
  match parse (lines ["val a"; "val b"]) with
  | Ok (Some r) => (map (λ d, offset (ann d)) (declarations r), map (λ d, offset (ann d)) (declarations (unplaced r)))
  | _ => ([], [])
  end = ([0; 6], [0; 0]).
Proof. vm_compute. reflexivity. Qed.
Print Assumptions C72_positions_do_not_matter.

(** ASTs that differ in positions only are formatted alike. *)
Theorem C72_same_ast t t' :
  unplaced t = unplaced t' → format t = format t'.
Proof. exact (p72_same t t'). Qed.
Example C72_same_ast_example :
  let s := lines ["val a = b + 1"] in let s' := lines ["val    a=b+1 "] in
  s ≠ s' ∧ match parse s, parse s' with Ok (Some r), Ok (Some r') => map kind_of (nodes r) = map kind_of (nodes r') | _, _ => False end ∧
  formatted s = formatted s' ∧ formatted s = Prints (str s).
Proof. vm_compute. repeat split; done. Qed.
Print Assumptions C72_same_ast.

(** Inputs with the same tokens, white space, the kind of quotes and the spelling of numbers
    aside, are formatted to the same text, or both not parsed, or both a panic. *)
Theorem C72_layout_is_forgotten s s' ts ts' st st' :
  lex "" s = Ok (Lexed ts st) → lex "" s' = Ok (Lexed ts' st') → Forall2 alike (elide ts) (elide ts') →
  ∀ u, formats_to s u ↔ formats_to s' u.
Proof. exact (p72_layout s s' ts ts' st st'). Qed.
(** Functions and everything else are meant, not only declarations. *)
Example C72_layout_example :
  let s := lines ["def f(a:b) c {"; "x+ 'y'"; "}"] in let s' := lines ["def  f( a : b )c{"; "x+""y"" "; "}"] in
  s ≠ s' ∧ formatted s = formatted s' ∧
  formatted s = Prints (str (lines ["def f(a: b) c {"; "	x + ""y"""; "}"])).
Proof. vm_compute. repeat split; done. Qed.
Print Assumptions C72_layout_is_forgotten.
