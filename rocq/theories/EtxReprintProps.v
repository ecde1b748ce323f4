(** * Declarations that survive formatting

    [plain t] and [one_declaration t] are in EtxReprintSpec.v; [unplaced t] is [t] with
    all positions set to zero. *)
From stdpp Require Import base list option strings.
From Coq Require Import Ascii.
From Verif Require Import GoBase EtxAst EtxHeap EtxHeapSpec EtxText EtxLex EtxLexExample EtxUtil EtxGram EtxParse EtxFormat
  EtxFormatSpec EtxFormatExample EtxReprintSpec EtxReprintProofs.

(** A file of one declaration that is written plainly is formatted, the formatted text
    is parsed, and the AST of it is that of the file, positions aside.  In full: the same
    for all files, blank lines aside; that is refuted in EtxFormatProps.v.  What is left
    out here though it may well be true: files of several items, functions, types and
    blocks, and files that do not end with a newline. *)
Theorem C32_one_declaration_partial s r :
  parse s = Ok (Some r) → last s = Some lf → one_declaration r → plain r →
  ∃ u r', format r = Ok u ∧ parse u = Ok (Some r') ∧ unplaced r' = unplaced r.
Proof. exact (reprint s r). Qed.
(** The hypotheses by computation. *)
Definition plain_node_b (m : ast) : bool :=
  match kind_of m with
  | KExpr => is_nil (ptr_of FIf m) && is_nil (ptr_of FSwitch m)
  | KValue => is_nil (ptr_of FHeredoc m) && is_nil (ptr_of FList m) && is_nil (ptr_of FMap m)
  | KStringFragment => negb (bool_decide (str_of FText m = [])) && negb (bool_decide (quote ∈ str_of FText m))
  | KExprPrimary => is_nil (ptr_of FSubExpression m) && match ptr_of FPost m with Some c => negb (numeric c) | None => true end
  | KExprPostfix =>
      match ptr_of FPost m with
      | Some c => negb (numeric c) && (negb (is_nil (ptr_of FIndex m)) || negb (numeric m))
      | None => true
      end
  | _ => true
  end.
Definition plain_b (t : ast) : bool := forallb plain_node_b (nodes t).
Lemma is_nil_true (o : option ast) : is_nil o = true → o = None.
Proof. by destruct o. Qed.
Lemma plain_b_spec t : plain_b t = true → plain t.
Proof.
  unfold plain_b. rewrite forallb_forall. intros H m Hm. apply elem_of_list_In in Hm. specialize (H m Hm). revert H.
  unfold plain_node_b, plain_node. destruct (kind_of m); try done.
  - intros [[->%is_nil_true ->%is_nil_true]%andb_true_iff ->%is_nil_true]%andb_true_iff. done.
  - intros [H1%negb_true_iff H2%negb_true_iff]%andb_true_iff. apply bool_decide_eq_false in H1, H2. done.
  - intros [->%is_nil_true ->%is_nil_true]%andb_true_iff. done.
  - destruct (ptr_of FPost m) as [c|]; [|done]. intros [H1%negb_true_iff H2]%andb_true_iff c' [= <-]. split; [done|].
    intros Hn. rewrite Hn in H2. by apply negb_true_iff in H2.
  - intros [->%is_nil_true H]%andb_true_iff. split; [done|]. intros c Hc. rewrite Hc in H. by apply negb_true_iff in H.
Qed.
Definition one_declaration_b (t : ast) : bool :=
  match list_of FItems t with [Some i] => negb (is_nil (ptr_of FDecl i)) | _ => false end.
Lemma one_declaration_b_spec t : one_declaration_b t = true → one_declaration t.
Proof.
  unfold one_declaration_b. destruct (list_of FItems t) as [|[i|] [|]] eqn:E; try done.
  destruct (ptr_of FDecl i) as [d|] eqn:Ed; [|done]. intros _. by exists i, d.
Qed.
Definition meets (s : text) : bool :=
  bool_decide (last s = Some lf) && match parse s with Ok (Some t) => one_declaration_b t && plain_b t | _ => false end.
Lemma meets_spec s : meets s = true → ∃ t, parse s = Ok (Some t) ∧ last s = Some lf ∧ one_declaration t ∧ plain t.
Proof.
  unfold meets. intros [H1%bool_decide_eq_true H2]%andb_true_iff. destruct (parse s) as [[t|]| |]; try done.
  apply andb_true_iff in H2 as [H2%one_declaration_b_spec H3%plain_b_spec]. by exists t.
Qed.
(** Calls, indexes, members, signs, operators and a conditional. *)
Example C32_partial_example :
  let s := lines ["val  f:(a,(b)->c) -> d=g(1, 'it' , h( ) [-2]. k) + 017*!m.n(p)(q) ? ""x y"" : r <= .5 - - 3"] in
  meets s = true ∧
  formatted s = Prints (str (lines ["val f: (a, (b) -> c) -> d = g(1, ""it"", h()[-2].k) + 0o17 * !m.n(p)(q) ? ""x y"" : r <= .5 - -3"])).
Proof. vm_compute. split; reflexivity. Qed.
(** What is left out for a reason: each of these is printed as another declaration. *)
Example C32_partial_excluded :
  map (λ s, (meets (lines [s]), formatted (lines [s])))
    ["val x = 1 .b"; "val x = a. 5"; "val x = 'a""b'"; "val x = (a + b) * c"; "val x = ""a\nb"""] =
  map (λ s, (false, Prints (str (lines [s]))))
    ["val x = 1.b"; "val x = a.5"; "val x = ""a""b"""; "val x = a + b * c"; "val x = ""a\\nb"""].
Proof. vm_compute. reflexivity. Qed.
Print Assumptions C32_one_declaration_partial.

(** Two such files with the same formatted text have the same AST, positions aside.  In full:
    any two expressions; that is refuted in EtxFormatProps.v. *)
Theorem C33_one_declaration_partial s s' r r' u :
  parse s = Ok (Some r) → last s = Some lf → one_declaration r → plain r →
  parse s' = Ok (Some r') → last s' = Some lf → one_declaration r' → plain r' →
  format r = Ok u → format r' = Ok u → unplaced r = unplaced r'.
Proof. exact (reprint_inj s s' r r' u). Qed.
Example C33_partial_example :
  let s := lines ["const x=f(017,'a')*b"] in let s' := lines ["const x = f( 0o17, ""a"" ) * b "] in
  meets s = true ∧ meets s' = true ∧ formatted s = formatted s' ∧
  formatted s = Prints (str (lines ["const x = f(0o17, ""a"") * b"])).
Proof. vm_compute. repeat split; reflexivity. Qed.
Print Assumptions C33_one_declaration_partial.
