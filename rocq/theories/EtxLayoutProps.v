(** * The layout of a file does not matter

    [alike t t'] (EtxLayout.v): the tokens have the same kind and text, or are two
    spellings that give the same number, or are two kinds of quotes.  [unplaced t] is
    [t] with all positions set to zero. *)
From stdpp Require Import base list option strings.
From Coq Require Import Ascii.
From Verif Require Import GoBase EtxAst EtxHeap EtxHeapSpec EtxText EtxLex EtxLexExample EtxUtil EtxGram EtxParse
  EtxFormatSpec EtxLayout.

(** If two inputs have the same tokens, white space, the kind of quotes and the spelling
    of numbers aside, they give the same AST up to positions, or both an error. *)
Theorem C68_layout s s' ts ts' st st' :
  lex "" s = Ok (Lexed ts st) → lex "" s' = Ok (Lexed ts' st') → Forall2 alike (elide ts) (elide ts') →
  ∃ o o', parse s = Ok o ∧ parse s' = Ok o' ∧ unplaced <$> o = unplaced <$> o'.
Proof. exact (p68 s s' ts ts' st st'). Qed.
Definition tokens_of (s : text) : list token := match lex "" s with Ok (Lexed ts _) => elide ts | _ => [] end.
Definition spelled (s : text) : list (tname * text) := map (λ t, (kind_of_token t, value t)) (tokens_of s).
Local Instance number_eq_dec : EqDecision number.
Proof. solve_decision. Defined.
(** [alike] by computation. *)
Definition alike_b (t t' : token) : bool :=
  bool_decide (kind_of_token t = kind_of_token t') &&
  (bool_decide (value t = value t') ||
   bool_decide (kind_of_token t = TNumber) &&
     match capture_number (value t), capture_number (value t') with
     | Some (src, n), Some (src', n') => bool_decide (src = src') && bool_decide (n = n')
     | _, _ => false
     end ||
   bool_decide (kind_of_token t ∈ [TString; TStringEnd]) &&
     match value t, value t' with [q], [q'] => is_quote q && is_quote q' | _, _ => false end).
Lemma alike_b_spec t t' : alike_b t t' = true → alike t t'.
Proof.
  unfold alike_b. intros [Hk [[Hv|[Hn Hc]%andb_true_iff]%orb_true_iff|[Hq Hc]%andb_true_iff]%orb_true_iff]%andb_true_iff.
  - apply alike_same; by eapply bool_decide_eq_true_1.
  - apply bool_decide_eq_true_1 in Hk, Hn.
    destruct (capture_number (value t)) as [[src n]|] eqn:E; [|done].
    destruct (capture_number (value t')) as [[src' n']|] eqn:E'; [|done].
    apply andb_true_iff in Hc as [H1%bool_decide_eq_true_1 H2%bool_decide_eq_true_1]. subst src' n'.
    apply (alike_number _ _ src n); congruence.
  - apply bool_decide_eq_true_1 in Hk, Hq.
    destruct (value t) as [|q [|]] eqn:E; try done. destruct (value t') as [|q' [|]] eqn:E'; try done.
    apply andb_true_iff in Hc as [H1 H2]. by apply (alike_quote _ _ (kind_of_token t) q q').
Qed.
(** 017 is read as 0o17; the two files differ in 3 of 6 tokens, and in their layout. *)
Example C68_example :
  let s := chars "const x=f(017, 'a')" in let s' := chars "const  x = f(0o17,""a"" )  " in
  Forall2 alike (tokens_of s) (tokens_of s') ∧ spelled s ≠ spelled s' ∧
  match parse s, parse s' with
  | Ok (Some t), Ok (Some t') => unplaced t = unplaced t' ∧ t ≠ t'
  | _, _ => False
  end.
Proof.
  cbv zeta. split; [|vm_compute; split_and!; done || (intros [=])].
  assert (∀ l l', forallb (λ p, alike_b p.1 p.2) (zip l l') = true → length l = length l' → Forall2 alike l l') as H.
  { induction l as [|a l IH]; intros [|b l'] H1 H2; [constructor|done|done|]. cbn in H1.
    apply andb_true_iff in H1 as [H3 H4]. constructor; [by apply alike_b_spec|]. apply IH; [done|]. by injection H2. }
  apply H; vm_compute; reflexivity.
Qed.
Print Assumptions C68_layout.

(** In particular white space between tokens never matters. *)
Theorem C68_white_space s s' ts ts' st st' :
  lex "" s = Ok (Lexed ts st) → lex "" s' = Ok (Lexed ts' st') →
  map (λ t, (kind_of_token t, value t)) (elide ts) = map (λ t, (kind_of_token t, value t)) (elide ts') →
  ∃ o o', parse s = Ok o ∧ parse s' = Ok o' ∧ unplaced <$> o = unplaced <$> o'.
Proof. exact (p68_space s s' ts ts' st st'). Qed.
Example C68_space_example :
  let s := chars "x = a+b.c" in let s' := chars "x =  a + b . c" in
  spelled s = spelled s' ∧ length s ≠ length s' ∧
  match parse s, parse s' with
  | Ok (Some t), Ok (Some t') => unplaced t = unplaced t' ∧ t ≠ t'
  | _, _ => False
  end.
Proof. vm_compute. split_and!; done || (intros [=]). Qed.
Print Assumptions C68_white_space.

(** The same for token sequences that the lexer need not make. *)
Theorem C68_tokens eof eof' ts ts' o :
  Forall2 alike ts ts' → parse_tokens eof ts = Ok o →
  ∃ o', parse_tokens eof' ts' = Ok o' ∧ unplaced <$> o = unplaced <$> o'.
Proof. exact (p68_tokens eof eof' ts ts' o). Qed.
(** Two tokens the lexer does not make. *)
Example C68_tokens_example :
  let p := Pos "" 0 1 1 in let q := Pos "" 7 2 3 in
  match parse_tokens p [Token TIdent (chars "if") p; Token TOpAssign (chars "=") p; Token TNumber (chars "010") p],
        parse_tokens p [Token TIdent (chars "if") q; Token TOpAssign (chars "=") q; Token TNumber (chars "0o10") q] with
  | Ok (Some t), Ok (Some t') => unplaced t = unplaced t' ∧ t ≠ t'
  | _, _ => False
  end.
Proof. vm_compute. split_and!; done || (intros [=]). Qed.
Print Assumptions C68_tokens.
