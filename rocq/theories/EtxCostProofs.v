(** * How long the parser takes: proofs *)
From stdpp Require Import base list option strings sets.
From Coq Require Import Ascii Lia.
From Verif Require Import GoBase EtxAst EtxHeap EtxHeapSpec EtxText EtxLex EtxLexSpec EtxLexFacts EtxUtil EtxGram
  EtxParse EtxParseBase EtxParseSpec EtxParseStore EtxLexOps EtxLexIdent EtxLexString EtxRelex EtxDecls EtxFinalLex EtxCost.

(** ** The result is that of the parser *)
Lemma seq_erased ev ev' gs : Forall (λ g, ∀ x, (ev' g x).1 = ev g x) gs →
  ∀ b acc x, (seq_cost ev' b gs acc x).1 = run_seq ev b gs acc x.
Proof.
  intros H. induction H as [|g gs Hg _ IH]; intros b acc x; cbn [run_seq seq_cost]; [done|].
  specialize (Hg x). destruct (ev' g x) as [r c]. cbn in Hg. subst r. destruct (ev g x) as [[l|] y|y| |]; try done.
  specialize (IH false (acc ++ l) y). by destruct (seq_cost _ _ _ _ _).
Qed.
Lemma alt_erased ev ev' gs : Forall (λ g, ∀ x, (ev' g x).1 = ev g x) gs →
  ∀ b x, (alt_cost ev' b gs x).1 = run_alt ev b gs x.
Proof.
  intros H. induction H as [|g gs Hg _ IH]; intros b x; cbn [run_alt alt_cost]; [done|].
  specialize (Hg (branch x)). destruct (ev' g (branch x)) as [r c]. cbn in Hg. subst r.
  destruct (ev g (branch x)) as [[l|] y|y| |]; try done.
  - specialize (IH b (drop_branch x y)). by destruct (alt_cost _ _ _ _).
  - destruct (stop x y); [done|]. specialize (IH true (drop_branch x y)). by destruct (alt_cost _ _ _ _).
Qed.
Lemma opt_erased ev ev' : (∀ x, (ev' x).1 = ev x) → ∀ x, (opt_cost ev' x).1 = run_opt ev x.
Proof. intros H x. unfold opt_cost, run_opt. rewrite <- H. by destruct (ev' (branch x)) as [[? ?|?| |] c]. Qed.
Lemma many_erased ev ev' : (∀ x, (ev' x).1 = ev x) → ∀ b n acc x, (many_cost ev' b n acc x).1 = run_many ev b n acc x.
Proof.
  intros H b n. revert b. induction n as [|n IH]; intros b acc x; cbn [run_many many_cost]; [done|].
  rewrite <- H. destruct (ev' (branch x)) as [[[l|] y|y| |] c]; try done. cbn.
  specialize (IH false (acc ++ l) (accept x y)). by destruct (many_cost _ _ _ _ _).
Qed.
Lemma eval_erased sub sub' g : (∀ k ts, (sub' k ts).1 = sub k ts) → ∀ x, (eval_cost sub' g x).1 = eval sub g x.
Proof.
  intros Hs. induction g as [s|t|f k|f g IH|gs IH|gs IH|g IH|g IH|g IH] using gexp_ind2; intros x; cbn [eval eval_cost].
  - done.
  - done.
  - specialize (Hs k (todo x)). destruct (sub' k (todo x)) as [r c]. cbn in Hs. by subst r.
  - specialize (IH x). destruct (eval_cost sub' g x) as [r c]. cbn in IH. subst r. by destruct (eval sub g x) as [[?|] ?|?| |].
  - by apply seq_erased.
  - by apply alt_erased.
  - by apply opt_erased.
  - by apply many_erased.
  - by apply many_erased.
Qed.
Lemma struct_erased eof n k ts : (struct_cost eof n k ts).1 = parse_struct eof n k ts.
Proof.
  revert k ts. induction n as [|n IH]; intros k ts; [done|]. cbn [parse_struct struct_cost].
  rewrite <- (eval_erased _ _ (grammar k) IH). by destruct (eval_cost _ _ _).
Qed.
(*P C91_counts_the_parser *)
(** The parser that counts is the parser. *)
Lemma counts_the_parser s :
  (parse_cost s).1 = parse s.
Proof.
  unfold parse_cost, parse. destruct (lex "" s) as [[ts st|ts p]| |]; [|done..]. unfold tokens_cost, parse_tokens.
  rewrite <- struct_erased. by destruct (struct_cost _ _ _ _).
Qed.

(** ** A file that takes long *)
(** The tokens of a.(a.( and so on *)
Inductive nest : nat → list token → Prop :=
| nest_0 : nest 0 []
| nest_S k p q r ts : nest k ts →
    nest (S k) (Token TIdent (chars "a") p :: Token TDot (chars ".") q :: Token TOpLParen (chars "(") r :: ts).
Section rules.
Context (sub : kind → list token → parsed * nat).
Notation ev := (eval_cost sub).
Lemma ev_lit_yes s t ts a w : value t = chars s → ev (GLit s) (Ctx (t :: ts) a w) = (Ret (Some [value t]) (Ctx ts a w), 0).
Proof. intros H. cbn. by rewrite bool_decide_true. Qed.
Lemma ev_lit_no s t ts a w : value t ≠ chars s → ev (GLit s) (Ctx (t :: ts) a w) = (Ret None (Ctx (t :: ts) a w), 0).
Proof. intros H. cbn. by rewrite bool_decide_false. Qed.
Lemma ev_tok_yes k t ts a w : kind_of_token t = k → ev (GTok k) (Ctx (t :: ts) a w) = (Ret (Some [value t]) (Ctx ts a w), 0).
Proof. intros H. cbn. by rewrite bool_decide_true. Qed.
Lemma ev_tok_no k t ts a w : kind_of_token t ≠ k → ev (GTok k) (Ctx (t :: ts) a w) = (Ret None (Ctx (t :: ts) a w), 0).
Proof. intros H. cbn. by rewrite bool_decide_false. Qed.
Lemma ev_sub_node f k ts t ts' c a w : sub k ts = (PNode t ts', c) → ev (GSub f k) (Ctx ts a w) = (Ret (Some [[]]) (Ctx ts' (a ++ w) [(f, Struct t)]), c).
Proof. intros H. cbn. by rewrite H. Qed.
Lemma ev_sub_none f k ts c a w : sub k ts = (PNone, c) → ev (GSub f k) (Ctx ts a w) = (Ret None (Ctx ts a w), c).
Proof. intros H. cbn. by rewrite H. Qed.
Lemma ev_sub_err f k ts ts' c a w : sub k ts = (PErr ts', c) → ev (GSub f k) (Ctx ts a w) = (Err (Ctx ts' (a ++ w) []), c).
Proof. intros H. cbn. by rewrite H. Qed.
Lemma ev_cap_some f g x l y c : ev g x = (Ret (Some l) y, c) → ev (GCap f g) x = (Ret (Some [[]]) (Ctx (todo y) (assigned y) (waiting y ++ [(f, Texts l)])), c).
Proof. intros H. cbn. by rewrite H. Qed.
Lemma ev_cap_none f g x y c : ev g x = (Ret None y, c) → ev (GCap f g) x = (Ret None y, c).
Proof. intros H. cbn. by rewrite H. Qed.
Lemma seq_nil b t acc x : seq_cost ev b [] (t :: acc) x = (Ret (Some (t :: acc)) x, 0).
Proof. done. Qed.
Lemma seq_some b g gs acc x l y c r c' :
  ev g x = (Ret (Some l) y, c) → seq_cost ev false gs (acc ++ l) y = (r, c') → seq_cost ev b (g :: gs) acc x = (r, c + c').
Proof. intros H1 H2. cbn. by rewrite H1, H2. Qed.
Lemma seq_none b g gs acc x y c : ev g x = (Ret None y, c) → seq_cost ev b (g :: gs) acc x = (if b then Ret None y else Err y, c).
Proof. intros H. cbn. by rewrite H. Qed.
Lemma seq1_none g gs acc x y c : ev g x = (Ret None y, c) → seq_cost ev true (g :: gs) acc x = (Ret None y, c).
Proof. apply seq_none. Qed.
Lemma seq0_none g gs acc x y c : ev g x = (Ret None y, c) → seq_cost ev false (g :: gs) acc x = (Err y, c).
Proof. apply seq_none. Qed.
Lemma seq_err b g gs acc x y c : ev g x = (Err y, c) → seq_cost ev b (g :: gs) acc x = (Err y, c).
Proof. intros H. cbn. by rewrite H. Qed.
Lemma alt1_nil x : alt_cost ev true [] x = (Err x, 0).
Proof. done. Qed.
Lemma alt0_nil x : alt_cost ev false [] x = (Ret None x, 0).
Proof. done. Qed.
Lemma alt_some b g gs ts a w l y c : ev g (Ctx ts a []) = (Ret (Some l) y, c) →
  alt_cost ev b (g :: gs) (Ctx ts a w) = (Ret (Some l) (Ctx (todo y) (assigned y) (w ++ waiting y)), c).
Proof. intros H. cbn. unfold branch. cbn. by rewrite H. Qed.
Lemma alt_none b g gs ts a w y c r c' : ev g (Ctx ts a []) = (Ret None y, c) → alt_cost ev b gs (Ctx ts (assigned y) w) = (r, c') →
  alt_cost ev b (g :: gs) (Ctx ts a w) = (r, c + c').
Proof. intros H1 H2. cbn. unfold branch, drop_branch. cbn. by rewrite H1, H2. Qed.
Lemma alt_err b g gs ts a w y c r c' : ev g (Ctx ts a []) = (Err y, c) → length ts - length (todo y) ≤ 50 →
  alt_cost ev true gs (Ctx ts (assigned y) w) = (r, c') → alt_cost ev b (g :: gs) (Ctx ts a w) = (r, c + c').
Proof.
  intros H1 Hs H2. cbn [alt_cost]. change (branch (Ctx ts a w)) with (Ctx ts a []). rewrite H1.
  assert (stop (Ctx ts a w) y = false) as -> by (apply Nat.ltb_ge; exact Hs). unfold drop_branch. cbn [todo waiting]. by rewrite H2.
Qed.
Lemma ev_opt g ts a w o y c : ev g (Ctx ts a []) = (Ret o y, c) →
  ev (GOpt g) (Ctx ts a w) = (Ret (Some (default [] o)) (Ctx (todo y) (assigned y) (w ++ waiting y)), c).
Proof. intros H. cbn. unfold opt_cost, branch. cbn. by rewrite H. Qed.
Lemma ev_opt_err g ts a w y c : ev g (Ctx ts a []) = (Err y, c) → length ts - length (todo y) ≤ 50 →
  ev (GOpt g) (Ctx ts a w) = (Ret (Some []) (Ctx ts (assigned y) w), c).
Proof.
  intros H Hs. cbn [eval_cost]. unfold opt_cost. change (branch (Ctx ts a w)) with (Ctx ts a []). rewrite H.
  assert (stop (Ctx ts a w) y = false) as -> by (apply Nat.ltb_ge; exact Hs). done.
Qed.
Lemma many_none b n acc ts a w y c : ev b (Ctx ts a []) = (Ret None y, c) →
  ∀ some, many_cost (ev b) some (S n) acc (Ctx ts a w) =
    (if some : bool then Err (Ctx (todo y) (assigned y) (w ++ waiting y)) else Ret (Some acc) (Ctx (todo y) (assigned y) (w ++ waiting y)), c).
Proof. intros H some. cbn. unfold branch. cbn. by rewrite H. Qed.
Lemma many_err b n acc ts a w y c : ev b (Ctx ts a []) = (Err y, c) → length ts - length (todo y) ≤ 50 →
  ∀ some, many_cost (ev b) some (S n) acc (Ctx ts a w) =
    (if some : bool then Err (Ctx ts (assigned y) w) else Ret (Some acc) (Ctx ts (assigned y) w), c).
Proof.
  intros H Hs some. cbn [many_cost]. change (branch (Ctx ts a w)) with (Ctx ts a []). rewrite H.
  assert (stop (Ctx ts a w) y = false) as -> by (apply Nat.ltb_ge; exact Hs). done.
Qed.
Lemma many0_none b n acc ts a w y c : ev b (Ctx ts a []) = (Ret None y, c) →
  many_cost (ev b) false (S n) acc (Ctx ts a w) = (Ret (Some acc) (Ctx (todo y) (assigned y) (w ++ waiting y)), c).
Proof. intros H. by rewrite (many_none _ _ _ _ _ _ _ _ H). Qed.
Lemma many1_none b n acc ts a w y c : ev b (Ctx ts a []) = (Ret None y, c) →
  many_cost (ev b) true (S n) acc (Ctx ts a w) = (Err (Ctx (todo y) (assigned y) (w ++ waiting y)), c).
Proof. intros H. by rewrite (many_none _ _ _ _ _ _ _ _ H). Qed.
Lemma many0_err b n acc ts a w y c : ev b (Ctx ts a []) = (Err y, c) → length ts - length (todo y) ≤ 50 →
  many_cost (ev b) false (S n) acc (Ctx ts a w) = (Ret (Some acc) (Ctx ts (assigned y) w), c).
Proof. intros H Hs. by rewrite (many_err _ _ _ _ _ _ _ _ H Hs). Qed.
Lemma ev_many g x r c : many_cost (ev g) false (S (length (todo x))) [] x = (r, c) → ev (GMany g) x = (r, c).
Proof. done. Qed.
Lemma ev_some g x r c : many_cost (ev g) true (S (length (todo x))) [] x = (r, c) → ev (GSome g) x = (r, c).
Proof. done. Qed.
Lemma ev_seq gs x r c : seq_cost ev true gs [] x = (r, c) → ev (GSeq gs) x = (r, c).
Proof. done. Qed.
Lemma ev_alt gs x r c : alt_cost ev false gs x = (r, c) → ev (GAlt gs) x = (r, c).
Proof. done. Qed.
End rules.
Lemma struct_some eof n k ts l y c fs : eval_cost (struct_cost eof n) (grammar k) (Ctx ts [] []) = (Ret (Some l) y, c) →
  store_all k (fields (zero no_pos k)) (assigned y ++ waiting y) = Stored fs →
  struct_cost eof (S n) k ts = (PNode (T (position eof k ts) k fs) (todo y), S c).
Proof. intros H1 H2. cbn [struct_cost]. by rewrite H1, H2. Qed.
Lemma struct_none eof n k ts y c : eval_cost (struct_cost eof n) (grammar k) (Ctx ts [] []) = (Ret None y, c) →
  struct_cost eof (S n) k ts = (PNone, S c).
Proof. intros H1. cbn [struct_cost]. by rewrite H1. Qed.
Lemma struct_err eof n k ts y c : eval_cost (struct_cost eof n) (grammar k) (Ctx ts [] []) = (Err y, c) →
  struct_cost eof (S n) k ts = (PErr (todo y), S c).
Proof. intros H1. cbn [struct_cost]. by rewrite H1. Qed.
Ltac tidy := cbn [todo assigned waiting app default value kind_of_token].
Ltac near := cbn [todo length]; lia.
Ltac ev := tidy; lazymatch goal with
  | |- eval_cost _ (GLit _) _ = _ => first [apply ev_lit_yes; done | apply ev_lit_no; done]
  | |- eval_cost _ (GTok _) _ = _ => first [apply ev_tok_yes; done | apply ev_tok_no; done]
  | |- eval_cost _ (GSub _ _) _ = _ => first [eapply ev_sub_node; eassumption | eapply ev_sub_none; eassumption | eapply ev_sub_err; eassumption]
  | |- eval_cost _ (GCap _ _) _ = _ => first [eapply ev_cap_some; ev; fail | eapply ev_cap_none; ev]
  | |- eval_cost _ (GOpt _) _ = _ => first [eapply ev_opt; ev; fail | eapply ev_opt_err; [ev|near]]
  | |- eval_cost _ (GSeq _) _ = _ => eapply ev_seq; evs
  | |- eval_cost _ (GAlt _) _ = _ => eapply ev_alt; eva
  | |- eval_cost _ (GMany _) _ = _ => eapply ev_many; evm
  | |- eval_cost _ (GSome _) _ = _ => eapply ev_some; evm
  end
with evs := tidy; lazymatch goal with
  | |- seq_cost _ _ [] _ _ = _ => apply seq_nil
  | |- _ => first [eapply seq_some; [ev|evs] | eapply seq1_none; ev; fail | eapply seq0_none; ev; fail | eapply seq_err; ev]
  end
with eva := tidy; lazymatch goal with
  | |- alt_cost _ _ [] _ = _ => first [apply alt0_nil|apply alt1_nil]
  | |- _ => first [eapply alt_some; ev; fail | eapply alt_none; [ev|eva] | eapply alt_err; [ev|near|eva]]
  end
with evm := first [eapply many0_none; ev; fail | eapply many1_none; ev; fail | eapply many0_err; [ev|near]].
Section nest.
Context (eof : pos).
Lemma value_none n t ts : kind_of_token t = TIdent ∧ value t = chars "a" ∨ kind_of_token t = TOpLParen ∧ value t = chars "(" →
  struct_cost eof (2 + n) KValue (t :: ts) = (PNone, 5).
Proof. destruct t as [k v p]. intros [[? ?]|[? ?]]; cbn in *; subst; vm_compute; reflexivity. Qed.
Lemma ident_none n p ts : struct_cost eof (1 + n) KIdent (Token TOpLParen (chars "(") p :: ts) = (PNone, 1).
Proof. vm_compute. reflexivity. Qed.
Local Opaque struct_cost.
Notation ida p := (Token TIdent (chars "a") p).
Local Notation dot p := (Token TDot (chars ".") p).
Notation lpar p := (Token TOpLParen (chars "(") p).
Ltac done_some := etrans; [eapply struct_some; [cbn [grammar]; unfold g_binary; ev|reflexivity]|tidy].
Ltac done_err := etrans; [eapply struct_err; cbn [grammar]; unfold g_binary; ev|tidy].
Lemma ident_some n p q r ts : ∃ t, struct_cost eof (1 + n) KIdent (ida p :: dot q :: lpar r :: ts) = (PNode t (dot q :: lpar r :: ts), 1).
Proof. eexists. done_some. reflexivity. Qed.
(** A level of expressions that finds no operator. *)
Definition levels : list (kind * kind) :=
  [(KExpr, KExprConditional); (KExprConditional, KExprLogicalOr); (KExprLogicalOr, KExprLogicalAnd); (KExprLogicalAnd, KExprBitwiseOr);
   (KExprBitwiseOr, KExprBitwiseXor); (KExprBitwiseXor, KExprBitwiseAnd); (KExprBitwiseAnd, KExprEquality); (KExprEquality, KExprRelational);
   (KExprRelational, KExprShift); (KExprShift, KExprAdditive); (KExprAdditive, KExprMultiplicative); (KExprMultiplicative, KExprUnary)].
Lemma level_passes k l n ts t q r us c : (k, l) ∈ levels → struct_cost eof n l ts = (PNode t (dot q :: lpar r :: us), c) →
  ∃ t', struct_cost eof (S n) k ts = (PNode t' (dot q :: lpar r :: us), S c).
Proof.
  intros Hk H. unfold levels in Hk.
  repeat (apply elem_of_cons in Hk as [[= -> ->]|Hk]; [eexists; done_some; do 2 f_equal; lia|]). by apply elem_of_nil in Hk.
Qed.
Lemma unary_passes n p ts t q r us c : struct_cost eof n KExprPostfix (ida p :: ts) = (PNode t (dot q :: lpar r :: us), c) →
  ∃ t', struct_cost eof (S n) KExprUnary (ida p :: ts) = (PNode t' (dot q :: lpar r :: us), S c).
Proof. intros H. eexists. done_some. do 2 f_equal; lia. Qed.
Lemma expr_passes n p ts t q r us c : struct_cost eof n KExprPostfix (ida p :: ts) = (PNode t (dot q :: lpar r :: us), c) →
  ∃ t', struct_cost eof (13 + n) KExpr (ida p :: ts) = (PNode t' (dot q :: lpar r :: us), 13 + c).
Proof.
  intros H. apply unary_passes in H as [t1 H].
  pose proof (λ n t c k l Hk, level_passes k l n (ida p :: ts) t q r us c Hk) as L. unfold levels in L.
  apply (L _ _ _ KExprMultiplicative KExprUnary ltac:(repeat constructor)) in H as [? H].
  apply (L _ _ _ KExprAdditive KExprMultiplicative ltac:(repeat constructor)) in H as [? H].
  apply (L _ _ _ KExprShift KExprAdditive ltac:(repeat constructor)) in H as [? H].
  apply (L _ _ _ KExprRelational KExprShift ltac:(repeat constructor)) in H as [? H].
  apply (L _ _ _ KExprEquality KExprRelational ltac:(repeat constructor)) in H as [? H].
  apply (L _ _ _ KExprBitwiseAnd KExprEquality ltac:(repeat constructor)) in H as [? H].
  apply (L _ _ _ KExprBitwiseXor KExprBitwiseAnd ltac:(repeat constructor)) in H as [? H].
  apply (L _ _ _ KExprBitwiseOr KExprBitwiseXor ltac:(repeat constructor)) in H as [? H].
  apply (L _ _ _ KExprLogicalAnd KExprBitwiseOr ltac:(repeat constructor)) in H as [? H].
  apply (L _ _ _ KExprLogicalOr KExprLogicalAnd ltac:(repeat constructor)) in H as [? H].
  apply (L _ _ _ KExprConditional KExprLogicalOr ltac:(repeat constructor)) in H as [? H].
  apply (L _ _ _ KExpr KExprConditional ltac:(repeat constructor)) in H as [? H].
  eexists. exact H.
Qed.
(** The file ends. *)
Lemma expr_end n : struct_cost eof (20 + n) KExpr [] = (PErr [], 23).
Proof. vm_compute. reflexivity. Qed.
(** What the parser of an expression does with a.(a.( *)
Definition fails (n : nat) (ts : list token) (c : nat) : Prop :=
  ∃ r, struct_cost eof n KExpr ts = (r, c) ∧
    (ts = [] ∧ r = PErr [] ∨ ∃ p q o us t, ts = ida p :: dot q :: lpar o :: us ∧ r = PNode t (dot q :: lpar o :: us)).
Lemma paren_fails n o ts c : fails (2 + n) ts c → struct_cost eof (4 + n) KExprPostfix (lpar o :: ts) = (PErr (lpar o :: ts), 8 + c).
Proof.
  intros (r & H & Hr). 
  assert (struct_cost eof (3 + n) KExprPrimary (lpar o :: ts) = (PErr (lpar o :: ts), 7 + c)) as Hp.
  { pose proof (value_none n (lpar o) ts ltac:(by right)) as Hv. pose proof (ident_none (1 + n) o ts) as Hi. cbn [Nat.add] in Hv, Hi, H.
    destruct Hr as [[-> ->]|(p & q & o' & us & t & -> & ->)]; (done_err; f_equal; lia). }
  cbn [Nat.add] in Hp. done_err. f_equal; lia.
Qed.
Lemma nest_fails k ts : nest k ts → ∃ c, c + 37 = 60 * 2 ^ k ∧ ∀ n, 20 * S k ≤ n → fails n ts c.
Proof.
  induction 1 as [|k p q o ts _ (c & Hc & IH)].
  - exists 23. split; [done|]. intros n Hn. exists (PErr []). split; [|by left].
    replace n with (20 + (n - 20)) by lia. apply expr_end.
  - exists (2 * c + 37). split; [cbn [Nat.pow]; lia|]. intros n Hn.
    assert (∀ m, 20 * S k + 2 ≤ m → struct_cost eof m KExprPostfix (lpar o :: ts) = (PErr (lpar o :: ts), 8 + c)) as P.
    { intros m Hm. replace m with (4 + (m - 4)) by lia. apply paren_fails, IH. lia. }
    replace n with (13 + S (S (n - 15))) by lia.
    pose proof (P (S (n - 15)) ltac:(lia)) as P1. pose proof (P (n - 15) ltac:(lia)) as P2.
    pose proof (value_none (n - 17) (ida p) (dot q :: lpar o :: ts) ltac:(by left)) as Hv.
    destruct (ident_some (n - 16) p q o ts) as [t Hi].
    replace (2 + (n - 17)) with (n - 15) in Hv by lia. replace (1 + (n - 16)) with (n - 15) in Hi by lia.
    assert (∃ t, struct_cost eof (S (n - 15)) KExprPrimary (ida p :: dot q :: lpar o :: ts) = (PNode t (dot q :: lpar o :: ts), 15 + c)) as [t1 H1].
    { eexists. done_some. do 2 f_equal; lia. }
    assert (∃ t, struct_cost eof (S (S (n - 15))) KExprPostfix (ida p :: dot q :: lpar o :: ts) = (PNode t (dot q :: lpar o :: ts), 24 + 2 * c)) as [t2 H2].
    { eexists. done_some. do 2 f_equal; lia. }
    apply expr_passes in H2 as [t3 H3]. eexists. split; [rewrite H3; f_equal; lia|]. right. by eexists _, _, _, _, _.
Qed.
End nest.

Definition deep (k : nat) : text := chars "val x=" ++ concat (replicate k (chars "a.(")).
Lemma step_by v k p z r b g : first_match (rules (SRoot, [])) (v ++ z) = Some (r, Spot b z g) → v ≠ [] → rname r = k → act r = Stay →
  lex_step root p (v ++ z) = Some (Token k v p, z, root).
Proof. intros H Hv Hk Ha. unfold root. rewrite (lex_step_some [] (SRoot, []) p (v ++ z) r (Spot b z g) v H eq_refl Hv). by rewrite Hk, Ha. Qed.
Ltac by_step := eapply step_by; [reflexivity|done|reflexivity|reflexivity].
Lemma nest_lexed k p : ∃ ts p', lexes root p (concat (replicate k (chars "a.("))) ts root p' [] ∧ nest k ts.
Proof.
  revert p. induction k as [|k IH]; intros p.
  - exists [], p. split; constructor.
  - set (p1 := advance p (chars "a")). set (p2 := advance p1 (chars ".")). destruct (IH (advance p2 (chars "("))) as (ts & p' & H & Hn).
    exists (Token TIdent (chars "a") p :: Token TDot (chars ".") p1 :: Token TOpLParen (chars "(") p2 :: ts), p'. split; [|by constructor].
    cbn [replicate concat]. remember (concat (replicate k (chars "a.("))) as z eqn:Ez. clear Ez IH.
    change (chars "a.(" ++ z) with (chars "a" ++ chars "." ++ chars "(" ++ z).
    econstructor; [by_step|]. econstructor; [by_step|]. econstructor; [by_step|]. exact H.
Qed.
Lemma nest_elide k ts : nest k ts → elide ts = ts.
Proof. unfold elide. induction 1 as [|k p q r ts _ IH]; [done|]. rewrite !filter_cons, !decide_True by done. by rewrite IH. Qed.
Lemma deep_lexed k : ∃ p q r us ts, lex "" (deep k) = Ok (Lexed us root) ∧ nest k ts ∧
  elide us = Token TIdent (chars "val") p :: Token TIdent (chars "x") q :: Token TOpAssign (chars "=") r :: ts.
Proof.
  unfold deep. set (p := start_pos ""). set (p1 := advance p (chars "val")). set (p2 := advance p1 (chars " ")). set (p3 := advance p2 (chars "x")).
  destruct (nest_lexed k (advance p3 (chars "="))) as (ts & p' & H & Hn).
  exists p, p2, p3, (Token TIdent (chars "val") p :: Token TWhitespace (chars " ") p1 :: Token TIdent (chars "x") p2 :: Token TOpAssign (chars "=") p3 :: ts), ts.
  split_and!; [|done|].
  - apply (lexes_whole _ _ _ _ p'). clear Hn. revert H. destruct k as [|k]; cbn [replicate concat].
    + intros H. change (chars "val x=" ++ []) with (chars "val" ++ chars " " ++ chars "x" ++ chars "=" ++ []).
      do 4 (econstructor; [by_step|]). exact H.
    + set (z := concat _). intros H. change (chars "val x=" ++ chars "a.(" ++ z) with (chars "val" ++ chars " " ++ chars "x" ++ chars "=" ++ chars "a.(" ++ z).
      do 4 (econstructor; [by_step|]). exact H.
  - unfold elide. rewrite filter_cons, decide_True by done. rewrite filter_cons, decide_False by (intros E; by apply E).
    rewrite !filter_cons, !decide_True by done. do 3 f_equal. by apply (nest_elide k).
Qed.
(** What is left is no item. *)
Lemma no_item eof n t ts : kind_of_token t = TDot ∧ value t = chars "." ∨ kind_of_token t = TOpAssign ∧ value t = chars "=" →
  struct_cost eof (2 + n) KRootItem (t :: ts) = (PErr (t :: ts), 7).
Proof.
  intros Ht.
  assert (∃ k v p, t = Token k v p ∧ (k = TDot ∧ v = chars "." ∨ k = TOpAssign ∧ v = chars "=")) as (k & v & p & -> & Ht').
  { destruct t as [k v p]. cbn in Ht. by exists k, v, p. }
  clear Ht. change (2 + n) with (S (S n)).
  assert (∀ k', k' ∈ [KDecl; KFunc; KType; KBlock; KAttribute] → struct_cost eof (S n) k' (Token k v p :: ts) = (PNone, 1)) as H.
  { intros k' Hk. repeat (apply elem_of_cons in Hk as [->|Hk]); [..|by apply elem_of_nil in Hk];
      destruct Ht' as [[-> ->]|[-> ->]]; (etrans; [eapply struct_none; cbn [grammar]; unfold g_decl; cbn [map]; ev|reflexivity]). }
  assert (struct_cost eof (S n) KComment (Token k v p :: ts) = (PErr (Token k v p :: ts), 1)) as Hc.
  { destruct Ht' as [[-> ->]|[-> ->]]; (etrans; [eapply struct_err; cbn [grammar]; ev|reflexivity]). }
  pose proof (H KDecl ltac:(repeat constructor)). pose proof (H KFunc ltac:(repeat constructor)). pose proof (H KType ltac:(repeat constructor)).
  pose proof (H KBlock ltac:(repeat constructor)). pose proof (H KAttribute ltac:(repeat constructor)). clear H.
  destruct Ht' as [[-> ->]|[-> ->]]; (etrans; [eapply struct_err; cbn [grammar]; unfold g_empty_line, g_lf; ev|reflexivity]).
Qed.
(** The declaration, the item, the file. *)
Lemma many_some sub b some n acc ts a w l y c r c' : eval_cost sub b (Ctx ts a []) = (Ret (Some l) y, c) →
  many_cost (eval_cost sub b) false n (acc ++ l) (Ctx (todo y) (assigned y) (w ++ waiting y)) = (r, c') →
  many_cost (eval_cost sub b) some (S n) acc (Ctx ts a w) = (r, c + c').
Proof. intros H1 H2. cbn [many_cost]. change (branch (Ctx ts a w)) with (Ctx ts a []). rewrite H1. unfold accept. cbn [todo assigned waiting]. by rewrite H2. Qed.
Lemma deep_tokens eof k n p q r ts : nest k ts → 20 * S k ≤ n → ∃ t us c,
  struct_cost eof (3 + n) KAST (Token TIdent (chars "val") p :: Token TIdent (chars "x") q :: Token TOpAssign (chars "=") r :: ts) = (PNode t us, c) ∧
  us ≠ [] ∧ c + 27 = 60 * 2 ^ k.
Proof.
  intros Hk Hn. destruct (nest_fails eof k ts Hk) as (c & Hc & H). destruct (H n Hn) as (x & Hx & Hx'). clear H.
  set (all := Token TIdent (chars "val") p :: Token TIdent (chars "x") q :: Token TOpAssign (chars "=") r :: ts).
  assert (∃ t u us, (kind_of_token u = TDot ∧ value u = chars "." ∨ kind_of_token u = TOpAssign ∧ value u = chars "=") ∧
    struct_cost eof (S n) KDecl all = (PNode t (u :: us), S c)) as (t & u & us & Hu & Hd).
  { destruct Hx' as [[-> ->]|(p1 & q1 & o1 & us & t & -> & ->)].
    - eexists _, (Token TOpAssign (chars "=") r), []. split; [by right|]. unfold all.
      etrans; [eapply struct_some; [cbn [grammar]; unfold g_decl; cbn [map]; ev|reflexivity]|tidy]. f_equal; lia.
    - eexists _, (Token TDot (chars ".") q1), _. split; [by left|]. unfold all.
      etrans; [eapply struct_some; [cbn [grammar]; unfold g_decl; cbn [map]; ev|reflexivity]|tidy]. f_equal; lia. }
  assert (∃ k v p, u = Token k v p ∧ (k = TDot ∧ v = chars "." ∨ k = TOpAssign ∧ v = chars "=")) as (uk & uv & up & -> & Hu').
  { destruct u as [k' v p']. cbn in Hu. by exists k', v, p'. }
  unfold all in *. clear all.
  assert (∃ t, struct_cost eof (2 + n) KRootItem (Token TIdent (chars "val") p :: Token TIdent (chars "x") q :: Token TOpAssign (chars "=") r :: ts) = (PNode t (Token uk uv up :: us), 2 + c)) as [t1 Hi].
  { destruct Hu' as [[-> ->]|[-> ->]]; eexists; (etrans; [eapply struct_some; [cbn [grammar]; unfold g_empty_line, g_lf; ev|reflexivity]|tidy]); f_equal; lia. }
  pose proof (no_item eof n (Token uk uv up) us Hu) as Hj.
  eexists _, (Token uk uv up :: us), _. split_and!; [|done|].
  - etrans; [eapply struct_some; [cbn [grammar]; eapply ev_many; cbn [length todo]; eapply many_some; [ev|tidy; evm]|reflexivity]|tidy].
    reflexivity.
  - lia.
Qed.
Lemma nest_length k ts : nest k ts → length ts = 3 * k.
Proof. induction 1; cbn; lia. Qed.
Lemma deep_length k : length (deep k) = 6 + 3 * k.
Proof. unfold deep. rewrite app_length. induction k as [|k IH]; [done|]. cbn [replicate concat]. rewrite app_length. cbn in IH |- *. lia. Qed.
(*P C92_doubles *)
(** The file val x=a.(a.( and so on: three more characters make the parser try twice as many
    structs, and then it rejects the file. *)
Lemma deep_tries k :
  let s := chars "val x=" ++ concat (replicate k (chars "a.(")) in
  length s = 6 + 3 * k ∧ tries s + 27 = 60 * 2 ^ k ∧ parse s = Ok None.
Proof.
  cbn zeta. fold (deep k). split; [apply deep_length|]. rewrite <- counts_the_parser. unfold tries, parse_cost.
  destruct (deep_lexed k) as (p & q & r & us & ts & -> & Hn & ->). unfold tokens_cost.
  set (eof := advance _ _). set (all := Token TIdent (chars "val") p :: _).
  assert (struct_fuel all = 3 + (struct_fuel all - 3)) as ->.
  { unfold struct_fuel. lia. }
  destruct (deep_tokens eof k (struct_fuel all - 3) p q r ts Hn) as (t & [|u vs] & c & E & Hu & Hc).
  { unfold struct_fuel, all. cbn [length]. rewrite (nest_length k ts Hn). lia. }
  - done.
  - fold all in E. rewrite E. done.
Qed.
Lemma pow_more j : j + 1 ≤ 2 ^ j.
Proof. induction j as [|j IH]; [done|]. cbn [Nat.pow]. lia. Qed.
Lemma no_polynomial c d : ∃ k, c * (6 + 3 * k) ^ d + c + 27 < 60 * 2 ^ k.
Proof.
  set (m := c + 4 * d + 1). set (k := 2 ^ (2 * m)). exists k.
  assert (1 ≤ k) by (unfold k; pose proof (pow_more (2 * m)); lia).
  assert (H1 : (6 + 3 * k) ^ d ≤ 2 ^ (4 * d + 2 * m * d)).
  { transitivity ((2 ^ 4 * k) ^ d); [apply Nat.pow_le_mono_l; change (2 ^ 4) with 16; lia|].
    rewrite Nat.pow_mul_l, <- Nat.pow_mul_r. unfold k. rewrite <- Nat.pow_mul_r, <- Nat.pow_add_r. done. }
  assert (H2 : c + 1 + 4 * d + 2 * m * d ≤ k).
  { pose proof (pow_more m) as Hm. unfold k. rewrite (Nat.mul_comm 2 m), Nat.pow_mul_r.
    transitivity ((m + 1) ^ 2); [|by apply Nat.pow_le_mono_l]. cbn [Nat.pow]. rewrite Nat.mul_1_r.
    assert (4 * d ≤ m) by (unfold m; lia). assert (c + 1 + 4 * d = m) as E by (unfold m; lia). clearbody m. nia. }
  assert (H3 : c ≤ 2 ^ c) by (pose proof (pow_more c); lia).
  assert (c * (6 + 3 * k) ^ d ≤ 2 ^ k).
  { transitivity (2 ^ c * 2 ^ (4 * d + 2 * m * d)); [by apply Nat.mul_le_mono|]. rewrite <- Nat.pow_add_r. apply Nat.pow_le_mono_r; lia. }
  assert (c ≤ 2 ^ k). { pose proof (pow_more k). lia. }
  assert (1 ≤ 2 ^ k). { pose proof (pow_more k). lia. }
  lia.
Qed.
(*P C91_polynomial_refuted *)
(** No polynomial bounds the number of structs that the parser tries. *)
Lemma not_polynomial :
  ∀ c d, ∃ s, c * length s ^ d + c < tries s.
Proof.
  intros c d. destruct (no_polynomial c d) as [k Hk]. exists (deep k).
  destruct (deep_tries k) as (Hl & Ht & _). fold (deep k) in Hl, Ht. rewrite Hl. lia.
Qed.
