(** * Reading printed tokens again *)
From stdpp Require Import base list option strings.
From Coq Require Import Ascii Lia.
From Verif Require Import GoBase EtxAst EtxHeap EtxHeapSpec EtxText EtxLex EtxLexSpec EtxLexFacts EtxLexNest EtxLexOps
  EtxLexIdent EtxLexString EtxUtil EtxUtilProofs EtxNumProofs EtxGram EtxParse EtxParseLexed EtxLayout.

Definition root : list frame := [(SRoot, [])].
Definition inside (q : ascii) : list frame := (SString, [q]) :: root.

(** ** Tokens read from a stack on *)
Definition from (st : list frame) (us : list token) : Prop :=
  ∃ p s ts st' p' s', lexes st p s ts st' p' s' ∧ elide ts = us.
(** The kinds of tokens that are no white space and leave the state alone. *)
Lemma lexes_cons_inv st p s t ts st' p' s' :
  lexes st p s (t :: ts) st' p' s' →
  ∃ s1 st1, lex_step st p s = Some (t, s1, st1) ∧ lexes st1 (advance p (value t)) s1 ts st' p' s'.
Proof. inversion 1; subst. eauto. Qed.
Lemma step_rule st fr p s t s' st' :
  lex_step (fr :: st) p s = Some (t, s', st') →
  ∃ r y, r ∈ rules fr ∧ kind_of_token t = rname r ∧ lang (pattern r) (value t) ∧ value t ≠ [] ∧ s = value t ++ s' ∧
    st' = apply_action (act r) y (fr :: st) ∧ find (pattern r) s = Some y ∧ s' = rest y.
Proof.
  intros (fr' & st0 & r & y & [= <- <-] & Hf & Hv & Hne & -> & Hk & ->)%lex_step_first.
  pose proof (first_match_elem _ _ _ _ Hf) as [Hin Hy]. pose proof Hy as Hy'. apply find_elem, matches_lang in Hy as (v & E & Hl).
  cbn in E. assert (v = value t) as -> by (rewrite Hv in E; by apply app_inv_tail in E).
  exists r, y. done.
Qed.
Lemma white_stays g st p s t s' st' :
  lex_step ((SRoot, g) :: st) p s = Some (t, s', st') → kind_of_token t = TWhitespace → st' = (SRoot, g) :: st.
Proof.
  intros (r & y & Hr & Hk & _ & _ & _ & -> & _)%step_rule Hw. rewrite Hk in Hw. cbn [rules] in Hr.
  assert (forallb (λ r, negb (bool_decide (rname r = TWhitespace)) || match act r with Stay => true | _ => false end) core = true) as H
    by (vm_compute; reflexivity).
  rewrite forallb_forall in H. apply elem_of_list_In in Hr. specialize (H r Hr). rewrite bool_decide_true in H by done.
  by destruct (act r).
Qed.
Lemma from_root_cons t us :
  from root (t :: us) → ∃ p s s' st', lex_step root p s = Some (t, s', st') ∧ from st' us.
Proof.
  intros (p & s & ts & st' & p' & s' & H & E). revert p s H E. induction ts as [|a ts IH]; intros p s H E; [done|].
  apply lexes_cons_inv in H as (s1 & st1 & Hs & H). unfold elide in E. rewrite filter_cons in E. fold (elide ts) in E.
  destruct (decide (kind_of_token a ≠ TWhitespace)) as [Hk|Hk].
  - injection E as -> E. exists p, s, s1, st1. split; [done|]. by exists (advance p (value t)), s1, ts, st', p', s'.
  - apply dec_stable in Hk. pose proof (white_stays _ _ _ _ _ _ _ Hs Hk) as ->. by eapply IH.
Qed.
Lemma no_white_inside q p s t s' st' :
  lex_step (inside q) p s = Some (t, s', st') → kind_of_token t ≠ TWhitespace.
Proof.
  intros (r & y & Hr & -> & _)%step_rule. cbn [rules] in Hr. rewrite !elem_of_cons, elem_of_nil in Hr.
  destruct Hr as [->|[->|[->|[->|[->|[->|[->|[->|[]]]]]]]]]; done.
Qed.
Lemma from_inside_cons q t us :
  from (inside q) (t :: us) → ∃ p s s' st', lex_step (inside q) p s = Some (t, s', st') ∧
    ∃ p1 ts st2 p2 s2, lexes st' p1 s' ts st2 p2 s2 ∧ elide ts = us.
Proof.
  intros (p & s & ts & st' & p' & s' & H & E). destruct ts as [|a ts]; [done|].
  apply lexes_cons_inv in H as (s1 & st1 & Hs & H). unfold elide in E. rewrite filter_cons in E. fold (elide ts) in E.
  rewrite decide_True in E by (by eapply no_white_inside). injection E as -> E.
  exists p, s, s1, st1. split; [done|]. by exists (advance p (value t)), ts, st', p', s'.
Qed.

(** ** What the tokens of code look like *)
(** The rules whose matches can start with a byte. *)
Lemma core_start r c v : r ∈ core → lang (pattern r) (c :: v) → r ∈ List.filter (λ r, may_start (pattern r) c) core.
Proof. intros Hr Hl. apply elem_of_list_In, filter_In. split; [by apply elem_of_list_In|]. by eapply lang_start. Qed.
Ltac in_core H := vm_compute in H; rewrite ?elem_of_cons, ?elem_of_nil in H.
(** The kinds of operators have one text. *)
Definition text_of_op (k : tname) : option string :=
  match list_find (λ ok : string * tname, ok.2 = k) operators with Some (_, (o, _)) => Some o | None => None end.
Lemma text_of_op_spec o k : (o, k) ∈ operators → text_of_op k = Some o.
Proof.
  intros H. assert (Forall (λ ok, text_of_op ok.2 = Some ok.1) operators) as Hf.
  { unfold operators. repeat (apply Forall_cons; split; [vm_compute; reflexivity|]). constructor. }
  rewrite Forall_forall in Hf. by apply (Hf (o, k)).
Qed.
Lemma core_ops r o k : r ∈ core → (o, k) ∈ operators → rname r = k → pattern r = RLit o ∧ act r = Stay.
Proof.
  intros Hr Ho%text_of_op_spec <-.
  assert (Forall (λ r, ∀ o, text_of_op (rname r) = Some o → pattern r = RLit o ∧ act r = Stay) core) as Hf.
  { unfold core. repeat (apply Forall_cons; split;
      [cbn [rname op]; intros o'; match goal with |- text_of_op ?k = _ → _ => let x := eval vm_compute in (text_of_op k) in change (text_of_op k) with x end;
       intros [= <-]; split; reflexivity|]). constructor. }
  rewrite Forall_forall in Hf. by apply Hf.
Qed.
Lemma root_op p s t s' st' o k :
  lex_step root p s = Some (t, s', st') → (o, k) ∈ operators → kind_of_token t = k → value t = chars o ∧ st' = root.
Proof.
  intros (r & y & Hr & Hk & Hl & _ & _ & -> & _)%step_rule Ho Hk'. cbn [rules] in Hr. rewrite Hk in Hk'.
  destruct (core_ops _ _ _ Hr Ho Hk') as [E ->]. rewrite E in Hl. split; [by apply lang_text in Hl|done].
Qed.
Definition lits : list (string * tname) :=
  [(":", TOpColon); ("=", TOpAssign); ("(", TOpLParen); (")", TOpRParen); (",", TOpComma); ("?", TOpCondition);
   ("[", TOpLBracket); ("]", TOpRBracket); (".", TDot)].
Lemma lits_ops : ∀ ok, ok ∈ lits → ok ∈ operators.
Proof. intros ok H. unfold lits in H. rewrite !elem_of_cons, elem_of_nil in H. decompose [or] H; subst; try done; by apply (bool_decide_unpack _); vm_compute. Qed.
Definition lit_ok (r : rule) (ok : string * tname) : bool :=
  bool_decide (rname r = ok.2) ||
  match chars ok.1 with c :: _ => negb (may_start (pattern r) c) | [] => false end ||
  match text_of_op (rname r) with Some o => negb (bool_decide (o = ok.1)) | None => false end ||
  bool_decide (rname r = TNumber) && bool_decide (ok.1 = ".").
Lemma core_lits : forallb (λ r, forallb (lit_ok r) lits) core = true.
Proof. vm_compute. reflexivity. Qed.
Lemma text_of_op_elem k o : text_of_op k = Some o → (o, k) ∈ operators.
Proof.
  unfold text_of_op. destruct (list_find _ operators) as [[i [o' k']]|] eqn:E; [|done]. intros [= ->].
  apply list_find_Some in E as (E1 & <- & _). by eapply elem_of_list_lookup_2.
Qed.
Lemma no_number_dot : ¬ number_text (chars ".").
Proof.
  inversion 1; subst; try done.
  - destruct ds as [|c ds]; [done|]. injection H0 as -> E. apply Forall_cons in H1 as [[]]; done.
  - destruct ds as [|c ds]; cbn in H0.
    + injection H0 as E. by destruct fs.
    + injection H0 as -> E. apply Forall_cons in H1 as [[]]; done.
Qed.
Lemma root_lit p s t s' st' o k :
  lex_step root p s = Some (t, s', st') → (o, k) ∈ lits → value t = chars o → kind_of_token t = k ∧ st' = root.
Proof.
  intros Hs Ho Hv. enough (kind_of_token t = k) as Hk.
  { split; [done|]. eapply root_op; [done|by apply lits_ops|done]. }
  pose proof Hs as (r & y & Hr & Hk & Hl & _ & _ & _)%step_rule. cbn [rules] in Hr. rewrite Hk, Hv in *.
  pose proof core_lits as H. rewrite forallb_forall in H. specialize (H r (proj1 (elem_of_list_In _ _) Hr)).
  rewrite forallb_forall in H. specialize (H (o, k) (proj1 (elem_of_list_In _ _) Ho)). unfold lit_ok in H. cbn [fst snd] in H.
  apply orb_true_iff in H as [H|[H1 H2]%andb_true_iff].
  2: { apply bool_decide_eq_true in H1, H2. subst o. exfalso. apply no_number_dot. rewrite <- Hv.
       eapply number_step; [exact Hs|]. by rewrite Hk. }
  apply orb_true_iff in H as [H|H].
  2: { destruct (text_of_op (rname r)) as [o'|] eqn:E; [|done]. apply negb_true_iff, bool_decide_eq_false in H.
       destruct (core_ops _ _ _ Hr (text_of_op_elem _ _ E) eq_refl) as [Hp _]. rewrite Hp in Hl. apply lang_text in Hl.
       destruct H. by rewrite <- (str_chars o), <- (str_chars o'), Hl. }
  apply orb_true_iff in H as [H|H]; [by apply bool_decide_eq_true in H|].
  destruct (chars o) as [|c v]; [done|]. apply lang_start in Hl. by rewrite Hl in H.
Qed.
(** Words. *)
Lemma lang_keyword k v : lang (keyword k) v → v = chars k.
Proof.
  intros (v1 & v2 & -> & -> & v3 & v4 & -> & H & ->). apply lang_text in H as ->. by rewrite app_nil_r.
Qed.
Definition word_ok (r : rule) : bool :=
  bool_decide (rname r ∈ [TIf; TElse; TSwitch; TCase; TIdent]) ||
  forallb (λ c, negb (is_alpha c && may_start (pattern r) c)) all_ascii.
Lemma core_words : forallb word_ok core = true.
Proof. vm_compute. reflexivity. Qed.
Lemma root_word p s t s' st' c v :
  lex_step root p s = Some (t, s', st') → value t = c :: v → is_alpha c = true → ¬ is_keyword (c :: v) →
  kind_of_token t = TIdent.
Proof.
  intros (r & y & Hr & Hk & Hl & _ & _ & _)%step_rule Hv Hc Hw. cbn [rules] in Hr. rewrite Hk, Hv in *.
  pose proof core_words as H. rewrite forallb_forall in H. specialize (H r (proj1 (elem_of_list_In _ _) Hr)).
  unfold word_ok in H. apply orb_true_iff in H as [H|H].
  - apply bool_decide_eq_true in H. rewrite !elem_of_cons, elem_of_nil in H.
    destruct (decide (rname r = TIdent)) as [?|Hn]; [done|]. exfalso.
    destruct (keyword_rule SRoot r) as (w & n & Hkw & ->); [by left|done|rewrite !elem_of_cons, elem_of_nil; tauto|].
    cbn in Hl. apply lang_keyword in Hl. apply Hw. rewrite Hl. unfold is_keyword. rewrite str_chars.
    apply elem_of_list_fmap. by exists (w, n).
  - rewrite forallb_forall in H. specialize (H c (proj1 (elem_of_list_In _ _) (all_ascii_complete c))).
    apply lang_start in Hl. by rewrite Hc, Hl in H.
Qed.
(** The longest identifier at the start of a text. *)
Lemma longest_word s : ∃ u r, s = u ++ r ∧ Forall (λ c, is_word c = true) u ∧ stops is_word r.
Proof.
  induction s as [|c s (u & r & -> & Hu & Hr)]; [exists [], []; split_and!; [done|constructor|done]|].
  destruct (is_word c) eqn:E; [exists (c :: u), r; split_and!; [done|by constructor|done]|].
  exists [], (c :: u ++ r). split_and!; [done|constructor|done].
Qed.
Lemma longest_dashed s : stops is_word s → ∃ us r, s = dashed us ++ r ∧ Forall word us ∧ ident_ends r.
Proof.
  assert (∃ n, length s <= n)%nat as [n Hn] by eauto. revert s Hn.
  induction n as [|n IH]; intros s Hn Hs; [destruct s; [|cbn in Hn; lia]; exists [], []; split_and!; [done|constructor|done]|].
  destruct s as [|c s]; [exists [], []; split_and!; [done|constructor|done]|].
  destruct (decide (c = "-"%char)) as [->|Hc].
  2: { exists [], (c :: s). split_and!; [done|constructor|done]. }
  destruct (longest_word s) as (u & r & -> & Hu & Hr). destruct u as [|d u].
  { exists [], ("-"%char :: r). split_and!; [done|constructor|]. split; [done|]. intros _. by destruct r. }
  destruct (IH r) as (us & r' & -> & Hus & Hr'); [cbn in Hn; rewrite app_length in Hn; lia|done|].
  exists ((d :: u) :: us), r'. split_and!; [|by constructor|done]. rewrite dashed_cons. cbn. by rewrite <- (assoc_L (++)).
Qed.
Lemma longest_ident c s : is_alpha c = true → ∃ u us r, c :: s = u ++ dashed us ++ r ∧ identifier u us ∧ ident_ends r.
Proof.
  intros Hc. destruct (longest_word (c :: s)) as (u & r & E & Hu & Hr).
  destruct (longest_dashed r Hr) as (us & r' & -> & Hus & Hr').
  exists u, us, r'. split_and!; [done| |done]. destruct u as [|d u].
  - exfalso. cbn in E. rewrite <- E in Hr. cbn in Hr. by rewrite is_alpha_word in Hr.
  - injection E as -> _. split_and!; [done|by exists d|done].
Qed.
Lemma ident_start : forallb (λ c, implb (may_start re_ident c) (is_alpha c)) all_ascii = true.
Proof. vm_compute. reflexivity. Qed.
Lemma root_ident p s t s' st' :
  lex_step root p s = Some (t, s', st') → kind_of_token t = TIdent →
  st' = root ∧ ∃ u us, value t = u ++ dashed us ∧ identifier u us ∧ ¬ is_keyword u.
Proof.
  intros Hs Hk. pose proof Hs as (r & y & Hr & Hk' & Hl & Hne & Hv & _)%step_rule. rewrite Hk in Hk'. cbn [rules] in Hr.
  assert (pattern r = re_ident) as Hp.
  { assert (Forall (λ r, rname r = TIdent → pattern r = re_ident) core) as H.
    { unfold core. repeat (apply Forall_cons; split; [done|]). constructor. }
    rewrite Forall_forall in H. by apply H. }
  rewrite Hp in Hl. destruct (value t) as [|c v] eqn:Ev; [done|]. apply lang_start in Hl.
  pose proof ident_start as H. rewrite forallb_forall in H.
  specialize (H c (proj1 (elem_of_list_In _ _) (all_ascii_complete c))). rewrite Hl in H. cbn in H. cbn in Hv.
  destruct (longest_ident c (v ++ s') H) as (u & us & r' & E & Hid & He). rewrite <- Hv in E. rewrite E in Hs.
  destruct (decide (is_keyword u)) as [Hw|Hw].
  - exfalso. pose proof Hw as Hw'. unfold is_keyword in Hw. apply elem_of_list_fmap in Hw as ([k n] & Eu & Hkn). cbn in Eu.
    assert (u = chars k) as -> by (rewrite <- Eu; unfold str, chars; by rewrite String.list_ascii_of_string_of_list_ascii).
    rewrite (lex_keyword SRoot [] [] p k n) in Hs; [|by left|done|by apply stops_dashed].
    injection Hs as <- _ _. cbn in Hk. subst n. unfold keywords in Hkn. rewrite !elem_of_cons, elem_of_nil in Hkn. naive_solver.
  - unfold root in Hs. rewrite (lex_ident SRoot [] [] p u us r') in Hs; [|by left|done..]. injection Hs as <- _ <-.
    split; [done|]. cbn in Ev. exists u, us. done.
Qed.

(** ** Strings without escapes and interpolation *)
Lemma root_string p s t s' st' :
  lex_step root p s = Some (t, s', st') → kind_of_token t = TString →
  ∃ q, is_quote q = true ∧ value t = [q] ∧ st' = inside q.
Proof.
  intros Hs Hk. pose proof Hs as (r & y & Hr & Hk' & Hl & Hne & Hv & _)%step_rule. rewrite Hk in Hk'. cbn [rules] in Hr.
  assert (pattern r = RGroup (RSet is_quote)) as Hp.
  { assert (Forall (λ r, rname r = TString → pattern r = RGroup (RSet is_quote)) core) as H.
    { unfold core. repeat (apply Forall_cons; split; [done|]). constructor. }
    rewrite Forall_forall in H. by apply H. }
  rewrite Hp in Hl. destruct Hl as (q & Eq & _ & Hq). rewrite Eq in Hv. cbn in Hv. subst s.
  unfold root in Hs. rewrite (step_open SRoot [] [] p q s') in Hs; [|by left|done]. injection Hs as <- <-.
  by exists q.
Qed.
Definition frag_kind (k : tname) : Prop := k ∈ [TChar; TQuote; TNonExpr].
Inductive frag (t : token) : Prop :=
| frag_char c v : kind_of_token t = TChar → value t = c :: v → Forall (λ c, outside special c = true) (c :: v) → frag t
| frag_quote c : kind_of_token t = TQuote → value t = [c] → is_quote c = true → frag t
| frag_non u : kind_of_token t = TNonExpr → value t = u → u = chars "$${" ∨ u = chars "%%{" → frag t.
Fixpoint no_double (l : list token) : Prop :=
  match l with
  | a :: (b :: _) as l' => ¬ (kind_of_token a = TChar ∧ kind_of_token b = TChar) ∧ no_double l'
  | _ => True
  end.
Lemma step_run q st p c v d s :
  is_quote q = true → Forall (λ c, outside special c = true) (c :: v) → outside special d = false →
  lex_step ((SString, [q]) :: st) p ((c :: v) ++ d :: s) = Some (Token TChar (c :: v) p, d :: s, (SString, [q]) :: st).
Proof.
  intros Hq Hv Hd.
  destruct (head_plus_rnot special (Spot None ((c :: v) ++ d :: s) None) c v d s) as (bf & Hf); [done..|].
  erewrite (lex_step_some st (SString, [q]) p _ (Rule TChar (RPlus (RNot special)) Stay) (Spot bf (d :: s) None) (c :: v)); [done|..|done|done].
  apply (first_match_dead (rules (SString, [q])) 7 [c] (v ++ d :: s)); [|done|done].
  assert (∀ c, implb (outside special c) (forallb (λ r, dead (pattern r) [c]) (take 7 (rules (SString, [quote])))) = true) as H1
    by (apply for_all_ascii; vm_compute; reflexivity).
  assert (∀ c, implb (outside special c) (forallb (λ r, dead (pattern r) [c]) (take 7 (rules (SString, [apostrophe])))) = true) as H2
    by (apply for_all_ascii; vm_compute; reflexivity).
  apply Forall_cons in Hv as [Hc _]. specialize (H1 c). specialize (H2 c). rewrite Hc in H1, H2.
  destruct (quote_cases q Hq) as [-> | ->]; [exact H1|exact H2].
Qed.
(** The rules of a kind inside a string. *)
Lemma inside_rule q p s t s' st' :
  lex_step (inside q) p s = Some (t, s', st') →
  ∃ y, s = value t ++ s' ∧ value t ≠ [] ∧ s' = rest y ∧
  match kind_of_token t with
  | TStringEnd => value t = [q] ∧ st' = root
  | TChar => find (RPlus (RNot special)) s = Some y ∧ st' = inside q
  | TQuote => lang (RSet is_quote) (value t) ∧ st' = inside q
  | TNonExpr => lang re_non_expr (value t) ∧ st' = inside q
  | _ => True
  end.
Proof.
  intros (r & y & Hr & Hk & Hl & Hne & Hv & -> & Hf & Hs)%step_rule. exists y. split_and!; [done|done|done|]. rewrite Hk.
  cbn [rules] in Hr. rewrite !elem_of_cons, elem_of_nil in Hr.
  destruct Hr as [->|[->|[->|[->|[->|[->|[->|[->|[]]]]]]]]]; try done.
  cbn in *. split; [|done]. destruct Hl as (q' & -> & _ & Hq'). by apply Ascii.eqb_eq in Hq' as ->.
Qed.
Lemma inside_end q p s ts st' p' s' frs c us :
  lexes (inside q) p s ts st' p' s' → elide ts = frs ++ c :: us → Forall (λ t, frag_kind (kind_of_token t)) frs →
  kind_of_token c = TStringEnd → ∃ s1 s2, s = s1 ++ q :: s2.
Proof.
  intros H E Hf Hc. revert p s ts H E. induction Hf as [|t frs Ht Hf IH]; intros p s ts H E.
  - destruct ts as [|a ts]; [done|]. apply lexes_cons_inv in H as (s1 & st1 & Hs & H).
    unfold elide in E. rewrite filter_cons, decide_True in E by (by eapply no_white_inside). injection E as -> E.
    apply inside_rule in Hs as (y & Hv & _ & _ & Hk). rewrite Hc in Hk. destruct Hk as [Hk _]. rewrite Hk in Hv.
    by exists [], s1.
  - destruct ts as [|a ts]; [done|]. apply lexes_cons_inv in H as (s1 & st1 & Hs & H).
    unfold elide in E. rewrite filter_cons, decide_True in E by (by eapply no_white_inside). injection E as -> E.
    fold (elide ts) in E. apply inside_rule in Hs as (y & Hv & _ & _ & Hk).
    assert (st1 = inside q) as ->.
    { unfold frag_kind in Ht. rewrite !elem_of_cons, elem_of_nil in Ht. destruct Ht as [Ht|[Ht|[Ht|[]]]]; rewrite Ht in Hk; by destruct Hk. }
    destruct (IH _ _ _ H E) as (s2 & s3 & ->). exists (value t ++ s2), s3. by rewrite Hv, <- (assoc_L (++)).
Qed.
Lemma run_at_special d s1 s2 : outside special d = false →
  ∃ v e r, s1 ++ d :: s2 = v ++ e :: r ∧ Forall (λ c, outside special c = true) v ∧ outside special e = false.
Proof.
  intros Hd. destruct (run_of_spec special (s1 ++ d :: s2)) as (E & Hv & Hr).
  destruct (snd (run_of special (s1 ++ d :: s2))) as [|e r] eqn:Er.
  - exfalso. rewrite app_nil_r in E. rewrite <- E in Hv. apply Forall_app in Hv as [_ Hv]. apply Forall_cons in Hv as [Hv _]. congruence.
  - by eexists _, e, r.
Qed.
Lemma inside_frags q p s ts st' p' s' frs c us :
  is_quote q = true → lexes (inside q) p s ts st' p' s' → elide ts = frs ++ c :: us →
  Forall (λ t, frag_kind (kind_of_token t)) frs → kind_of_token c = TStringEnd →
  Forall frag frs ∧ no_double frs ∧ value c = [q] ∧ from root us ∧
  match frs, s with t :: _, d :: _ => kind_of_token t = TChar → outside special d = true | _, _ => True end.
Proof.
  intros Hq H E Hf Hc. revert p s ts H E. induction Hf as [|t frs Ht Hf IH]; intros p s ts H E.
  - destruct ts as [|a ts]; [done|]. apply lexes_cons_inv in H as (s1 & st1 & Hs & H).
    unfold elide in E. rewrite filter_cons, decide_True in E by (by eapply no_white_inside). injection E as -> E.
    apply inside_rule in Hs as (y & Hv & _ & _ & Hk). rewrite Hc in Hk. destruct Hk as [Hk ->].
    split_and!; [constructor|done|done| |done]. by exists (advance p (value c)), s1, ts, st', p', s'.
  - pose proof (inside_end q p s ts st' p' s' (t :: frs) c us H E ltac:(by constructor) Hc) as (sa & sb & Esp).
    destruct ts as [|a ts]; [done|]. apply lexes_cons_inv in H as (s1 & st1 & Hs & H).
    unfold elide in E. rewrite filter_cons, decide_True in E by (by eapply no_white_inside). injection E as -> E.
    fold (elide ts) in E. pose proof Hs as (y & Hv & Hne & Hy & Hk)%inside_rule.
    assert (st1 = inside q) as ->.
    { unfold frag_kind in Ht. rewrite !elem_of_cons, elem_of_nil in Ht. destruct Ht as [Ht|[Ht|[Ht|[]]]]; rewrite Ht in Hk; by destruct Hk. }
    destruct (IH _ _ _ H E) as (I1 & I2 & I3 & I4 & I5).
    unfold frag_kind in Ht. rewrite !elem_of_cons, elem_of_nil in Ht. destruct Ht as [Ht|[Ht|[Ht|[]]]]; rewrite Ht in Hk.
    + destruct Hk as [Hk _]. destruct (quote_special q Hq) as (Hqs & _ & _).
      destruct (run_at_special q sa sb Hqs) as (v & e & r & Er & Hrun & He). rewrite <- Esp in Er.
      assert (∃ c0 v0, v = c0 :: v0) as (c0 & v0 & ->).
      { destruct v as [|c0 v0]; [exfalso|by eexists _, _]. cbn in Er. rewrite Er in Hk. apply find_elem in Hk. apply rcat_matches in Hk as (z & Hz & _).
        apply rnot_matches in Hz as (c1 & s3 & E3 & Ho & _). cbn in E3. injection E3 as <- _. congruence. }
      rewrite Er in Hs. unfold inside in Hs. rewrite (step_run q root p c0 v0 e r Hq Hrun He) in Hs. injection Hs as Ht' Es1.
      assert (value t = c0 :: v0) as Ev by (by rewrite <- Ht').
      assert (frag t) as Hft by (by eapply frag_char).
      split_and!; try done; [by constructor|..].
      * destruct frs as [|t2 frs]; [done|]. cbn. split; [|done]. intros [_ H2]. rewrite <- Es1 in I5. specialize (I5 H2). congruence.
      * rewrite Er. cbn. apply Forall_cons in Hrun as [? _]. done.
    + destruct Hk as [(c0 & Ec0 & _ & Hc0) _]. split_and!; try done; [constructor; [by eapply frag_quote|done]| |].
      * destruct frs; [done|]. split; [|done]. intros [? _]. congruence.
      * destruct s; [done|]. congruence.
    + destruct Hk as [Hk _]. split_and!; try done; [constructor; [eapply frag_non; [done|done|]|done]| |].
      * destruct Hk as [Hk|Hk]; apply lang_text in Hk; [by left|by right].
      * destruct frs; [done|]. split; [|done]. intros [? _]. congruence.
      * destruct s; [done|]. congruence.
Qed.
Lemma from_string o frs c us :
  from root (o :: frs ++ c :: us) → kind_of_token o = TString → Forall (λ t, frag_kind (kind_of_token t)) frs →
  kind_of_token c = TStringEnd →
  ∃ q, is_quote q = true ∧ value o = [q] ∧ Forall frag frs ∧ no_double frs ∧ value c = [q] ∧ from root us.
Proof.
  intros H Ho Hf Hc. apply from_root_cons in H as (p & s & s' & st' & Hs & p1 & s1 & ts & st2 & p2 & s2 & H & E).
  apply root_string in Hs as (q & Hq & Hv & ->); [|done].
  destruct (inside_frags _ _ _ _ _ _ _ _ _ _ Hq H E Hf Hc) as (H1 & H2 & H3 & H4 & _). by exists q.
Qed.

(** ** Printed texts *)
(** In code, in front of [z], the text [s] is read as tokens like [us]. *)
Definition respells (us : list token) (s z : text) : Prop :=
  ∀ p, ∃ ts p', lexes root p (s ++ z) ts root p' z ∧ Forall2 alike us (elide ts).
Lemma respells_nil z : respells [] [] z.
Proof. intros p. exists [], p. split; constructor. Qed.
Lemma elide_app ts us : elide (ts ++ us) = elide ts ++ elide us.
Proof. apply filter_app. Qed.
Lemma respells_app us vs s1 s2 z :
  respells us s1 (s2 ++ z) → respells vs s2 z → respells (us ++ vs) (s1 ++ s2) z.
Proof.
  intros H1 H2 p. destruct (H1 p) as (ts1 & p1 & L1 & A1). destruct (H2 p1) as (ts2 & p2 & L2 & A2).
  exists (ts1 ++ ts2), p2. split.
  - eapply lexes_app; [|exact L2]. by rewrite <- (assoc_L (++)).
  - rewrite elide_app. by apply Forall2_app.
Qed.
Lemma respells_step t s z :
  (∀ p, ∃ t', lex_step root p (s ++ z) = Some (t', z, root) ∧ alike t t' ∧ kind_of_token t' ≠ TWhitespace) →
  respells [t] s z.
Proof.
  intros H p. destruct (H p) as (t' & L & A & K). exists [t'], (advance p (value t')). split.
  - econstructor; [exact L|constructor].
  - unfold elide. rewrite filter_cons, decide_True by done. constructor; [done|constructor].
Qed.
Definition blank (c : ascii) : bool := Ascii.eqb c tab || Ascii.eqb c " ".
Lemma respells_space z : stops blank z → respells [] (chars " ") z.
Proof.
  intros Hz p. exists [Token TWhitespace (chars " ") p], (advance p (chars " ")). split; [|constructor].
  set (r := Rule TWhitespace (RPlus (RSet blank)) Stay).
  pose proof (head_plus_set blank (Spot None (chars " " ++ z) None) " "%char [] z ltac:(by repeat constructor) Hz eq_refl) as Hf.
  econstructor; [|constructor]. unfold root.
  erewrite (lex_step_some [] (SRoot, []) p _ r (Spot (last_or None [" "%char]) z None) (chars " ")); [done|..|done|done].
  apply (first_match_dead (rules (SRoot, [])) 46 (chars " ") z); [by vm_compute|done|exact Hf].
Qed.
Lemma respells_op o k t z :
  (o, k) ∈ operators → kind_of_token t = k → value t = chars o →
  match z with c :: _ => extends o c = false | [] => True end → respells [t] (chars o) z.
Proof.
  intros Ho Hk Hv Hz. apply respells_step. intros p. exists (Token k (chars o) p). split_and!.
  - apply lex_operator; [done|by left|done|done].
  - by apply alike_same.
  - intros E. cbn in E. subst k. rewrite E in Ho. apply text_of_op_spec in Ho. by vm_compute in Ho.
Qed.
Lemma respells_ident t u us z :
  kind_of_token t = TIdent → value t = u ++ dashed us → identifier u us → ¬ is_keyword u → ident_ends z →
  respells [t] (value t) z.
Proof.
  intros Hk Hv Hid Hw Hz. apply respells_step. intros p. exists (Token TIdent (u ++ dashed us) p). split_and!.
  - rewrite Hv, <- (assoc_L (++)). apply lex_ident; [by left|done..].
  - by apply alike_same.
  - done.
Qed.
Lemma respells_number t src n z :
  kind_of_token t = TNumber → number_text (value t) → capture_number (value t) = Some (src, n) → number_ends z →
  respells [t] src z.
Proof.
  intros Hk Hv Hc Hz. pose proof (capture_text _ _ _ Hv Hc) as Ht.
  apply respells_step. intros p. exists (Token TNumber src p). split_and!; [by apply lex_number; [left|..]| |done].
  apply (alike_number _ _ src n); try done. cbn.
  assert (src = normalise (value t)) as ->.
  { unfold capture_number in Hc. destruct (parse_number _); [|done]. by injection Hc as <- <-. }
  revert Hc. unfold capture_number. by rewrite (proj2 (proj2 (p34 (value t)))).
Qed.

(** A string without escapes and interpolation, written with double quotes. *)
Lemma respells_frags frs z p :
  Forall frag frs → no_double frs → Forall (λ t, quote ∉ value t) frs →
  ∃ ts p', lexes (inside quote) p (text_of frs ++ quote :: z) ts (inside quote) p' (quote :: z) ∧
    Forall2 alike frs ts ∧ Forall (λ t, kind_of_token t ≠ TWhitespace) ts.
Proof.
  intros Hf. revert p. induction Hf as [|t frs Ht Hf IH]; intros p Hd Hq.
  { exists [], p. split_and!; constructor. }
  apply Forall_cons in Hq as [Hq Hq']. assert (no_double frs) as Hd' by (destruct frs; [done|apply Hd]).
  assert (∃ t', lex_step (inside quote) p (value t ++ text_of frs ++ quote :: z) =
    Some (t', text_of frs ++ quote :: z, inside quote) ∧ alike t t' ∧ kind_of_token t' ≠ TWhitespace) as (t' & L & A & K).
  { destruct Ht as [c v Hk Hv Hc|c Hk Hv Hc|u Hk Hv Hu].
    - exists (Token TChar (c :: v) p). split_and!; [|by apply alike_same|done]. rewrite Hv.
      assert (∃ d r, text_of frs ++ quote :: z = d :: r ∧ outside special d = false) as (d & r & -> & Hds).
      { destruct frs as [|t2 frs]; [by exists quote, z|]. destruct Hd as [Hd _]. apply Forall_cons in Hf as [Hf _].
        change (text_of (t2 :: frs)) with (value t2 ++ text_of frs).
        destruct Hf as [c2 v2 Hk2 Hv2 Hc2|c2 Hk2 Hv2 Hc2|u2 Hk2 Hv2 Hu2].
        - by destruct Hd.
        - rewrite Hv2. eexists c2, _. split; [done|]. by apply quote_special in Hc2 as (? & _).
        - rewrite Hv2. destruct Hu2 as [-> | ->]; by eexists _, _. }
      by apply step_run.
    - exists (Token TQuote [c] p). split_and!; [|by apply alike_same|done]. rewrite Hv in *.
      apply step_quote; [done|done|]. intros ->. apply Hq. by left.
    - exists (Token TNonExpr u p). split_and!; [|by apply alike_same|done]. rewrite Hv.
      by apply step_non_expr. }
  destruct (IH (advance p (value t')) Hd' Hq') as (ts & p' & L' & A' & K'). exists (t' :: ts), p'. split_and!.
  - change (text_of (t :: frs)) with (value t ++ text_of frs). rewrite <- (assoc_L (++)). by econstructor.
  - by constructor.
  - by constructor.
Qed.
Lemma respells_string o frs c q z :
  kind_of_token o = TString → kind_of_token c = TStringEnd → is_quote q = true → value o = [q] → value c = [q] →
  Forall frag frs → no_double frs → Forall (λ t, quote ∉ value t) frs →
  respells (o :: frs ++ [c]) (quote :: text_of frs ++ [quote]) z.
Proof.
  intros Ho Hc Hq Hvo Hvc Hf Hd Hn p.
  destruct (respells_frags frs z (advance p [quote]) Hf Hd Hn) as (ts & p' & L & A & K).
  exists (Token TString [quote] p :: ts ++ [Token TStringEnd [quote] p']), (advance p' [quote]). split.
  - replace ((quote :: text_of frs ++ [quote]) ++ z) with (quote :: text_of frs ++ quote :: z) by (cbn; by rewrite <- (assoc_L (++))).
    econstructor; [apply step_open; [by left|done]|]. eapply lexes_app; [exact L|].
    econstructor; [by apply step_end|]. constructor.
  - unfold elide. rewrite filter_cons, decide_True by done. rewrite filter_app.
    replace (filter (λ t, kind_of_token t ≠ TWhitespace) ts) with ts.
    2: { clear -K. induction K as [|x l Hx K IH]; [done|]. rewrite filter_cons, decide_True by done. by rewrite <- IH. }
    constructor; [apply (alike_quote _ _ TString q quote); try done; repeat constructor|]. apply Forall2_app; [done|].
    constructor; [|constructor]. apply (alike_quote _ _ TStringEnd q quote); try done; repeat constructor.
Qed.
(** A line feed. *)
Lemma respells_lf t : kind_of_token t = TLF → value t = [lf] → respells [t] [lf] [].
Proof.
  intros Hk Hv. apply respells_step. intros p. exists (Token TLF [lf] p). split_and!; [|by apply alike_same|done]. reflexivity.
Qed.
Lemma root_lf p s t s' st' : lex_step root p s = Some (t, s', st') → kind_of_token t = TLF → ∃ c, value t = [c].
Proof.
  intros (r & y & Hr & Hk' & Hl & _)%step_rule Hk. rewrite Hk in Hk'. cbn [rules] in Hr.
  assert (Forall (λ r, rname r = TLF → ∃ p, pattern r = RSet p) core) as H.
  { unfold core. repeat (apply Forall_cons; split; [first [done|intros _; by eexists]|]). constructor. }
  rewrite Forall_forall in H. destruct (H r Hr (eq_sym Hk')) as [q Hq]. rewrite Hq in Hl. destruct Hl as (c & Hl & _). by exists c.
Qed.

(** ** Tokens at the start of code *)
Lemma from_lit o k t us :
  from root (t :: us) → (o, k) ∈ lits → value t = chars o → kind_of_token t = k ∧ from root us.
Proof. intros (p & s & s' & st' & H & Hf)%from_root_cons Ho Hv. destruct (root_lit _ _ _ _ _ _ _ H Ho Hv) as [? ->]. done. Qed.
Lemma from_op o k t us :
  from root (t :: us) → (o, k) ∈ operators → kind_of_token t = k → value t = chars o ∧ from root us.
Proof. intros (p & s & s' & st' & H & Hf)%from_root_cons Ho Hv. destruct (root_op _ _ _ _ _ _ _ H Ho Hv) as [? ->]. done. Qed.
Lemma from_ident t us :
  from root (t :: us) → kind_of_token t = TIdent →
  from root us ∧ ∃ u vs, value t = u ++ dashed vs ∧ identifier u vs ∧ ¬ is_keyword u.
Proof. intros (p & s & s' & st' & H & Hf)%from_root_cons Hk. destruct (root_ident _ _ _ _ _ H Hk) as [-> ?]. done. Qed.
Lemma from_word t us c v :
  from root (t :: us) → value t = c :: v → is_alpha c = true → ¬ is_keyword (c :: v) → kind_of_token t = TIdent.
Proof. intros (p & s & s' & st' & H & Hf)%from_root_cons Hv Hc Hk. by eapply root_word. Qed.
Lemma from_number t us :
  from root (t :: us) → kind_of_token t = TNumber → number_text (value t) ∧ from root us.
Proof.
  intros (p & s & s' & st' & H & Hf)%from_root_cons Hk. split; [by eapply number_step|].
  apply step_rule in H as (r & y & Hr & Hk' & _ & _ & _ & -> & _ & _). rewrite Hk in Hk'. cbn [rules] in Hr.
  assert (Forall (λ r, rname r = TNumber → act r = Stay) core) as H.
  { unfold core. repeat (apply Forall_cons; split; [done|]). constructor. }
  rewrite Forall_forall in H. by rewrite (H r Hr (eq_sym Hk')) in Hf.
Qed.
