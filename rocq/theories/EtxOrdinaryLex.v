(** * The texts of the tokens of a file *)
From stdpp Require Import base list option strings.
From Coq Require Import Ascii Lia.
From Verif Require Import GoBase EtxAst EtxHeap EtxHeapSpec EtxText EtxTextFacts EtxLex EtxLexSpec EtxLexFacts EtxLexNest EtxLexOps
  EtxLexIdent EtxLexString EtxUtil EtxUtilProofs EtxNumProofs EtxGram EtxParse EtxParseLexed EtxLayout EtxRelex EtxWriteSpec.

(** ** Runs are as long as possible *)
Definition stuck (p : ascii → bool) (s : text) : Prop := match s with c :: _ => outside p c = false | [] => True end.
Lemma star_some r n x : ∃ y, head (star r n x) = Some y.
Proof. destruct n; [by eexists|]. cbn. destruct (flat_map _ _ ++ [x]) eqn:E; [by apply app_nil in E as [_ E]|by eexists]. Qed.
Lemma star_greedy p n x y : length (rest x) ≤ n → head (star (RNot p) n x) = Some y → stuck p (rest y).
Proof.
  revert x. induction n as [|n IH]; intros x Hn H.
  - cbn in H. injection H as <-. by destruct (rest x); [|cbn in Hn; lia].
  - destruct (rest x) as [|c s] eqn:E.
    + rewrite head_star_stop in H by (cbn; by rewrite E). injection H as <-. by rewrite E.
    + destruct (outside p c) eqn:Ec.
      * cbn [star] in H. rewrite (rnot_some p x c s E Ec) in H. cbn [flat_map] in H. rewrite app_nil_r in H.
        destruct (star_some (RNot p) n (Spot (Some c) (drop (rune_width (c :: s)) (c :: s)) (group x))) as [z Hz].
        assert (y = z) as -> by (destruct (star _ n _); [done|]; cbn in H, Hz; congruence). eapply IH; [|exact Hz]. cbn [rest].
        rewrite drop_length. pose proof (rune_width_pos (c :: s) ltac:(done)). cbn [length] in *. lia.
      * rewrite head_star_stop in H; [injection H as <-; by rewrite E|]. cbn [matches]. rewrite E. unfold outside in Ec. by destruct (is_ascii_byte c && p c).
Qed.

(** ** One token *)
Definition plain_token (t : token) : Prop :=
  value t ≠ [] ∧
  (∀ o, text_of_op (kind_of_token t) = Some o → value t = chars o) ∧
  match kind_of_token t with
  | TIdent => name (value t)
  | TNumber => number_text (value t)
  | TSingleLineComment => remark (value t)
  | TLF => value t = [lf] ∨ value t = [cr]
  | TChar => Forall (λ c, outside special c = true) (value t)
  | TQuote => value t = [quote] ∨ value t = [apostrophe]
  | TNonExpr => value t = chars "$${" ∨ value t = chars "%%{"
  | _ => True
  end.
Lemma code_core m g r : code_state m → r ∈ rules (m, g) → r ∈ core ∨ rname r = TExprEnd.
Proof. intros [-> | ->]; cbn [rules]; [by left|]. intros [->|H]%elem_of_cons; [by right|by left]. Qed.
(** The state of a kind of token. *)
Lemma rule_state m g r : r ∈ rules (m, g) →
  match rname r with
  | TChar => m = SString ∧ r = Rule TChar (RPlus (RNot special)) Stay
  | TQuote => m = SString ∧ r = Rule TQuote (RSet is_quote) Stay
  | TNonExpr => r = Rule TNonExpr re_non_expr Stay
  | TUnicode | TEscaped | TStringEnd | TExpr | TDirective | TUnicodeLong | TUnicodeShort | THeredocEnd | TEOL | TBody | TExprEnd => True
  | _ => code_state m ∧ r ∈ core
  end.
Proof.
  assert (Hc : Forall (λ r, match rname r with
    | TChar | TQuote | TNonExpr | TUnicode | TEscaped | TStringEnd | TExpr | TDirective | TUnicodeLong | TUnicodeShort
    | THeredocEnd | TEOL | TBody | TExprEnd => False | _ => True end) core).
  { unfold core. repeat (apply Forall_cons; split; [exact I|]). constructor. }
  rewrite Forall_forall in Hc. intros H. destruct m; cbn [rules] in H.
  1, 3: assert (r ∈ core ∨ rname r = TExprEnd) as [Hr|Hr];
    [first [by left|by apply elem_of_cons in H as [->|H]; [right|left]]| |by rewrite Hr];
    specialize (Hc r Hr); destruct (rname r); try done; (split; [|done]); (by left) || by right.
  all: rewrite !elem_of_cons, elem_of_nil in H; repeat (destruct H as [->|H]; [try exact I; try (split; reflexivity); reflexivity|]); done.
Qed.
Lemma core_pattern (k : tname) (r0 : re) r :
  Forall (λ r, rname r = k → pattern r = r0) core → r ∈ core → rname r = k → pattern r = r0.
Proof. rewrite Forall_forall. intros H. by apply H. Qed.
Ltac all_core := unfold core; repeat (apply Forall_cons; split; [try done|]); try constructor.
Lemma step_plain st p s t s' st' : lex_step st p s = Some (t, s', st') → plain_token t.
Proof.
  intros Hs. destruct st as [|[m g] st]; [done|]. pose proof Hs as (r & y & Hr & Hk & Hl & Hne & Hv & _ & Hf & Hy)%step_rule.
  split; [done|]. pose proof (rule_state _ _ _ Hr) as Hst. rewrite <- Hk in Hst. split.
  - intros o Ho. assert (r ∈ core) as Hc.
    { pose proof (text_of_op_elem _ _ Ho) as He. destruct (kind_of_token t); try (by destruct Hst); vm_compute in Ho; done. }
    rewrite Hk in Ho. destruct (core_ops _ _ _ Hc (text_of_op_elem _ _ Ho) eq_refl) as [E _]. rewrite E in Hl. by apply lang_text in Hl.
  - destruct (kind_of_token t) eqn:Et; try exact I.
    + destruct Hst as [_ Hc].
      rewrite (core_pattern TSingleLineComment (RCat (RAlt (RLit "//") (RLit "#")) (RStar (RNot (Ascii.eqb lf)))) r) in Hf by (done || all_core).
      apply find_elem, rcat_matches in Hf as (z & Hz & Hy'). rewrite matches_star in Hy'. apply star_rnot_inv in Hy' as (w & Ew & Hw).
      assert (∃ v0, s = v0 ++ rest z ∧ (v0 = chars "//" ∨ v0 = chars "#")) as (v0 & E0 & Hv0).
      { apply matches_lang in Hz as (v0 & E0 & Hz). cbn in E0. exists v0. split; [done|]. destruct Hz as [Hz|Hz]; apply lang_text in Hz; auto. }
      assert (value t = v0 ++ w) as ->.
      { apply (app_inv_tail s'). rewrite <- Hv, E0, Ew, Hy, (assoc_L (++)). done. }
      split; [exists w; destruct Hv0 as [-> | ->]; auto|]. rewrite elem_of_app. intros [H|H].
      * destruct Hv0 as [-> | ->]; revert H; apply (bool_decide_unpack (¬ _)); by vm_compute.
      * rewrite Forall_forall in Hw. specialize (Hw lf H). done.
    + destruct Hst as [Hm Hc]. destruct (value t) as [|c v] eqn:Ev; [done|].
      rewrite (core_pattern TIdent re_ident r) in Hl by (done || all_core).
      apply lang_start in Hl. pose proof ident_start as H. rewrite forallb_forall in H.
      specialize (H c (proj1 (elem_of_list_In _ _) (all_ascii_complete c))). rewrite Hl in H. cbn in H. cbn in Hv.
      destruct (longest_ident c (v ++ s') H) as (u & us & r' & E & Hid & He). rewrite <- Hv in E. rewrite E in Hs.
      destruct (decide (is_keyword u)) as [Hw|Hw].
      * exfalso. unfold is_keyword in Hw. apply elem_of_list_fmap in Hw as ([k n] & Eu & Hkn). cbn in Eu.
        assert (u = chars k) as -> by (rewrite <- Eu; unfold str, chars; by rewrite String.list_ascii_of_string_of_list_ascii).
        rewrite (lex_keyword m g st p k n) in Hs; [|done|done|by apply stops_dashed].
        injection Hs as <- _ _. cbn in Et. subst n. unfold keywords in Hkn. rewrite !elem_of_cons, elem_of_nil in Hkn. naive_solver.
      * rewrite (lex_ident m g st p u us r') in Hs; [|done..]. injection Hs as <- _ _. cbn in Ev. rewrite <- Ev. by exists u, us.
    + by eapply number_step.
    + destruct Hst as [_ Hc]. rewrite (core_pattern TLF (RSet (λ c, Ascii.eqb c cr || Ascii.eqb c lf)) r) in Hl by (done || all_core).
      destruct Hl as (c & -> & _ & H). apply orb_true_iff in H as [H|H]; apply Ascii.eqb_eq in H as ->; auto.
    + destruct Hst as [_ ->]. cbn [pattern] in Hl. destruct Hl as (c & -> & _ & H). unfold is_quote in H.
      apply orb_true_iff in H as [H|H]; apply Ascii.eqb_eq in H as ->; auto.
    + subst r. destruct Hl as [Hl|Hl]; apply lang_text in Hl; auto.
    + destruct Hst as [_ ->]. cbn [pattern] in Hf. apply find_elem, plus_rnot_inv in Hf as (v & E & Hf). cbn in E.
      assert (value t = v) as -> by (apply (app_inv_tail s'); rewrite <- Hv, E, Hy; done). done.
Qed.

(** ** Two tokens *)
(** After a run of text comes neither another one nor white space. *)
Definition beside (a b : token) : Prop := kind_of_token a = TChar → kind_of_token b ≠ TChar ∧ kind_of_token b ≠ TWhitespace.
Lemma steps_beside st p s a s1 st1 p1 b s2 st2 :
  lex_step st p s = Some (a, s1, st1) → lex_step st1 p1 s1 = Some (b, s2, st2) → beside a b.
Proof.
  intros H1 H2 Ha. destruct st as [|[m g] st]; [done|]. pose proof H1 as (r & y & Hr & Hk & _ & _ & _ & Hst & Hf & Hy)%step_rule.
  pose proof (rule_state _ _ _ Hr) as Hs. rewrite <- Hk, Ha in Hs. destruct Hs as [-> ->]. cbn in Hst. subst st1.
  pose proof H2 as (r2 & y2 & Hr2 & Hk2 & Hl2 & Hne2 & Hv2 & _ & Hf2 & _)%step_rule. pose proof (rule_state _ _ _ Hr2) as Hs2.
  rewrite <- Hk2 in Hs2. split; intros E; rewrite E in Hs2.
  - destruct Hs2 as [_ ->]. cbn [pattern] in Hf, Hf2. unfold find in Hf.
    assert (stuck special s1) as Hstuck.
    { rewrite Hy. set (x := Spot None s None) in *. change (head (flat_map (matches (RStar (RNot special))) (matches (RNot special) x)) = Some y) in Hf.
      destruct (rest x) as [|c s0] eqn:Ex; [cbn in Hf, Ex; by subst s|].
      destruct (outside special c) eqn:Ec.
      - rewrite (rnot_some special x c s0 Ex Ec) in Hf. cbn [flat_map] in Hf. rewrite app_nil_r, matches_star in Hf.
        by eapply star_greedy; [|exact Hf].
      - exfalso. apply head_elem, elem_of_list_In, in_flat_map in Hf as (z & Hz & _). apply elem_of_list_In in Hz.
        change (z ∈ matches (RNot special) x) in Hz. apply rnot_matches in Hz as (c' & s0' & Es & Ho & _). congruence. }
    apply find_elem, rcat_matches in Hf2 as (z & Hz & _). apply rnot_matches in Hz as (c & s0 & Es & Ho & _). cbn in Es.
    rewrite Es in Hstuck. cbn in Hstuck. congruence.
  - by destruct Hs2 as [[?|?] _].
Qed.
Fixpoint chained (ts : list token) : Prop := match ts with a :: (b :: _) as ts' => beside a b ∧ chained ts' | _ => True end.
Lemma lex_chained n st p s ts st' :
  lex_fuel n st p s = Ok (Lexed ts st') → Forall plain_token ts ∧ chained ts ∧
  match ts with a :: _ => ∃ s1 st1, lex_step st p s = Some (a, s1, st1) | [] => True end.
Proof.
  revert st p s ts. induction n as [|n IH]; intros st p s ts H.
  - destruct s; [|done]. injection H as <- _. repeat constructor.
  - destruct s as [|c s]; [injection H as <- _; repeat constructor|]. cbn [lex_fuel] in H.
    destruct (lex_step st p (c :: s)) as [[[t s1] st1]|] eqn:E; [|done].
    destruct (lex_fuel n st1 (advance p (value t)) s1) as [[ts1 st2|]| |] eqn:E1; [|done..]. injection H as <- ->.
    destruct (IH _ _ _ _ E1) as (H1 & H2 & H3). split_and!.
    + constructor; [by eapply step_plain|done].
    + destruct ts1 as [|b ts1]; [done|]. split; [|done]. destruct H3 as (s2 & st3 & H3). by eapply steps_beside.
    + by exists s1, st1.
Qed.
Definition no_chars (ts : list token) : Prop :=
  ∀ i a b, ts !! i = Some a → ts !! S i = Some b → ¬ (kind_of_token a = TChar ∧ kind_of_token b = TChar).
Lemma chained_elide ts : chained ts → no_chars (elide ts).
Proof.
  intros H. enough (no_chars (elide ts) ∧ (∀ a ts', ts = a :: ts' → kind_of_token a = TChar → ∀ b, head (elide ts') = Some b → kind_of_token b ≠ TChar)) by tauto.
  induction ts as [|a ts IH]; [by split; [intros i ? ? ?%lookup_nil_Some||done|done]|].
  assert (chained ts) as Hc by (destruct ts; [done|by destruct H]). destruct (IH Hc) as [I1 I2].
  assert (Hn : kind_of_token a = TChar → ∀ b, head (elide ts) = Some b → kind_of_token b ≠ TChar).
  { intros Ha b Hb. destruct ts as [|c ts]; [done|]. destruct H as [H _]. destruct (H Ha) as [H1 H2].
    unfold elide in Hb. rewrite filter_cons, decide_True in Hb by done. cbn in Hb. by injection Hb as <-. }
  split.
  - unfold elide. rewrite filter_cons. destruct (decide _); [|done]. fold (elide ts). intros [|i] x y Hx Hy [E1 E2]; cbn in Hx, Hy.
    + injection Hx as <-. apply (Hn E1 y); [|done]. by rewrite head_lookup.
    + by apply (I1 i x y).
  - intros a' ts' [= <- <-]. exact Hn.
Qed.
