(** * Indentation and the Capture methods: proofs *)
From stdpp Require Import base list option strings.
From Coq Require Import Ascii NArith ZArith Lia.
From Verif Require Import GoBase EtxHeap EtxText EtxTextFacts EtxLex EtxLexSpec EtxLexFacts EtxLexNest EtxLexOps
  EtxLexIdent EtxLexString EtxUtil EtxUtilSpec.

(** ** Lines *)
Lemma eqb_lf c : c ≠ lf → Ascii.eqb c lf = false.
Proof. intros H. by apply Ascii.eqb_neq. Qed.
Lemma lines_nonempty s : ∃ l ls, lines s = l :: ls.
Proof.
  induction s as [|c s (l & ls & IH)]; simpl; [by eexists _, _|]. rewrite IH.
  destruct (Ascii.eqb c lf); by eexists _, _.
Qed.
Lemma unlines_cons l ls : ls ≠ [] → unlines (l :: ls) = l ++ lf :: unlines ls.
Proof. by destruct ls. Qed.
Lemma unlines_head c l ls : unlines ((c :: l) :: ls) = c :: unlines (l :: ls).
Proof. by destruct ls. Qed.
Lemma unlines_lines s : unlines (lines s) = s.
Proof.
  induction s as [|c s IH]; [done|]. simpl. destruct (lines_nonempty s) as (l & ls & E).
  destruct (Ascii.eqb c lf) eqn:Ec.
  - apply Ascii.eqb_eq in Ec as ->. rewrite unlines_cons by (by rewrite E). by rewrite IH.
  - rewrite E, unlines_head in *. congruence.
Qed.
Lemma lines_plain l : lf ∉ l → lines l = [l].
Proof.
  induction l as [|c l IH]; [done|]. intros [Hc Hl]%not_elem_of_cons. simpl. rewrite eqb_lf by done. by rewrite IH.
Qed.
Lemma lines_app s t : lines (s ++ lf :: t) = lines s ++ lines t.
Proof.
  induction s as [|c s IH]; [done|]. simpl. rewrite IH. destruct (Ascii.eqb c lf); [done|].
  destruct (lines_nonempty s) as (l & ls & ->). done.
Qed.
Lemma lines_unlines ls : ls ≠ [] → Forall (λ l, lf ∉ l) ls → lines (unlines ls) = ls.
Proof.
  intros Hne H. induction H as [|l ls Hl H IH]; [done|].
  destruct ls as [|l' ls]; [by apply lines_plain|].
  change (unlines (l :: l' :: ls)) with (l ++ lf :: unlines (l' :: ls)).
  rewrite lines_app, IH by done. by rewrite lines_plain.
Qed.
Lemma lines_no_lf s : Forall (λ l, lf ∉ l) (lines s).
Proof.
  induction s as [|c s IH]; simpl; [repeat constructor; apply not_elem_of_nil|].
  destruct (Ascii.eqb c lf) eqn:Ec.
  - constructor; [apply not_elem_of_nil|done].
  - destruct (lines_nonempty s) as (l & ls & E). rewrite E in *. apply Forall_cons in IH as [H1 H2].
    constructor; [|done]. apply not_elem_of_cons. split; [|done]. intros <-. by rewrite Ascii.eqb_refl in Ec.
Qed.

(** ** indent *)
Definition indent_line (p l : text) : text := if decide (l = []) then [] else p ++ l.
Lemma indent_from_lines p s : ∀ bol l ls,
  lines s = l :: ls →
  indent_from bol p s = unlines ((if bol then indent_line p l else l) :: map (indent_line p) ls).
Proof.
  induction s as [|c s IH]; intros bol l ls E.
  - injection E as <- <-. by destruct bol.
  - simpl in E. destruct (lines_nonempty s) as (l' & ls' & E'). simpl.
    destruct (Ascii.eqb c lf) eqn:Ec.
    + apply Ascii.eqb_eq in Ec as ->. injection E as <- <-. rewrite andb_false_r. rewrite (IH true l' ls' E'). rewrite E'.
      change (unlines ((if bol then indent_line p [] else []) :: indent_line p l' :: map (indent_line p) ls'))
        with ((if bol then indent_line p [] else []) ++ lf :: unlines (indent_line p l' :: map (indent_line p) ls')).
      by destruct bol.
    + rewrite E' in E. injection E as <- <-. rewrite (IH false l' ls' E'). rewrite andb_true_r.
      destruct bol; [|by destruct (map (indent_line p) ls')]. assert (indent_line p (c :: l') = p ++ c :: l') as -> by (unfold indent_line; by rewrite decide_False).
      destruct (map (indent_line p) ls'); simpl; [done|]. by rewrite <- (assoc_L (++)).
Qed.
Lemma indent_lines s p : indent s p = unlines (map (indent_line p) (lines s)).
Proof.
  unfold indent. destruct (lines_nonempty s) as (l & ls & E). rewrite E. by rewrite (indent_from_lines p s true l ls).
Qed.
Lemma indent_line_no_lf p l : lf ∉ p → lf ∉ l → lf ∉ indent_line p l.
Proof.
  intros Hp Hl. unfold indent_line. destruct (decide _); [apply not_elem_of_nil|].
  rewrite elem_of_app. tauto.
Qed.
Lemma lines_indent s p : lf ∉ p → lines (indent s p) = map (indent_line p) (lines s).
Proof.
  intros Hp. rewrite indent_lines. apply lines_unlines.
  - by destruct (lines_nonempty s) as (l & ls & ->).
  - apply Forall_map. eapply Forall_impl; [apply lines_no_lf|]. intros l. by apply indent_line_no_lf.
Qed.

Lemma unlines_app a b : a ≠ [] → b ≠ [] → unlines (a ++ b) = unlines a ++ lf :: unlines b.
Proof.
  intros Ha Hb. induction a as [|l a IH]; [done|]. destruct a as [|l' a].
  - simpl. by destruct b.
  - change ((l :: l' :: a) ++ b) with (l :: (l' :: a) ++ b). rewrite !unlines_cons by done. rewrite IH by done.
    by rewrite <- (assoc_L (++)).
Qed.

(*P C31_indent_lines *)
Lemma p31 s p :
  indent s p = unlines (map (λ l, if decide (l = []) then [] else p ++ l) (lines s)) ∧
  unlines (lines s) = s ∧ Forall (λ l, lf ∉ l) (lines s).
Proof. split; [apply indent_lines|]. split; [apply unlines_lines|apply lines_no_lf]. Qed.
(*P C31_indent_is_undone *)
Lemma p31b s p :
  lf ∉ p →
  unlines (map (drop (length p)) (lines (indent s p))) = s ∧
  length (lines (indent s p)) = length (lines s).
Proof.
  intros Hp. rewrite lines_indent by done. split; [|by rewrite map_length].
  rewrite map_map. transitivity (unlines (lines s)); [|apply unlines_lines]. f_equal.
  rewrite <- (map_id (lines s)) at 2. apply map_ext. intros l. unfold indent_line.
  destruct (decide (l = [])) as [->|]; [by rewrite drop_nil|]. apply drop_app.
Qed.
(*P C31_indent_composes *)
Lemma p31c s t p q :
  indent (s ++ lf :: t) p = indent s p ++ lf :: indent t p ∧
  (lf ∉ p → indent (indent s p) q = indent s (q ++ p)).
Proof.
  split.
  - rewrite !indent_lines, lines_app, map_app. apply unlines_app.
    + by destruct (lines_nonempty s) as (l & ls & ->).
    + by destruct (lines_nonempty t) as (l & ls & ->).
  - intros Hp. rewrite (indent_lines (indent s p)), lines_indent, (indent_lines s), map_map by done.
    f_equal. apply map_ext. intros l. unfold indent_line. destruct (decide (l = [])) as [|Hl]; [by rewrite decide_True|].
    rewrite decide_False; [apply (assoc_L (++))|]. by intros [_ ?]%app_eq_nil.
Qed.

(** ** The texts a pattern matches *)
Fixpoint lang (r : re) (v : text) : Prop :=
  match r with
  | RSet p => ∃ c, v = [c] ∧ is_ascii_byte c = true ∧ p c = true
  | RNot _ => True
  | REps | RWordB => v = []
  | RCat r1 r2 => ∃ v1 v2, v = v1 ++ v2 ∧ lang r1 v1 ∧ lang r2 v2
  | RAlt r1 r2 => lang r1 v ∨ lang r2 v
  | RStar r | RLazy r => ∃ vs, v = concat vs ∧ Forall (lang r) vs
  | RGroup r => lang r v
  end.
Lemma matches_lang r x y : y ∈ matches r x → ∃ v, rest x = v ++ rest y ∧ lang r v.
Proof.
  revert x y. induction r as [p|p| |r1 IH1 r2 IH2|r1 IH1 r2 IH2|r IH|r IH| |r IH]; intros x y Hy.
  - apply rset_matches in Hy as (c & s & -> & Hc & Hp & ->). exists [c]. split; [done|]. by exists c.
  - simpl in *. apply (matches_steps (RNot p)) in Hy. apply rsteps_suffix in Hy as [v Hv]. by exists v.
  - apply elem_of_list_singleton in Hy as ->. by exists [].
  - apply rcat_matches in Hy as (z & Hz & Hy). apply IH1 in Hz as (v1 & -> & H1). apply IH2 in Hy as (v2 & -> & H2).
    exists (v1 ++ v2). split; [by rewrite <- (assoc_L (++))|]. simpl. by exists v1, v2.
  - simpl in Hy. apply elem_of_app in Hy as [Hy|Hy].
    + apply IH1 in Hy as (v & -> & H). exists v. split; [done|by left].
    + apply IH2 in Hy as (v & -> & H). exists v. split; [done|by right].
  - simpl in *. revert Hy. generalize (length (rest x)) as n. intros n. revert x.
    induction n as [|n IHn]; intros x Hy.
    + apply elem_of_list_singleton in Hy as ->. exists []. split; [done|]. exists []. split; [done|constructor].
    + apply elem_of_app in Hy as [Hy|Hy].
      * apply elem_of_list_In, in_flat_map in Hy as (z & Hz & Hy). apply elem_of_list_In in Hz, Hy.
        apply IH in Hz as (v1 & -> & H1). apply IHn in Hy as (v2 & -> & vs & -> & Hvs).
        exists (v1 ++ concat vs). split; [by rewrite <- (assoc_L (++))|]. exists (v1 :: vs). split; [done|by constructor].
      * apply elem_of_list_singleton in Hy as ->. exists []. split; [done|]. exists []. split; [done|constructor].
  - simpl in *. revert Hy. generalize (length (rest x)) as n. intros n. revert x.
    induction n as [|n IHn]; intros x Hy.
    + apply elem_of_list_singleton in Hy as ->. exists []. split; [done|]. exists []. split; [done|constructor].
    + apply elem_of_cons in Hy as [->|Hy].
      * exists []. split; [done|]. exists []. split; [done|constructor].
      * apply elem_of_list_In, in_flat_map in Hy as (z & Hz & Hy). apply elem_of_list_In in Hz, Hy.
        apply IH in Hz as (v1 & -> & H1). apply IHn in Hy as (v2 & -> & vs & -> & Hvs).
        exists (v1 ++ concat vs). split; [by rewrite <- (assoc_L (++))|]. exists (v1 :: vs). split; [done|by constructor].
  - simpl in *. destruct (xorb _ _); [|by apply elem_of_nil in Hy]. apply elem_of_list_singleton in Hy as ->. by exists [].
  - apply elem_of_list_fmap in Hy as (z & -> & Hz). apply IH in Hz as (v & -> & H). by exists v.
Qed.
Lemma lang_star_set p v : lang (RStar (RSet p)) v → Forall (λ c, p c = true) v.
Proof.
  intros (vs & -> & H). induction H as [|u vs (c & -> & _ & Hc) H IH]; simpl; [constructor|]. by constructor.
Qed.
Lemma lang_plus_set p v : lang (RPlus (RSet p)) v → v ≠ [] ∧ Forall (λ c, p c = true) v.
Proof.
  intros (v1 & v2 & -> & (c & -> & _ & Hc) & H%lang_star_set). split; [done|by constructor].
Qed.
Lemma lang_text g v : lang (RText g) v → v = g.
Proof.
  revert v. induction g as [|c g IH]; intros v; [done|]. destruct g as [|d g].
  - intros (c' & -> & _ & H). by apply Ascii.eqb_eq in H as ->.
  - intros (v1 & v2 & -> & (c' & -> & _ & H) & H2%IH). apply Ascii.eqb_eq in H as ->. by rewrite H2.
Qed.

(** The rule of a kind of token. *)
Lemma rule_of_kind m g r :
  r ∈ rules (m, g) →
  (rname r = THeredoc → r = Rule THeredoc re_heredoc (Push SHeredoc)) ∧
  (rname r = TNumber → r = Rule TNumber re_number Stay).
Proof.
  assert (Hc : Forall (λ r, (rname r = THeredoc → r = Rule THeredoc re_heredoc (Push SHeredoc)) ∧
    (rname r = TNumber → r = Rule TNumber re_number Stay)) core).
  { unfold core. repeat (apply Forall_cons; split; [by split|]). constructor. }
  intros Hr. destruct m.
  - rewrite Forall_forall in Hc. by apply Hc.
  - simpl in Hr. repeat (apply elem_of_cons in Hr as [->|Hr]; [by split|]). by apply elem_of_nil in Hr.
  - simpl in Hr. apply elem_of_cons in Hr as [->|Hr]; [by split|]. rewrite Forall_forall in Hc. by apply Hc.
  - simpl in Hr. repeat (apply elem_of_cons in Hr as [->|Hr]; [by split|]). by apply elem_of_nil in Hr.
  - simpl in Hr. repeat (apply elem_of_cons in Hr as [->|Hr]; [by split|]). by apply elem_of_nil in Hr.
Qed.
(** Every token was read by a step of the lexer. *)
Lemma token_step n st p s l t :
  lex_fuel n st p s = Ok l → t ∈ tokens_of l →
  ∃ st1 p1 s1 s2 st2, lex_step st1 p1 s1 = Some (t, s2, st2).
Proof.
  revert st p s l. induction n as [|n IH]; intros st p s l H Ht.
  - destruct s; [|done]. injection H as <-. by apply elem_of_nil in Ht.
  - destruct s as [|c s]; [injection H as <-; by apply elem_of_nil in Ht|]. cbn [lex_fuel] in H.
    destruct (lex_step st p (c :: s)) as [[[t' s'] st']|] eqn:E; [|injection H as <-; by apply elem_of_nil in Ht].
    destruct (lex_fuel n st' (advance p (value t')) s') as [l'| |] eqn:E'; [|done..]. injection H as <-.
    assert (t = t' ∨ t ∈ tokens_of l') as [->|Ht'].
    { destruct l'; simpl in Ht; by apply elem_of_cons in Ht. }
    + by eexists _, _, _, _, _.
    + by eapply IH.
Qed.

(** ** Booleans and heredoc delimiters *)
(*P C35_booleans *)
Lemma p35 v : v = chars "true" ∨ v = chars "false" → format_bool (capture_bool v) = v.
Proof. by intros [-> | ->]. Qed.

Lemma word_prefix_app u r : Forall (λ c, is_word c = true) u → stops is_word r → word_prefix (u ++ r) = (u, r).
Proof.
  intros Hu Hr. induction Hu as [|c u Hc Hu IH]; simpl.
  - destruct r as [|c r]; [done|]. simpl in *. by rewrite Hr.
  - by rewrite Hc, IH.
Qed.
Lemma capture_delimiter_some (dash : bool) u :
  word u → capture_delimiter (chars "<<" ++ (if dash then chars "-" else []) ++ u ++ [lf]) = Some (dash, u).
Proof.
  intros [Hne Hu]. destruct u as [|c u]; [done|]. pose proof Hu as [Hc _]%Forall_cons.
  assert (word_prefix ((c :: u) ++ [lf]) = (c :: u, [lf])) as Hw by (by apply word_prefix_app).
  destruct dash.
  - cbn [capture_delimiter chars app String.list_ascii_of_string]. cbn [Ascii.eqb Bool.eqb andb].
    change (c :: u ++ [lf]) with ((c :: u) ++ [lf]). rewrite Hw. done.
  - cbn [capture_delimiter chars app String.list_ascii_of_string]. cbn [Ascii.eqb Bool.eqb andb].
    assert (Ascii.eqb c "-" = false) as ->.
    { apply Ascii.eqb_neq. intros ->. done. }
    change (c :: u ++ [lf]) with ((c :: u) ++ [lf]). rewrite Hw. done.
Qed.
Lemma heredoc_match s y v :
  y ∈ matches re_heredoc (Spot None s None) → s = v ++ rest y →
  ∃ u (dash : bool), word u ∧ group y = Some u ∧ v = chars "<<" ++ (if dash then chars "-" else []) ++ u ++ [lf].
Proof.
  unfold re_heredoc. intros (z1 & H1 & (z2 & H2 & (z3 & H3 & H4)%rcat_matches)%rcat_matches)%rcat_matches Hs.
  apply rtext_inv in H1 as [H1 _]. apply rchar_matches in H4 as (s4 & H4 & ->). simpl in *.
  apply elem_of_list_fmap in H3 as (z3' & -> & H3). simpl in *.
  destruct (matches_lang (RPlus (RSet is_word)) _ _ H3) as (g & Hg & Hw%lang_plus_set).
  exists g.
  assert (∃ dash : bool, rest z1 = (if dash then chars "-" else []) ++ rest z2) as [dash Hd].
  { change (z2 ∈ matches (RChar "-") z1 ++ [z1]) in H2. apply elem_of_app in H2 as [H2|H2].
    - apply rchar_matches in H2 as (s2 & -> & ->). by exists true.
    - apply elem_of_list_singleton in H2 as ->. by exists false. }
  exists dash. split; [done|]. split.
  - rewrite Hg at 2. f_equal. rewrite Hg at 1. apply app_take_eq.
  - rewrite H1, Hd, Hg, H4 in Hs. apply (app_inv_tail s4). rewrite <- Hs.
    unfold chars. simpl. rewrite <- !(assoc_L (++)). simpl. done.
Qed.
Lemma heredoc_step st p s t s' st' :
  lex_step st p s = Some (t, s', st') → kind_of_token t = THeredoc →
  ∃ (dash : bool) u, word u ∧ value t = chars "<<" ++ (if dash then chars "-" else []) ++ u ++ [lf] ∧
    st' = (SHeredoc, u) :: st.
Proof.
  intros H Hk. apply lex_step_first in H as ([m g] & st0 & r & y & -> & Hf & Hs & _ & -> & Hr & ->).
  pose proof (first_match_elem _ _ _ _ Hf) as [Hin Hy]. apply rule_of_kind in Hin as [Hin _].
  rewrite Hin in * by congruence. cbn [act pattern] in *. apply find_elem in Hy.
  destruct (heredoc_match _ _ _ Hy Hs) as (u & dash & Hu & Hg & Hv).
  exists dash, u. simpl. by rewrite Hg.
Qed.
(*P C35_heredoc_openers *)
Lemma p35b file s l t :
  lex file s = Ok l → t ∈ tokens_of l → kind_of_token t = THeredoc →
  ∃ dash u f, capture_delimiter (value t) = Some (dash, u) ∧ format_delimiter (dash, u) = Some f ∧
    value t = chars "<<" ++ f ++ [lf] ∧ word u.
Proof.
  intros H Ht Hk. destruct (token_step _ _ _ _ _ _ H Ht) as (st1 & p1 & s1 & s2 & st2 & Hs).
  destruct (heredoc_step _ _ _ _ _ _ Hs Hk) as (dash & u & Hu & Hv & _). exists dash, u, (if dash then chars "-" ++ u else u).
  rewrite Hv, capture_delimiter_some by done. split; [done|]. unfold format_delimiter.
  rewrite bool_decide_false by (by destruct Hu). split; [done|]. split; [|done].
  destruct dash; [|done]. by rewrite (assoc_L (++) (chars "-")).
Qed.
(*P C35_heredoc_end *)
(** The delimiter captured is the text that ends the heredoc. *)
Lemma p35c st p s t s' st' :
  lex_step st p s = Some (t, s', st') → kind_of_token t = THeredoc →
  ∃ dash u, capture_delimiter (value t) = Some (dash, u) ∧ st' = (SHeredoc, u) :: st ∧
    ∀ p' v, lex_step st' p' (u ++ v) = Some (Token THeredocEnd u p', v, st).
Proof.
  intros Hs Hk. destruct (heredoc_step _ _ _ _ _ _ Hs Hk) as (dash & u & Hu & Hv & ->).
  exists dash, u. rewrite Hv, capture_delimiter_some by done. split; [done|]. split; [done|].
  intros p' v. assert (ascii_text u) as Ha by (destruct Hu as [_ Hu]; eapply Forall_impl; [done|]; apply is_word_ascii).
  assert (∃ b, find (RText u) (u ++ v) = Some (Spot b v None)) as [b Hb].
  { unfold find. rewrite (rtext_some u _ v) by done. by eexists. }
  rewrite (lex_step_some st (SHeredoc, u) p' _ (Rule THeredocEnd (RText u) Pop) (Spot b v None) u); [done|..].
  - cbn [rules first_match pattern]. by rewrite Hb.
  - done.
  - by destruct Hu.
Qed.
