(** * The modes of the lexer are bracketed *)
From stdpp Require Import base list option strings.
From Coq Require Import Ascii Lia.
From Verif Require Import GoBase EtxHeap EtxText EtxTextFacts EtxLex EtxLexSpec EtxLexFacts.

(** The frame an opener has pushed. *)
Inductive frame_of : token → frame → Prop :=
| frame_string o : kind_of_token o = TString → frame_of o (SString, value o)
| frame_heredoc o g dash :
    kind_of_token o = THeredoc →
    value o = chars "<<" ++ (if dash : bool then chars "-" else []) ++ g ++ [lf] →
    frame_of o (SHeredoc, g)
| frame_expr o g : kind_of_token o = TExpr ∨ kind_of_token o = TDirective → frame_of o (SStringExpr, g)
| frame_unicode o g : kind_of_token o = TUnicode → frame_of o (SUnicode, g).

Lemma core_cases r :
  r ∈ core →
  (act r = Stay ∧ plain_kind SRoot (rname r)) ∨
  r = Rule THeredoc re_heredoc (Push SHeredoc) ∨
  r = Rule TString (RGroup (RSet is_quote)) (Push SString).
Proof.
  assert (Forall (λ r, (act r = Stay ∧ plain_kind SRoot (rname r)) ∨
    r = Rule THeredoc re_heredoc (Push SHeredoc) ∨
    r = Rule TString (RGroup (RSet is_quote)) (Push SString)) core) as H.
  { unfold core.
    repeat (apply Forall_cons; split; [first [left; split; [reflexivity|by apply (bool_decide_unpack _); vm_compute] | right; by left | right; by right]|]).
    constructor. }
  rewrite Forall_forall in H. apply H.
Qed.

Lemma rset_matches p x y :
  y ∈ matches (RSet p) x →
  ∃ c s, rest x = c :: s ∧ is_ascii_byte c = true ∧ p c = true ∧ y = Spot (Some c) s (group x).
Proof.
  simpl. destruct (rest x) as [|c s]; [by intros ?%elem_of_nil|].
  destruct (is_ascii_byte c) eqn:E; [|by intros ?%elem_of_nil]. simpl.
  destruct (p c) eqn:E'; [|by intros ?%elem_of_nil]. intros ->%elem_of_list_singleton. eauto 10.
Qed.
Lemma rcat_matches r1 r2 x y : y ∈ matches (RCat r1 r2) x ↔ ∃ z, z ∈ matches r1 x ∧ y ∈ matches r2 z.
Proof. simpl. rewrite elem_of_list_In, in_flat_map. by setoid_rewrite elem_of_list_In. Qed.
Lemma app_take_eq {A} (v s' : list A) : take (length (v ++ s') - length s') (v ++ s') = v.
Proof. rewrite app_length. replace (_ - _) with (length v) by lia. by rewrite take_app. Qed.

Lemma quote_frame s y v :
  y ∈ matches (RGroup (RSet is_quote)) (Spot None s None) → s = v ++ rest y → group y = Some v.
Proof.
  intros Hy Hs. simpl in Hy. apply elem_of_list_fmap in Hy as (z & -> & Hz). simpl in *.
  rewrite Hs at 2. f_equal. rewrite Hs at 1. apply app_take_eq.
Qed.
Lemma heredoc_frame s y v :
  y ∈ matches re_heredoc (Spot None s None) → s = v ++ rest y →
  ∃ g (dash : bool), group y = Some g ∧ v = chars "<<" ++ (if dash then chars "-" else []) ++ g ++ [lf].
Proof.
  unfold re_heredoc. intros (z1 & H1 & (z2 & H2 & (z3 & H3 & H4)%rcat_matches)%rcat_matches)%rcat_matches Hs.
  apply rtext_inv in H1 as [H1 _]. apply rchar_matches in H4 as (s4 & H4 & ->). simpl in *.
  apply elem_of_list_fmap in H3 as (z3' & -> & H3). simpl in *.
  pose proof (matches_steps (RPlus (RSet is_word)) _ _ H3) as Hst. apply rsteps_suffix in Hst as [g Hg].
  exists g.
  assert (∃ dash : bool, rest z1 = (if dash then chars "-" else []) ++ rest z2) as [dash Hd].
  { change (z2 ∈ matches (RChar "-") z1 ++ [z1]) in H2. apply elem_of_app in H2 as [H2|H2].
    - apply rchar_matches in H2 as (s2 & -> & ->). by exists true.
    - apply elem_of_list_singleton in H2 as ->. by exists false. }
  exists dash. split.
  - rewrite Hg at 2. f_equal. rewrite Hg at 1. apply app_take_eq.
  - rewrite H1, Hd, Hg, H4 in Hs. apply (app_inv_tail s4). rewrite <- Hs.
    unfold chars. simpl. rewrite <- !(assoc_L (++)). simpl. done.
Qed.

Lemma find_elem r s y : find r s = Some y → y ∈ matches r (Spot None s None).
Proof. apply head_elem. Qed.

Lemma lex_step_cases m g st p s t s' st' :
  lex_step ((m, g) :: st) p s = Some (t, s', st') →
  (st' = (m, g) :: st ∧ plain_kind m (kind_of_token t)) ∨
  (∃ m' g', st' = (m', g') :: (m, g) :: st ∧ opens m t m' ∧ frame_of t (m', g')) ∨
  (st' = st ∧ m ≠ SRoot ∧ ∀ o, frame_of o (m, g) → closes o t).
Proof.
  intros (fr & st0 & r & y & Hst & Hr & Hy & Hv & Hne & _ & Hs' & _ & Hk & ->)%lex_step_inv.
  injection Hst as <- <-. apply find_elem in Hy. rewrite Hs' in Hv.
  assert (Hcore : r ∈ core → code_state m →
    (act r = Stay ∧ plain_kind m (kind_of_token t)) ∨
    ∃ m' g', apply_action (act r) y ((m, g) :: st) = (m', g') :: (m, g) :: st ∧ opens m t m' ∧ frame_of t (m', g')).
  { intros Hc Hm. destruct (core_cases _ Hc) as [[Ha Hp]|[->| ->]].
    - left. split; [done|]. rewrite Hk. by destruct Hm as [-> | ->].
    - right. simpl in Hk. destruct (heredoc_frame _ _ _ Hy Hv) as (g' & dash & Hg & Ht).
      exists SHeredoc, g'. simpl. rewrite Hg. split; [done|]. split; [by constructor|]. by econstructor.
    - right. simpl in Hk. exists SString, (value t). simpl. rewrite (quote_frame _ _ _ Hy Hv).
      split; [done|]. split; by constructor. }
  assert (Hq : ∀ k, quoted_state m → kind_of_token t = k → k = TExpr ∨ k = TDirective →
    ∃ m' g', (SStringExpr, default [] (group y)) :: (m, g) :: st = (m', g') :: (m, g) :: st ∧
             opens m t m' ∧ frame_of t (m', g')).
  { intros k Hm <- Hk'. eexists SStringExpr, _. split; [done|]. split; [|by constructor].
    destruct Hk'; by constructor. }
  destruct m; simpl in Hr.
  - destruct (Hcore Hr (or_introl eq_refl)) as [[-> ?]|?]; [by left|by right; left].
  - repeat (apply elem_of_cons in Hr as [->|Hr]); [..|by apply elem_of_nil in Hr]; simpl in *.
    + right. left. eexists SUnicode, _. split; [done|]. split; by constructor.
    + left. split; [done|]. rewrite Hk. by apply (bool_decide_unpack _).
    + right. right. split; [done|]. split; [done|]. intros o Ho. inversion Ho; subst.
      apply closes_string; [done..|]. apply rtext_inv in Hy as [Hy _]. simpl in Hy.
      apply (app_inv_tail (rest y)). first [by rewrite <- Hv|done].
    + left. split; [done|]. rewrite Hk. by apply (bool_decide_unpack _).
    + left. split; [done|]. rewrite Hk. by apply (bool_decide_unpack _).
    + right. left. eapply Hq; [by left|done|by left].
    + right. left. eapply Hq; [by left|done|by right].
    + left. split; [done|]. rewrite Hk. by apply (bool_decide_unpack _).
  - apply elem_of_cons in Hr as [->|Hr].
    + cbn [pattern] in Hy. apply (rtext_inv (chars "}")) in Hy as [Hy _]. simpl in *.
      right. right. split; [done|]. split; [done|]. intros o Ho. inversion Ho; subst.
      apply closes_expr; [done..|].
      apply (app_inv_tail (rest y)). first [by rewrite <- Hv|done].
    + destruct (Hcore Hr (or_intror eq_refl)) as [[-> ?]|?]; [by left|by right; left].
  - repeat (apply elem_of_cons in Hr as [->|Hr]); [..|by apply elem_of_nil in Hr]; simpl in *.
    + right. right. split; [done|]. split; [done|]. intros o Ho. inversion Ho; subst.
      apply closes_unicode; [done|by left].
    + right. right. split; [done|]. split; [done|]. intros o Ho. inversion Ho; subst.
      apply closes_unicode; [done|by right].
  - repeat (apply elem_of_cons in Hr as [->|Hr]); [..|by apply elem_of_nil in Hr]; simpl in *.
    + right. right. split; [done|]. split; [done|]. intros o Ho. inversion Ho; subst.
      apply (closes_heredoc _ _ dash); [done..|]. apply rtext_inv in Hy as [Hy _]. simpl in Hy.
      assert (value t = g) as -> by (apply (app_inv_tail (rest y)); first [by rewrite <- Hv|done]). done.
    + left. split; [done|]. rewrite Hk. by apply (bool_decide_unpack _).
    + left. split; [done|]. rewrite Hk. by apply (bool_decide_unpack _).
    + right. left. eapply Hq; [by right|done|by left].
    + right. left. eapply Hq; [by right|done|by right].
    + left. split; [done|]. rewrite Hk. by apply (bool_decide_unpack _).
Qed.

(** ** Whole runs *)
Definition top (st : list frame) : state := match st with (m, _) :: _ => m | [] => SRoot end.
(** A stack and the openers that built it, innermost first. *)
Inductive opened : list token → list frame → Prop :=
| opened_root g : opened [] [(SRoot, g)]
| opened_more o os fr st : opened os st → opens (top st) o (fst fr) → frame_of o fr → opened (o :: os) (fr :: st).

(** Tokens read with the given stack: all of them inside the innermost bracket, or some
    of them, its closing token, and the rest outside of it.  The number is the size of
    the stack in the end. *)
Inductive reads : list frame → list token → list token → nat → Prop :=
| reads_inside st os ts fin :
    nested_open (top st) ts fin → reads st os ts (length st + length fin)
| reads_close fr st o os ts c ts' n :
    nested (top (fr :: st)) ts → closes o c → reads st os ts' n → reads (fr :: st) (o :: os) (ts ++ c :: ts') n.

Lemma nested_open_plain m t ts fin :
  plain_kind m (kind_of_token t) → nested_open m ts fin → nested_open m (t :: ts) fin.
Proof.
  intros Ht. destruct 1 as [m ts|m m' ts o ts' os H1 H2 H3]; [by constructor; constructor|].
  apply (nested_more m m' (t :: ts)); [by constructor|done..].
Qed.
Lemma nested_open_group m m' o w c ts fin :
  opens m o m' → nested m' w → closes o c → nested_open m ts fin → nested_open m (o :: w ++ c :: ts) fin.
Proof.
  intros Ho Hw Hc. destruct 1 as [m ts|m m2 ts o2 ts' os H1 H2 H3].
  - constructor. by apply (nested_group m m').
  - replace (o :: w ++ c :: ts ++ o2 :: ts') with ((o :: w ++ c :: ts) ++ o2 :: ts')
      by (simpl; by rewrite <- (assoc_L (++))).
    apply (nested_more m m2); [|done..]. by apply (nested_group m m').
Qed.
Lemma reads_plain st os t ts n :
  plain_kind (top st) (kind_of_token t) → reads st os ts n → reads st os (t :: ts) n.
Proof.
  intros Ht. destruct 1 as [st os ts fin H|fr st o os ts c ts' n H1 H2 H3].
  - constructor. by apply nested_open_plain.
  - apply (reads_close fr st o os (t :: ts)); [by constructor|done..].
Qed.
Lemma reads_group st os m' o w c ts n :
  opens (top st) o m' → nested m' w → closes o c → reads st os ts n → reads st os (o :: w ++ c :: ts) n.
Proof.
  intros Ho Hw Hc. destruct 1 as [st os ts fin H|fr st o2 os ts c2 ts' n H1 H2 H3].
  - constructor. by apply (nested_open_group _ m').
  - replace (o :: w ++ c :: ts ++ c2 :: ts') with ((o :: w ++ c :: ts) ++ c2 :: ts')
      by (simpl; by rewrite <- (assoc_L (++))).
    apply reads_close; [|done..]. by apply (nested_group _ m').
Qed.
Lemma reads_push (fr : frame) st os t ts n :
  opens (top st) t (fst fr) → reads (fr :: st) (t :: os) ts n → reads st os (t :: ts) n.
Proof.
  intros Ho. inversion 1 as [st' os' ts' fin H1|fr' st' o os' w c ts' n' H1 H2 H3]; subst.
  - assert (length (fr :: st) + length fin = length st + length (t :: fin)) as -> by (cbn [length]; lia).
    apply reads_inside. apply (nested_more (top st) (fst fr) []); [constructor|done|]. by destruct fr.
  - apply (reads_group st os (fst fr)); [done| |done..]. by destruct fr.
Qed.

Lemma lex_reads n st os p s l :
  opened os st → lex_fuel n st p s = Ok l →
  ∃ d, reads st os (tokens_of l) d ∧ match l with Lexed _ st' => length st' = d | LexError _ _ => True end.
Proof.
  revert st os p s l. induction n as [|n IH]; intros st os p s l Ho H.
  { destruct s; [|done]. injection H as <-. exists (length st + 0). split; [|simpl; lia].
    apply (reads_inside st os [] []). constructor. constructor. }
  cbn [lex_fuel] in H. destruct s as [|c s].
  { injection H as <-. exists (length st + 0). split; [|simpl; lia].
    apply (reads_inside st os [] []). constructor. constructor. }
  set (s0 := c :: s) in *. destruct (lex_step st p s0) as [[[t s'] st']|] eqn:E.
  2:{ injection H as <-. exists (length st + 0). split; [|done].
      apply (reads_inside st os [] []). constructor. constructor. }
  destruct (lex_fuel n st' _ s') as [l'| |] eqn:E'; [|done|done]. injection H as <-.
  assert (∀ d, reads st os (t :: tokens_of l') d → match l' with Lexed _ st' => length st' = d | LexError _ _ => True end →
    ∃ d, reads st os (tokens_of (lex_cons t l')) d ∧
      match lex_cons t l' with Lexed _ st' => length st' = d | LexError _ _ => True end) as Hfin.
  { intros d H1 H2. exists d. by destruct l'. }
  destruct st as [|[m g] st]; [inversion Ho|].
  apply lex_step_cases in E as [[-> Hp]|[(m' & g' & -> & Hop & Hf)|(-> & Hm & Hc)]].
  - destruct (IH _ _ _ _ _ Ho E') as (d & Hd & Hl). apply (Hfin d); [|done]. by apply reads_plain.
  - assert (opened (t :: os) ((m', g') :: (m, g) :: st)) as Ho' by (by apply opened_more).
    destruct (IH _ _ _ _ _ Ho' E') as (d & Hd & Hl). apply (Hfin d); [|done].
    by eapply (reads_push (m', g')).
  - inversion Ho as [|o os' fr st2 Ho' Hop Hf]; subst; [done|].
    destruct (IH _ _ _ _ _ Ho' E') as (d & Hd & Hl). apply (Hfin d); [|done].
    apply (reads_close (m, g) st o os' []); [constructor|by apply Hc|done].
Qed.

Lemma lex_nested n g p s l :
  lex_fuel n [(SRoot, g)] p s = Ok l →
  ∃ os, nested_open SRoot (tokens_of l) os ∧
    match l with Lexed _ st' => length st' = S (length os) | LexError _ _ => True end.
Proof.
  intros H. destruct (lex_reads n [(SRoot, g)] [] p s l) as (d & Hd & Hl); [constructor|done|].
  inversion Hd; subst. simpl in *. eauto.
Qed.
