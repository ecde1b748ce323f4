(** * The properties of the lexer: proofs *)
From stdpp Require Import base list option strings.
From Coq Require Import Ascii Lia.
From Verif Require Import GoBase EtxHeap EtxText EtxTextFacts EtxLex EtxLexSpec EtxLexFacts EtxLexNest EtxLexOps
  EtxLexIdent EtxLexString.

(*P C36_lexing_is_lossless *)
Lemma p36 file s l :
  lex file s = Ok l →
  Forall (λ t, value t ≠ []) (tokens_of l) ∧
  match l with
  | Lexed ts _ => concat (map value ts) = s
  | LexError ts _ => ∃ s', s = concat (map value ts) ++ s' ∧ s' ≠ []
  end.
Proof. apply lex_lossless. Qed.

(*P C37_lexing_terminates *)
Lemma p37 file s : ∃ l, lex file s = Ok l ∧ length (tokens_of l) ≤ length s.
Proof. by apply lex_total. Qed.

Lemma start_pos_at file : start_pos file = pos_at file [].
Proof. done. Qed.
(*P C38_token_positions *)
(** [pos_at file pre] is the position after the text [pre]: its length, one plus its
    newlines, one plus the runes after the last of them. *)
Lemma p38 file s l i t :
  lex file s = Ok l → tokens_of l !! i = Some t →
  ∃ pre post, s = pre ++ value t ++ post ∧ pre = concat (map value (take i (tokens_of l))) ∧
    start t = pos_at file pre.
Proof.
  intros Hl Ht. pose proof (lex_lossless _ _ _ _ _ Hl) as [_ Hs].
  pose proof (lex_positions (length s) [(SRoot, [])] file [] s l Hl (rsteps_refl s)) as [Hp _].
  specialize (Hp _ _ Ht). simpl in Hp.
  assert (∃ s', s = text_of (tokens_of l) ++ s') as [s' Hs'].
  { destruct l; simpl in *; [exists []; by rewrite Hs, (right_id_L [] (++))|]. destruct Hs as (s' & -> & _). eauto. }
  exists (text_of (take i (tokens_of l))), (text_of (drop (S i) (tokens_of l)) ++ s').
  split; [|done]. rewrite Hs' at 1. rewrite <- (take_drop_middle _ _ _ Ht) at 1. unfold text_of.
  rewrite map_app, concat_app. simpl. by rewrite <- !(assoc_L (++)).
Qed.
(*P C38_error_position *)
Lemma p38b file s ts p :
  lex file s = Ok (LexError ts p) → p = pos_at file (concat (map value ts)).
Proof.
  intros Hl. by pose proof (lex_positions (length s) [(SRoot, [])] file [] s _ Hl (rsteps_refl s)) as [_ Hp].
Qed.

(*P C39_modes_are_bracketed_partial *)
(** Missing: that nothing is open at the end; see C39_unclosed_refuted. *)
Lemma p39 file s ts st :
  lex file s = Ok (Lexed ts st) →
  ∃ os, nested_open SRoot ts os ∧ (os = [] → nested SRoot ts).
Proof.
  intros H. destruct (lex_nested _ _ _ _ _ H) as (os & Hos & _). exists os. split; [done|].
  intros ->. by inversion Hos.
Qed.
(*P C39_unclosed_refuted *)
(** An unterminated string is no error. *)
Lemma p39r : ∃ file s ts st, lex file s = Ok (Lexed ts st) ∧ ¬ nested SRoot ts.
Proof.
  exists "", (chars """abc"), [Token TString [quote] (Pos "" 0 1 1); Token TChar (chars "abc") (Pos "" 1 1 2)],
    [(SString, [quote]); (SRoot, [])].
  split; [reflexivity|]. intros H.
  remember [Token TString [quote] (Pos "" 0 1 1); Token TChar (chars "abc") (Pos "" 1 1 2)] as l eqn:El.
  remember SRoot as m0 eqn:Em.
  destruct H as [|m t ts Hp _|m m' o ts c ts' Ho Hn Hc Hn']; [done|..].
  - injection El as -> ->. subst m. apply Hp. apply elem_of_list_here.
  - injection El as -> El. destruct ts as [|t ts]; [|by destruct ts]. injection El as -> ->.
    inversion Hc as [|? ? ? ? Hk|? ? ? Hk|? ? ? Hk]; simpl in *; try done.
Qed.
(*P C57_brackets_close_innermost_first *)
Lemma p57 file s l :
  lex file s = Ok l →
  ∃ os, nested_open SRoot (tokens_of l) os ∧
    match l with Lexed _ st => length st = S (length os) | LexError _ _ => True end.
Proof. apply lex_nested. Qed.

(** ** One token at the start of a file or anywhere in code *)
Lemma lex_head file s t s' st' :
  lex_step [(SRoot, [])] (start_pos file) s = Some (t, s', st') →
  ∃ l, lex file s = Ok l ∧ head (tokens_of l) = Some t.
Proof.
  intros H. pose proof (lex_step_inv _ _ _ _ _ _ H) as (fr & st0 & r & y & _ & _ & _ & Hv & Hne & _).
  destruct (lex_total (length s') st' (advance (start_pos file) (value t)) s') as (l & Hl & _); [done|].
  exists (lex_prepend [t] l). split; [|by rewrite tokens_prepend].
  unfold lex. eapply lexes_lex; [|exact Hl]. econstructor; [done|]. constructor.
Qed.
(*P C40_operators_at_the_start *)
Lemma p40 file o k s :
  (o, k) ∈ operators → match s with c :: _ => extends o c = false | [] => True end →
  ∃ l, lex file (chars o ++ s) = Ok l ∧ head (tokens_of l) = Some (Token k (chars o) (start_pos file)).
Proof. intros Ho Hs. eapply lex_head. apply lex_operator; [done|by left|done|done]. Qed.
(*P C40_operators_in_code *)
(** Anywhere in code; the only exception is the brace that ends an interpolation. *)
Lemma p40b m g st p o k s :
  code_state m → (o, k) ∈ operators → (m = SStringExpr → o ≠ "}") →
  match s with c :: _ => extends o c = false | [] => True end →
  lex_step ((m, g) :: st) p (chars o ++ s) = Some (Token k (chars o) p, s, (m, g) :: st).
Proof. intros. by apply lex_operator. Qed.

Lemma kind_of_keyword k n : (k, n) ∈ keywords → kind_of_word (chars k) = n.
Proof.
  intros Hkn. unfold keywords in Hkn.
  repeat (apply elem_of_cons in Hkn as [[= -> ->]|Hkn]; [reflexivity|]). by apply elem_of_nil in Hkn.
Qed.
Lemma keyword_of u : is_keyword u → ∃ k n, (k, n) ∈ keywords ∧ u = chars k.
Proof.
  unfold is_keyword. intros Hu. apply elem_of_list_fmap in Hu as ([k n] & Hk & Hkn). exists k, n. split; [done|].
  simpl in Hk. rewrite <- Hk. unfold chars, str. by rewrite String.list_ascii_of_string_of_list_ascii.
Qed.
Lemma not_keyword_kind u : ¬ is_keyword u → kind_of_word u = TIdent.
Proof.
  intros Hu. unfold kind_of_word. destruct (list_find _ keywords) as [[i [k n]]|] eqn:E; [|done]. exfalso.
  apply list_find_Some in E as (Hi & Hk & _). simpl in Hk. apply Hu. unfold is_keyword. rewrite <- Hk, str_chars.
  apply elem_of_list_fmap. exists (k, n). split; [done|]. by eapply elem_of_list_lookup_2.
Qed.
Lemma dashed_not_keyword u u1 us : ¬ is_keyword (u ++ dashed (u1 :: us)).
Proof.
  intros (k & n & Hkn & Hk)%keyword_of.
  pose proof keywords_words as Hw. rewrite Forall_forall in Hw. destruct (Hw _ Hkn) as [_ Hw']. cbn [fst] in Hw'.
  rewrite <- Hk in Hw'. apply Forall_app in Hw' as [_ Hw']. rewrite dashed_cons in Hw'.
  apply Forall_cons in Hw' as [? _]. done.
Qed.
Lemma lex_word m g st p u us s :
  code_state m → identifier u us → ident_ends s → (¬ is_keyword u ∨ us = []) →
  lex_step ((m, g) :: st) p (u ++ dashed us ++ s) =
    Some (Token (kind_of_word (u ++ dashed us)) (u ++ dashed us) p, s, (m, g) :: st).
Proof.
  intros Hm Hid Hs Hk. destruct (decide (is_keyword u)) as [Hku|Hku].
  - destruct Hk as [?| ->]; [done|]. apply keyword_of in Hku as (k & n & Hkn & ->).
    change (dashed []) with ([] : text). rewrite (right_id_L [] (++)). rewrite (kind_of_keyword _ _ Hkn). apply lex_keyword; [done|done|].
    by apply (stops_dashed []).
  - rewrite not_keyword_kind; [by apply lex_ident|].
    destruct us as [|u1 us]; [change (dashed []) with ([] : text); by rewrite (right_id_L [] (++))|apply dashed_not_keyword].
Qed.
(*P C41_identifiers_partial *)
(** Missing: identifiers with dashes whose first word is a keyword; see
    C41_if_with_a_dash_refuted. *)
Lemma p41 file u us s :
  identifier u us → ident_ends s → (¬ is_keyword u ∨ us = []) →
  ∃ l, lex file ((u ++ dashed us) ++ s) = Ok l ∧
    head (tokens_of l) = Some (Token (kind_of_word (u ++ dashed us)) (u ++ dashed us) (start_pos file)).
Proof.
  intros Hid Hs Hk. eapply lex_head. rewrite <- (assoc_L (++)). apply lex_word; [by left|done..].
Qed.
(*P C41_identifiers_in_code_partial *)
Lemma p41b m g st p u us s :
  code_state m → identifier u us → ident_ends s → (¬ is_keyword u ∨ us = []) →
  lex_step ((m, g) :: st) p ((u ++ dashed us) ++ s) =
    Some (Token (kind_of_word (u ++ dashed us)) (u ++ dashed us) p, s, (m, g) :: st).
Proof. intros. rewrite <- (assoc_L (++)). by apply lex_word. Qed.
(*P C41_if_with_a_dash_refuted *)
Lemma p41r : ∃ file u us s l,
  identifier u us ∧ ident_ends s ∧ lex file ((u ++ dashed us) ++ s) = Ok l ∧
  ¬ ∃ k p, head (tokens_of l) = Some (Token k (u ++ dashed us) p).
Proof.
  exists "", (chars "if"), [chars "foo"], [],
    (Lexed [Token TIf (chars "if") (Pos "" 0 1 1); Token TOpMinus (chars "-") (Pos "" 2 1 3);
            Token TIdent (chars "foo") (Pos "" 3 1 4)] [(SRoot, [])]).
  split; [|split; [done|split; [reflexivity|]]].
  - split; [|split].
    + split; [done|]. repeat constructor.
    + by exists "i"%char.
    + repeat constructor. done.
  - intros (k & p & H). done.
Qed.
(*P C58_keyword_with_a_dash *)
Lemma p58 m g st p u us s :
  code_state m → identifier u us → ident_ends s → is_keyword u →
  lex_step ((m, g) :: st) p ((u ++ dashed us) ++ s) = Some (Token (kind_of_word u) u p, dashed us ++ s, (m, g) :: st).
Proof.
  intros Hm Hid Hs (k & n & Hkn & ->)%keyword_of. rewrite <- (assoc_L (++)).
  rewrite (kind_of_keyword _ _ Hkn). apply lex_keyword; [done|done|by apply stops_dashed].
Qed.

(*P C42_string_bodies_partial *)
(** Missing: a dollar or percent sign outside of interpolation openers, a backslash at the
    end of a line, \u without four digits; see C42_lone_dollar_refuted. *)
Lemma p42 m g st p q b s :
  code_state m → is_quote q = true → string_body q b →
  ∃ ts p', string_tokens q b ts ∧
    lexes ((m, g) :: st) p (q :: b ++ q :: s) ts ((m, g) :: st) p' s.
Proof.
  intros Hm Hq Hb. destruct (lex_string m g st p q b s Hm Hq Hb) as (o & ts & c & p' & H1 & H2 & H3 & H4 & H5 & H6 & H7).
  exists (o :: ts ++ [c]), p'. split; [|done]. by exists o, ts, c.
Qed.
(*P C42_lone_dollar_refuted *)
Lemma p42r : ∃ file q b ts p,
  is_quote q = true ∧ quotable q b ∧ lex file (q :: b ++ [q]) = Ok (LexError ts p).
Proof.
  exists "", quote, (chars "a$b"), [Token TString [quote] (Pos "" 0 1 1); Token TChar (chars "a") (Pos "" 1 1 2)],
    (Pos "" 2 1 3).
  split; [done|]. split; [|reflexivity].
  apply quotable_char; [done|done|by intros [_ ?]|].
  apply quotable_char; [done|done|by intros [_ ?]|].
  apply quotable_char; [done|done|by intros [_ ?]|]. constructor.
Qed.
(*P C56_string_bodies_exactly *)
Lemma p56 file q b :
  is_quote q = true →
  string_body q b ↔ ∃ ts st, lex file (q :: b ++ [q]) = Ok (Lexed ts st) ∧ string_tokens q b ts.
Proof.
  intros Hq. split.
  - intros Hb. destruct (p42 SRoot [] [] (start_pos file) q b [] (or_introl eq_refl) Hq Hb) as (ts & p' & H1 & H2).
    exists ts, [(SRoot, [])]. split; [|done]. unfold lex.
    pose proof (lexes_lex _ _ _ _ _ _ _ (Lexed [] [(SRoot, [])]) H2 eq_refl) as H.
    by rewrite prepend_lexed, (right_id_L [] (++)) in H.
  - intros (ts & st & Hl & (o & us & c & -> & Ho & Hov & Hc & Hcv & Hus & Htk)).
    apply lex_lexes in Hl as [p' Hl]. inversion Hl as [|? ? ? ? st1 s1 ? ? ? ? H1 H2]; subst.
    rewrite (step_open SRoot [] [] (start_pos file) q (text_of us ++ [q]) (or_introl eq_refl) Hq) in H1.
    injection H1 as <- <- <-.
    apply lexes_app_inv in H2 as (st1 & p1 & s1 & H2 & H3).
    destruct (body_inv _ _ _ _ _ _ _ _ Hq H2 Htk) as [[-> Hb]|(g & st' & ->)]; [done|].
    inversion H3 as [|? ? ? ? st2 s2 ? ? ? ? H4 H5]; subst.
    apply (unicode_step_inv q) in H4 as (_ & [Hk|Hk] & _); congruence.
Qed.
