(** * Operators and identifiers, continued *)
From stdpp Require Import base list option strings.
From Coq Require Import Ascii Lia.
From Verif Require Import GoBase EtxHeap EtxText EtxTextFacts EtxLex EtxLexSpec EtxLexFacts EtxLexNest EtxLexOps.

Lemma rules_code m g : code_state m → rules (m, g) = rules (m, []).
Proof. by intros [-> | ->]. Qed.

Lemma lex_operator o k m g st p s :
  (o, k) ∈ operators → code_state m → (m = SStringExpr → o ≠ "}") →
  match s with c :: _ => extends o c = false | [] => True end →
  lex_step ((m, g) :: st) p (chars o ++ s) = Some (Token k (chars o) p, s, (m, g) :: st).
Proof.
  intros Ho Hm Hbrace Hs.
  assert (m ∈ code_states) as Hms by (destruct Hm as [-> | ->]; repeat constructor).
  pose proof op_checks as H. rewrite Forall_forall in H. specialize (H m Hms). rewrite Forall_forall in H.
  specialize (H _ Ho) as [[H1 H2]|(H1 & H2 & H3 & H4 & H5)]; [by destruct (Hbrace H1)|].
  cbn [fst snd] in *. assert (ascii_text (chars o)) as Ha.
  { apply Forall_forall. intros c Hc. rewrite forallb_forall in H4. apply H4. by apply elem_of_list_In. }
  erewrite (lex_step_some _ (m, g) p _ (op k o) (Spot (last (chars o)) s None) (chars o)); [done|..|done|done].
  rewrite (rules_code m g Hm). eapply first_match_at; [done| |by apply rlit_find].
  intros j r' Hj Hr'. assert (r' ∈ take (place (rules (m, [])) k) (rules (m, []))) as Hin.
  { apply elem_of_list_lookup. exists j. by rewrite lookup_take. }
  apply elem_of_list_In in Hin. destruct s as [|c s].
  - unfold op_check_end in H3. rewrite forallb_forall in H3. specialize (H3 _ Hin).
    rewrite (right_id_L [] (++)). by destruct (find (pattern r') (chars o)).
  - unfold op_check in H2. rewrite forallb_forall in H2.
    specialize (H2 c). rewrite <- elem_of_list_In in H2. specialize (H2 (all_ascii_complete c)).
    rewrite Hs in H2. simpl in H2. rewrite forallb_forall in H2. specialize (H2 _ Hin).
    replace (chars o ++ c :: s) with ((chars o ++ [c]) ++ s) by (by rewrite <- (assoc_L (++))).
    by apply dead_find.
Qed.

(** ** The first match of a pattern *)
Lemma head_rcat r1 r2 x z y :
  head (matches r1 x) = Some z → head (matches r2 z) = Some y → head (matches (RCat r1 r2) x) = Some y.
Proof.
  simpl. destruct (matches r1 x) as [|z' l]; [done|]. intros [= ->]. simpl.
  destruct (matches r2 z) as [|y' l']; [done|]. by intros [= ->].
Qed.
(** The iterations of a greedy repetition. *)
Fixpoint star (r : re) (n : nat) (x : spot) : list spot :=
  match n with 0 => [x] | S n => flat_map (star r n) (matches r x) ++ [x] end.
Lemma matches_star r x : matches (RStar r) x = star r (length (rest x)) x.
Proof. simpl. generalize (length (rest x)). intros n. revert x. induction n as [|n IH]; intros x; [done|].
  simpl. f_equal. apply flat_map_ext. intros z. apply IH. Qed.
Lemma head_star_stop r n x : matches r x = [] → head (star r n x) = Some x.
Proof. intros H. destruct n; [done|]. simpl. by rewrite H. Qed.
Lemma head_star_step r n x z y :
  head (matches r x) = Some z → head (star r n z) = Some y → head (star r (S n) x) = Some y.
Proof.
  simpl. destruct (matches r x) as [|z' l]; [done|]. intros [= ->]. simpl.
  destruct (star r n z) as [|y' l']; [done|]. by intros [= ->].
Qed.

Lemma is_word_ascii c : is_word c = true → is_ascii_byte c = true.
Proof.
  assert (forallb (λ c, implb (is_word c) (is_ascii_byte c)) all_ascii = true) as H by (vm_compute; reflexivity).
  rewrite forallb_forall in H. specialize (H c). rewrite <- elem_of_list_In in H.
  specialize (H (all_ascii_complete c)). intros Hw. by rewrite Hw in H.
Qed.
Lemma is_alpha_word c : is_alpha c = true → is_word c = true.
Proof. unfold is_word. intros ->. by rewrite orb_true_r. Qed.

(** A run of characters of a class, as long as possible. *)
Definition stops (p : ascii → bool) (s : text) : Prop := match s with c :: _ => p c = false | [] => True end.
Lemma rset_some p x c s :
  is_ascii_byte c = true → p c = true → rest x = c :: s → matches (RSet p) x = [Spot (Some c) s (group x)].
Proof. intros Hc Hp Hx. simpl. by rewrite Hx, Hc, Hp. Qed.
Lemma rset_none p x : stops p (rest x) → matches (RSet p) x = [].
Proof. simpl. destruct (rest x) as [|c s]; [done|]. simpl. intros ->. by rewrite andb_false_r. Qed.
Definition last_or (o : option ascii) (v : text) : option ascii :=
  match last v with Some c => Some c | None => o end.
Lemma last_or_cons o c v : last_or o (c :: v) = last_or (Some c) v.
Proof. unfold last_or. destruct v as [|d v]; [done|]. change (last (c :: d :: v)) with (last (d :: v)).
  destruct (last (d :: v)) eqn:E; [done|]. by apply last_None in E. Qed.
Lemma head_star_set p v x s n :
  Forall (λ c, is_ascii_byte c = true ∧ p c = true) v → stops p s → rest x = v ++ s → length v ≤ n →
  head (star (RSet p) n x) = Some (Spot (last_or (before x) v) s (group x)).
Proof.
  intros Hv Hs. revert x n. induction Hv as [|c v [Hc Hp] Hv IH]; intros x n Hx Hn.
  - rewrite head_star_stop by (apply rset_none; by rewrite Hx). destruct x. simpl in *. by subst.
  - destruct n as [|n]; [simpl in Hn; lia|]. eapply head_star_step.
    + by rewrite (rset_some p x c (v ++ s)).
    + rewrite last_or_cons. rewrite IH; [done|done|simpl in Hn; lia].
Qed.
Lemma word_chars v : Forall (λ c, is_word c = true) v → Forall (λ c, is_ascii_byte c = true ∧ is_word c = true) v.
Proof. intros H. eapply Forall_impl; [done|]. intros c Hc. split; [by apply is_word_ascii|done]. Qed.

(** ** Keywords *)
Lemma keyword_inv k u t y :
  word (chars k) → word u → stops is_word t →
  y ∈ matches (keyword k) (Spot None (u ++ t) None) → chars k = u.
Proof.
  intros [Hk0 Hk] [Hu0 Hu] Ht (z1 & Hz1 & (z2 & Hz2 & Hz3)%rcat_matches)%rcat_matches.
  assert (z1 = Spot None (u ++ t) None) as ->.
  { simpl in Hz1. destruct (is_word_opt (head (u ++ t))); [|by apply elem_of_nil in Hz1]. by apply elem_of_list_singleton in Hz1. }
  simpl in Hz2. apply elem_of_list_fmap in Hz2 as (z & -> & Hz).
  assert (Hbef : ∀ g x z, g ≠ [] → z ∈ matches (RText g) x → before z = last g).
  { clear. intros g. induction g as [|c [|d g] IH]; intros x z Hg Hz; [done|..].
    - change (RText [c]) with (RChar c) in Hz. by apply rchar_matches in Hz as (s & _ & ->).
    - rewrite rtext_cons in Hz. apply elem_of_list_In, in_flat_map in Hz as (z' & _ & Hz).
      apply elem_of_list_In in Hz. by apply IH in Hz. }
  pose proof (Hbef _ _ _ Hk0 Hz) as Hb. apply rtext_inv in Hz as [Hr _]. simpl in *.
  rewrite Hb in Hz3. destruct (last (chars k)) as [l|] eqn:El; [|by apply last_None in El].
  assert (is_word l = true) as Hl.
  { rewrite Forall_forall in Hk. apply Hk. apply last_Some in El as [l' ->]. apply elem_of_app. right. left. }
  simpl in Hz3. rewrite Hl in Hz3.
  assert (stops is_word (rest z)) as Hs.
  { destruct (rest z) as [|c s]; [done|]. simpl in *. destruct (is_word c); [|done]. by apply elem_of_nil in Hz3. }
  clear -Hk Hu Ht Hs Hr. set (K := chars k) in *. clearbody K. clear k. revert u Hu Hr. induction Hk as [|c K Hc Hk IH]; intros [|d u] Hu Hr; simpl in *.
  - done.
  - apply Forall_cons in Hu as [Hd _]. rewrite <- Hr in Hs. simpl in Hs. congruence.
  - rewrite Hr in Ht. simpl in Ht. congruence.
  - apply Forall_cons in Hu as [Hd Hu]. injection Hr as <- Hr. f_equal. by apply IH.
Qed.
Lemma keyword_some k t :
  word (chars k) → stops is_word t → ∃ g, find (keyword k) (chars k ++ t) = Some (Spot (last (chars k)) t g).
Proof.
  intros [Hk0 Hk] Ht. unfold find, keyword.
  assert (ascii_text (chars k)) as Ha by (eapply Forall_impl; [done|]; apply is_word_ascii).
  destruct (chars k) as [|c u] eqn:E; [done|]. rewrite <- E in Hk0, Hk, Ha |- *.
  eexists. eapply head_rcat.
  { simpl. rewrite E. simpl. rewrite E in Hk. apply Forall_cons in Hk as [-> _]. done. }
  eapply head_rcat.
  { simpl. unfold RLit. rewrite (rtext_some (chars k) _ t); [|done|by rewrite E]. done. }
  destruct (last (chars k)) as [l|] eqn:El; [|apply last_None in El; by rewrite El in E].
  assert (is_word l = true) as Hl.
  { rewrite Forall_forall in Hk. apply Hk. apply last_Some in El as [l' ->]. apply elem_of_app. right. left. }
  assert (is_word_opt (head t) = false) as Hh by (by destruct t).
  simpl. rewrite Hl, Hh. done.
Qed.

(** ** Identifiers *)
Lemma head_plus_set p x c v s :
  Forall (λ c, is_ascii_byte c = true ∧ p c = true) (c :: v) → stops p s → rest x = c :: v ++ s →
  head (matches (RPlus (RSet p)) x) = Some (Spot (last_or (before x) (c :: v)) s (group x)).
Proof.
  intros [[Hc Hp] Hv]%Forall_cons Hs Hx. eapply head_rcat.
  - by rewrite (rset_some p x c (v ++ s)).
  - rewrite matches_star, last_or_cons. rewrite (head_star_set p v _ s); [done..|].
    simpl. rewrite app_length. lia.
Qed.
Lemma dashed_cons u us : dashed (u :: us) = "-"%char :: u ++ dashed us.
Proof. done. Qed.
Lemma stops_dashed us s : ident_ends s → stops is_word (dashed us ++ s).
Proof. destruct us; [|done]. simpl. destruct s; [done|]. by intros [? _]. Qed.
Definition re_part : re := RCat (RChar "-") (RPlus (RSet is_word)).
Lemma head_parts us x s n :
  Forall word us → ident_ends s → rest x = dashed us ++ s → length us ≤ n →
  is_word_opt (before x) = true →
  ∃ b, head (star re_part n x) = Some (Spot b s (group x)) ∧ is_word_opt b = true.
Proof.
  intros Hus Hs. revert x n. induction Hus as [|u us [Hu0 Hu] Hus IH]; intros x n Hx Hn Hb.
  - exists (before x). simpl in Hx. split; [|done].
    rewrite head_star_stop; [destruct x; simpl in *; by subst|].
    destruct (matches re_part x) as [|y l] eqn:E; [done|].
    assert (y ∈ matches re_part x) as Hy by (rewrite E; left).
    apply rcat_matches in Hy as (z & Hz & (w & Hw & _)%rcat_matches).
    apply rchar_matches in Hz as (s' & Hs' & ->). rewrite Hx in Hs'.
    apply rset_matches in Hw as (d & s'' & Hd & _ & Hp & _). simpl in Hd.
    rewrite Hs', Hd in Hs. destruct Hs as [_ Hs]. specialize (Hs eq_refl). simpl in Hs. congruence.
  - destruct n as [|n]; [simpl in Hn; lia|]. destruct u as [|c u]; [done|].
    set (z := Spot (last_or (Some "-"%char) (c :: u)) (dashed us ++ s) (group x)).
    destruct (IH z n) as (b & Hb1 & Hb2); [done|simpl in Hn; lia| |].
    { unfold z. simpl. unfold last_or. destruct (last (c :: u)) as [l|] eqn:El; [|by apply last_None in El].
      simpl. rewrite Forall_forall in Hu. apply Hu. apply last_Some in El as [l' ->]. apply elem_of_app. right. left. }
    exists b. split; [|done]. eapply head_star_step; [|done].
    rewrite dashed_cons in Hx. simpl in Hx. rewrite <- (assoc_L (++)) in Hx. eapply head_rcat.
    + rewrite (rchar_some "-" x (c :: u ++ dashed us ++ s)); done.
    + rewrite (head_plus_set is_word _ c u (dashed us ++ s)); [done|by apply word_chars|by apply stops_dashed|done].
Qed.

Lemma length_dashed us : length us ≤ length (dashed us).
Proof. induction us as [|u us IH]; [done|]. rewrite dashed_cons. simpl. rewrite app_length. lia. Qed.
Lemma ident_some u us s :
  identifier u us → ident_ends s →
  ∃ b, find re_ident (u ++ dashed us ++ s) = Some (Spot b s None).
Proof.
  intros ((Hu0 & Hu) & (c & Hc & Halpha) & Hus) Hs. destruct u as [|c' u]; [done|]. injection Hc as ->.
  apply Forall_cons in Hu as [Hcw Hu]. unfold find, re_ident.
  set (x1 := Spot (last_or (Some c) u) (dashed us ++ s) None).
  destruct (head_parts us x1 s (length (rest x1))) as (b & Hb1 & Hb2); [done..| | |].
  { simpl. rewrite app_length. pose proof (length_dashed us). lia. }
  { simpl. unfold last_or. destruct (last u) as [l|] eqn:El; [|done]. simpl.
    rewrite Forall_forall in Hu. apply Hu. apply last_Some in El as [l' ->]. apply elem_of_app. right. left. }
  exists b. eapply head_rcat; [|eapply head_rcat; [|eapply head_rcat; [|eapply head_rcat]]].
  - simpl. rewrite Hcw. done.
  - rewrite (rset_some is_alpha _ c (u ++ dashed us ++ s)); [done|by apply is_word_ascii|done|done].
  - rewrite matches_star. rewrite (head_star_set is_word u _ (dashed us ++ s)); [done|by apply word_chars|by apply stops_dashed|done|].
    simpl. rewrite app_length. lia.
  - rewrite matches_star. exact Hb1.
  - simpl. rewrite Hb2. destruct s as [|d s]; simpl in *; [done|]. by destruct Hs as [-> _].
Qed.

(** Rules that cannot match a text starting with a letter. *)
Definition letter_check : bool :=
  forallb (λ m, forallb (λ c, implb (is_alpha c)
    (forallb (λ r, dead (pattern r) [c] || bool_decide (rname r ∈ [TIf; TElse; TSwitch; TCase]))
       (take (place (rules (m, [])) TIdent) (rules (m, []))))) all_ascii) code_states.
Lemma letter_check_ok : letter_check = true.
Proof. vm_compute. reflexivity. Qed.

Lemma keyword_rule m r :
  code_state m → r ∈ rules (m, []) → rname r ∈ [TIf; TElse; TSwitch; TCase] →
  ∃ k n, (k, n) ∈ keywords ∧ r = Rule n (keyword k) Stay.
Proof.
  intros Hm Hr Hn.
  assert (r ∈ core) as Hc.
  { destruct Hm as [-> | ->]; [done|]. simpl in Hr. apply elem_of_cons in Hr as [->|Hr]; [|done].
    simpl in Hn. repeat (apply elem_of_cons in Hn as [Hn|Hn]; [done|]). by apply elem_of_nil in Hn. }
  assert (Forall (λ r, rname r ∈ [TIf; TElse; TSwitch; TCase] → ∃ k n, (k, n) ∈ keywords ∧ r = Rule n (keyword k) Stay) core) as H.
  { unfold core. repeat (apply Forall_cons; split; [intros H0;
      first [exfalso; simpl in H0; repeat (apply elem_of_cons in H0 as [H0|H0]; [discriminate|]); by apply elem_of_nil in H0
            |eexists _, _; split; [|reflexivity]; unfold keywords; repeat (first [apply elem_of_list_here|apply elem_of_list_further])]|]).
    constructor. }
  rewrite Forall_forall in H. by apply H.
Qed.

Lemma keywords_words : Forall (λ kn, word (chars (fst kn))) keywords.
Proof.
  unfold keywords. repeat (apply Forall_cons; split; [split; [done|repeat (apply Forall_cons; split; [done|]); constructor]|]).
  constructor.
Qed.
Lemma str_chars s : str (chars s) = s.
Proof. unfold str, chars. apply String.string_of_list_ascii_of_string. Qed.

(** The rules in front of Ident that can match a word are those of keywords. *)
Lemma before_ident m u t j r :
  code_state m → word u → (∃ c, head u = Some c ∧ is_alpha c = true) → stops is_word t →
  j < place (rules (m, [])) TIdent → rules (m, []) !! j = Some r → find (pattern r) (u ++ t) ≠ None →
  ∃ k n, (k, n) ∈ keywords ∧ r = Rule n (keyword k) Stay ∧ chars k = u.
Proof.
  intros Hm Hu (c & Hc & Ha) Ht Hj Hr Hf.
  assert (m ∈ code_states) as Hms by (destruct Hm as [-> | ->]; repeat constructor).
  pose proof letter_check_ok as H. unfold letter_check in H. rewrite forallb_forall in H.
  specialize (H m). rewrite <- elem_of_list_In in H. specialize (H Hms). rewrite forallb_forall in H.
  specialize (H c). rewrite <- elem_of_list_In in H. specialize (H (all_ascii_complete c)).
  rewrite Ha in H. cbn [implb] in H. rewrite forallb_forall in H. specialize (H r). rewrite <- elem_of_list_In in H.
  assert (r ∈ take (place (rules (m, [])) TIdent) (rules (m, []))) as Hin.
  { apply elem_of_list_lookup. exists j. by rewrite lookup_take. }
  specialize (H Hin). destruct u as [|c' u]; [done|]. injection Hc as ->.
  apply orb_true_iff in H as [H|H].
  { destruct Hf. by apply (dead_find (pattern r) [c] (u ++ t)). }
  apply bool_decide_eq_true in H.
  destruct (keyword_rule m r Hm) as (k & n & Hkn & ->); [by eapply elem_of_list_lookup_2|done|].
  exists k, n. split; [done|]. split; [done|]. simpl in Hf.
  destruct (find (keyword k) (c :: u ++ t)) as [y|] eqn:E; [|done].
  apply find_elem in E. apply (keyword_inv k (c :: u) t y); [|done|done|done].
  pose proof keywords_words as Hw. rewrite Forall_forall in Hw. apply (Hw _ Hkn).
Qed.
Lemma ident_place m : code_state m → rules (m, []) !! place (rules (m, [])) TIdent = Some (Rule TIdent re_ident Stay).
Proof. by intros [-> | ->]. Qed.

Lemma lex_ident m g st p u us s :
  code_state m → identifier u us → ident_ends s → ¬ is_keyword u →
  lex_step ((m, g) :: st) p (u ++ dashed us ++ s) = Some (Token TIdent (u ++ dashed us) p, s, (m, g) :: st).
Proof.
  intros Hm Hid Hs Hk. destruct (ident_some u us s Hid Hs) as [b Hb]. destruct Hid as (Hu & Hc & Hus).
  erewrite (lex_step_some st (m, g) p _ (Rule TIdent re_ident Stay) (Spot b s None) (u ++ dashed us)); [done|..].
  - rewrite (rules_code m g Hm). eapply first_match_at; [by apply ident_place| |done].
    intros j r Hj Hr. destruct (find (pattern r) (u ++ dashed us ++ s)) eqn:E; [|done]. exfalso.
    destruct (before_ident m u (dashed us ++ s) j r) as (k & n & Hkn & _ & Hku); try done; [by apply stops_dashed|congruence|].
    apply Hk. unfold is_keyword. rewrite <- Hku. rewrite str_chars. apply elem_of_list_fmap. by exists (k, n).
  - simpl. by rewrite <- (assoc_L (++)).
  - destruct Hu as [Hu _]. by destruct u.
Qed.

Definition kw_check : bool :=
  forallb (λ m, forallb (λ kn,
    bool_decide (place (rules (m, [])) (snd kn) < place (rules (m, [])) TIdent)) keywords) code_states.
Lemma keyword_place m k n :
  code_state m → (k, n) ∈ keywords →
  rules (m, []) !! place (rules (m, [])) n = Some (Rule n (keyword k) Stay) ∧
  place (rules (m, [])) n < place (rules (m, [])) TIdent.
Proof.
  intros Hm Hkn. assert (kw_check = true) as H by (vm_compute; reflexivity).
  unfold kw_check in H. rewrite forallb_forall in H. specialize (H m). rewrite <- elem_of_list_In in H.
  assert (m ∈ code_states) as Hms by (destruct Hm as [-> | ->]; repeat constructor).
  specialize (H Hms). rewrite forallb_forall in H. specialize (H (k, n)). rewrite <- elem_of_list_In in H.
  specialize (H Hkn). apply bool_decide_eq_true in H. split; [|done].
  unfold keywords in Hkn.
  repeat (apply elem_of_cons in Hkn as [[= -> ->]|Hkn]; [by destruct Hm as [-> | ->]|]).
  by apply elem_of_nil in Hkn.
Qed.
Lemma keywords_inj k n k' n' : (k, n) ∈ keywords → (k', n') ∈ keywords → k = k' → n = n'.
Proof.
  assert (forallb (λ a, forallb (λ b, implb (String.eqb (fst a) (fst b)) (bool_decide (snd a = snd b))) keywords) keywords = true) as H
    by (vm_compute; reflexivity).
  intros H1%elem_of_list_In H2%elem_of_list_In ->. rewrite forallb_forall in H. specialize (H _ H1).
  rewrite forallb_forall in H. specialize (H _ H2). simpl in H. rewrite String.eqb_refl in H. simpl in H.
  by apply bool_decide_eq_true in H.
Qed.
Lemma lex_keyword m g st p k n s :
  code_state m → (k, n) ∈ keywords → stops is_word s →
  lex_step ((m, g) :: st) p (chars k ++ s) = Some (Token n (chars k) p, s, (m, g) :: st).
Proof.
  intros Hm Hkn Hs. pose proof keywords_words as Hw. rewrite Forall_forall in Hw. specialize (Hw _ Hkn).
  cbn [fst] in Hw. destruct (keyword_some k s Hw Hs) as [g' Hg].
  destruct (keyword_place m k n Hm Hkn) as [Hp1 Hp2].
  erewrite (lex_step_some st (m, g) p _ (Rule n (keyword k) Stay) (Spot (last (chars k)) s g') (chars k)); [done|..|done|].
  - rewrite (rules_code m g Hm). eapply first_match_at; [done| |done].
    intros j r Hj Hr. destruct (find (pattern r) (chars k ++ s)) eqn:E; [|done]. exfalso.
    destruct (before_ident m (chars k) s j r) as (k' & n' & Hkn' & -> & Hku); try done; [|lia|congruence|].
    { destruct Hw as [Hw0 Hw]. clear -Hkn. unfold keywords in Hkn.
      repeat (apply elem_of_cons in Hkn as [[= -> ->]|Hkn]; [eexists; by split|]). by apply elem_of_nil in Hkn. }
    assert (k' = k) as -> by (rewrite <- (str_chars k'), <- (str_chars k); by rewrite Hku).
    assert (n' = n) as -> by (by eapply keywords_inj).
    unfold place in Hj. destruct (list_find _ (rules (m, []))) as [[i r0]|] eqn:El; simpl in Hj.
    + apply list_find_Some in El as (_ & _ & El). by apply (El j _ Hr Hj).
    + apply list_find_None in El. rewrite Forall_forall in El. apply (El _ ltac:(by eapply elem_of_list_lookup_2)). done.
  - by destruct Hw.
Qed.
