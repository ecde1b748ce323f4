(** * The tokens of a file with one more newline at its end *)
From stdpp Require Import base list option strings.
From Coq Require Import Ascii Lia.
From Verif Require Import GoBase EtxHeap EtxText EtxTextFacts EtxLex EtxLexSpec EtxLexFacts EtxLexNest EtxLexOps EtxLexIdent EtxLexString
  EtxUtil EtxUtilProofs EtxParseLexed EtxRelex EtxOrdinaryLex EtxDecls EtxFinalSpec.

(** ** Patterns that do not notice the newline *)
Definition ext (x : spot) : spot := Spot (before x) (rest x ++ [lf]) (group x).
Definition calm (r : re) : Prop := ∀ x, matches r (ext x) = map ext (matches r x).

Lemma width_ext c s : rune_width ((c :: s) ++ [lf]) = rune_width (c :: s).
Proof.
  assert (Hc : is_ascii_byte lf = true) by done.
  assert (Hb : ∀ a b, 128 ≤ a → between a b lf = false).
  { intros a b Ha. destruct (between a b lf) eqn:E; [|done]. by rewrite (between_high _ _ _ E) in Hc. }
  clear Hc.
  destruct s as [|b1 [|b2 [|b3 s]]]; simpl; unfold cont; rewrite ?Hb by lia; rewrite ?andb_false_r; repeat case_match; done.
Qed.
Lemma calm_set p : p lf = false → calm (RSet p).
Proof.
  intros Hp [b s g]. destruct s as [|c s]; cbn [ext matches before rest group app].
  - by rewrite Hp, andb_false_r.
  - by destruct (is_ascii_byte c && p c).
Qed.
Lemma drop_ext c s : drop (rune_width ((c :: s) ++ [lf])) ((c :: s) ++ [lf]) = drop (rune_width (c :: s)) (c :: s) ++ [lf].
Proof. rewrite width_ext. apply drop_app_le', rune_width_le. Qed.
Lemma not_ext p b c s g : matches (RNot p) (ext (Spot b (c :: s) g)) = map ext (matches (RNot p) (Spot b (c :: s) g)).
Proof.
  cbn [ext matches rest before group app]. destruct (is_ascii_byte c && p c); [done|]. cbn [map ext before rest group].
  unfold ext. cbn [before rest group]. do 2 f_equal. apply drop_ext.
Qed.
Lemma calm_not p : p lf = true → calm (RNot p).
Proof. intros Hp [b s g]. destruct s as [|c s]; [cbn; by rewrite Hp|]. apply not_ext. Qed.
Lemma calm_eps : calm REps.
Proof. by intros x. Qed.
Lemma calm_wordb : calm RWordB.
Proof.
  intros [b s g]. cbn. destruct s as [|c s]; cbn.
  - by destruct (xorb _ _).
  - by destruct (xorb _ _).
Qed.
Lemma flat_map_map {A B C} (f : B → list C) (g : A → B) l : flat_map f (map g l) = flat_map (λ x, f (g x)) l.
Proof. induction l as [|x l IH]; [done|]. cbn. by rewrite IH. Qed.
Lemma map_flat_map {A B C} (f : A → list B) (g : B → C) l : map g (flat_map f l) = flat_map (λ x, map g (f x)) l.
Proof. induction l as [|x l IH]; [done|]. cbn. by rewrite map_app, IH. Qed.
Lemma calm_cat r1 r2 : calm r1 → calm r2 → calm (RCat r1 r2).
Proof.
  intros H1 H2 x. cbn. rewrite H1, flat_map_map, map_flat_map. apply flat_map_ext. intros z. apply H2.
Qed.
Lemma calm_alt r1 r2 : calm r1 → calm r2 → calm (RAlt r1 r2).
Proof. intros H1 H2 x. cbn. by rewrite H1, H2, map_app. Qed.
Lemma take_ext (s s' : text) : length s' ≤ length s → take (length (s ++ [lf]) - length (s' ++ [lf])) (s ++ [lf]) = take (length s - length s') s.
Proof. intros H. rewrite !app_length. cbn. rewrite take_app_le by lia. f_equal. lia. Qed.
Lemma calm_group r : calm r → calm (RGroup r).
Proof.
  intros H x. cbn. rewrite H, !map_map. apply map_ext_in. intros y Hy%elem_of_list_In. unfold ext at 1 2 4. cbn [before rest group].
  unfold ext. cbn [before rest group]. rewrite take_ext; [done|]. apply rsteps_length. by eapply matches_steps.
Qed.
Definition eats (r : re) : Prop := ∀ x y, y ∈ matches r x → length (rest y) < length (rest x).
Lemma eats_nil r x : eats r → rest x = [] → matches r x = [].
Proof.
  intros H E. destruct (matches r x) as [|y l] eqn:Em; [done|]. specialize (H x y). rewrite Em, E in H. cbn in H.
  specialize (H ltac:(left)). lia.
Qed.
Lemma star_ext r n m x :
  calm r → eats r → length (rest x) ≤ n → length (rest x) ≤ m → star r m (ext x) = map ext (star r n x).
Proof.
  intros Hc He. revert m x. induction n as [|n IH]; intros m x Hn Hm.
  - assert (rest x = []) as E by (destruct (rest x); [done|cbn in Hn; lia]).
    assert (matches r (ext x) = []) as Em by (rewrite Hc; by rewrite eats_nil).
    destruct m; cbn [star]; [done|]. by rewrite Em.
  - destruct m as [|m].
    + assert (rest x = []) as E by (destruct (rest x); [done|cbn in Hm; lia]). cbn [star]. by rewrite (eats_nil r x).
    + cbn [star]. rewrite Hc, map_app, flat_map_map, map_flat_map. f_equal.
      assert (∀ l, (∀ z, z ∈ l → length (rest z) < length (rest x)) → flat_map (λ z, star r m (ext z)) l = flat_map (λ z, map ext (star r n z)) l) as Hl.
      { intros l Hl. induction l as [|z l IHl]; [done|]. cbn. rewrite IHl by (intros; apply Hl; by right). f_equal. specialize (Hl z ltac:(left)). apply IH; lia. }
      apply Hl. intros z Hz. by apply He in Hz.
Qed.
Lemma calm_star r : calm r → eats r → calm (RStar r).
Proof. intros Hc He x. rewrite !matches_star. apply star_ext; [done..|]. cbn. rewrite app_length. lia. Qed.
Lemma calm_char c : c ≠ lf → calm (RChar c).
Proof. intros Hc. apply calm_set. by apply Ascii.eqb_neq. Qed.
Lemma calm_text g : lf ∉ g → calm (RText g).
Proof.
  induction g as [|c [|d g] IH]; intros Hg; [apply calm_eps|..].
  - apply calm_char. intros ->. apply Hg. left.
  - apply (calm_cat (RChar c) (RText (d :: g))); [apply calm_char; intros ->; apply Hg; left|]. apply IH. intros ?. apply Hg. by right.
Qed.

(** The check of a pattern. *)
Fixpoint eater (r : re) : bool :=
  match r with
  | RSet _ | RNot _ => true
  | REps | RStar _ | RLazy _ | RWordB => false
  | RCat r1 r2 => eater r1 || eater r2
  | RAlt r1 r2 => eater r1 && eater r2
  | RGroup r => eater r
  end.
Lemma eater_eats r : eater r = true → eats r.
Proof.
  induction r as [p|p| |r1 IH1 r2 IH2|r1 IH1 r2 IH2|r IH|r IH| |r IH]; cbn [eater]; intros E; try done; intros x y Hy.
  - apply rset_matches in Hy as (c & s & -> & _ & _ & ->). cbn. lia.
  - apply rnot_matches in Hy as (c & s & -> & _ & ->). rewrite drop_length. pose proof (rune_width_pos (c :: s) ltac:(done)). cbn [length]. lia.
  - apply rcat_matches in Hy as (z & Hz & Hy).
    pose proof (rsteps_length _ _ (matches_steps _ _ _ Hz)). pose proof (rsteps_length _ _ (matches_steps _ _ _ Hy)).
    apply orb_true_iff in E as [E|E]; [apply (IH1 E) in Hz|apply (IH2 E) in Hy]; lia.
  - apply andb_true_iff in E as [E1 E2]. cbn in Hy. apply elem_of_app in Hy as [Hy|Hy]; [by apply IH1|by apply IH2].
  - cbn in Hy. apply elem_of_list_fmap in Hy as (z & -> & Hz). cbn [rest]. by apply (IH E).
Qed.
Fixpoint dull (r : re) : bool :=
  match r with
  | RSet p => negb (p lf)
  | RNot p => p lf
  | REps | RWordB => true
  | RCat r1 r2 | RAlt r1 r2 => dull r1 && dull r2
  | RStar r => dull r && eater r
  | RLazy _ => false
  | RGroup r => dull r
  end.
Lemma dull_calm r : dull r = true → calm r.
Proof.
  induction r as [p|p| |r1 IH1 r2 IH2|r1 IH1 r2 IH2|r IH|r IH| |r IH]; cbn [dull]; intros E; try done.
  - apply calm_set. by apply negb_true_iff.
  - by apply calm_not.
  - apply andb_true_iff in E as [E1 E2]. apply calm_cat; auto.
  - apply andb_true_iff in E as [E1 E2]. apply calm_alt; auto.
  - apply andb_true_iff in E as [E1 E2]. apply calm_star; [auto|by apply eater_eats].
  - apply calm_wordb.
  - apply calm_group; auto.
Qed.

(** Comments with several lines. *)
Fixpoint lazy (r : re) (n : nat) (x : spot) : list spot :=
  match n with 0 => [x] | S n => x :: flat_map (lazy r n) (matches r x) end.
Lemma matches_lazy r x : matches (RLazy r) x = lazy r (length (rest x)) x.
Proof.
  cbn. generalize (length (rest x)). intros n. revert x. induction n as [|n IH]; intros x; [done|].
  cbn. f_equal. apply flat_map_ext. intros z. apply IH.
Qed.
Definition any_rune : re := RGroup (RAlt (RNot (Ascii.eqb lf)) (RChar lf)).
Lemma any_ext b c s g : matches any_rune (ext (Spot b (c :: s) g)) = map ext (matches any_rune (Spot b (c :: s) g)).
Proof.
  unfold any_rune. set (r := RAlt _ _).
  assert (matches r (ext (Spot b (c :: s) g)) = map ext (matches r (Spot b (c :: s) g))) as E.
  { unfold r. change (matches (RNot (Ascii.eqb lf)) (ext (Spot b (c :: s) g)) ++ matches (RChar lf) (ext (Spot b (c :: s) g)) =
      map ext (matches (RNot (Ascii.eqb lf)) (Spot b (c :: s) g) ++ matches (RChar lf) (Spot b (c :: s) g))).
    rewrite map_app, not_ext. f_equal. unfold RChar. cbn [ext matches before rest group app]. by destruct (is_ascii_byte c && Ascii.eqb lf c). }
  clearbody r. cbn [matches]. rewrite E, !map_map. apply map_ext_in. intros y Hy%elem_of_list_In. unfold ext. cbn [before rest group].
  rewrite take_ext; [done|]. apply rsteps_length. by apply matches_steps in Hy.
Qed.
Lemma any_eats : eats any_rune.
Proof. by apply eater_eats. Qed.
Lemma lazy_ext C n m x :
  calm C → eats C → (∀ b g, matches C (Spot b [lf] g) = []) → length (rest x) ≤ n → length (rest x) ≤ m →
  flat_map (matches C) (lazy any_rune m (ext x)) = map ext (flat_map (matches C) (lazy any_rune n x)).
Proof.
  intros Hc He Hl.
  assert (Hend : ∀ m x, rest x = [] → flat_map (matches C) (lazy any_rune m (ext x)) = []).
  { intros k [b s g] E. cbn in E. subst s. unfold ext. cbn [before rest group app]. destruct k as [|k]; cbn [lazy flat_map]; rewrite Hl; [done|].
    change (matches any_rune (Spot b [lf] g)) with [Spot (Some lf) [] (Some [lf])].
    destruct k as [|k]; cbn; by rewrite eats_nil. }
  revert m x. induction n as [|n IH]; intros m x Hn Hm.
  - assert (rest x = []) as E by (destruct (rest x); [done|cbn in Hn; lia]). rewrite Hend by done. cbn. by rewrite eats_nil.
  - destruct (rest x) as [|c s] eqn:E.
    { rewrite Hend by done. cbn [lazy flat_map]. rewrite (eats_nil C x) by done. rewrite (eats_nil any_rune x); [done|apply any_eats|done]. }
    destruct m as [|m]; [cbn in Hm; lia|]. cbn [lazy flat_map]. rewrite map_app, Hc. f_equal.
    destruct x as [b s0 g]. cbn in E. subst s0. rewrite any_ext. pose proof (any_eats (Spot b (c :: s) g)) as Ha.
    induction (matches any_rune (Spot b (c :: s) g)) as [|z l IHl]; [done|]. cbn [map flat_map]. rewrite !flat_map_app, map_app.
    rewrite IHl by (intros; apply Ha; by right). f_equal. specialize (Ha z ltac:(left)). cbn in Ha, Hn, Hm. apply IH; lia.
Qed.
Definition re_comment : re := RCat (RLit "/*") (RCat (RLazy any_rune) (RLit "*/")).
Lemma calm_comment : calm re_comment.
Proof.
  apply calm_cat; [by apply dull_calm|]. intros x. change (matches (RCat (RLazy any_rune) (RLit "*/")) (ext x)) with (flat_map (matches (RLit "*/")) (matches (RLazy any_rune) (ext x))).
  change (matches (RCat (RLazy any_rune) (RLit "*/")) x) with (flat_map (matches (RLit "*/")) (matches (RLazy any_rune) x)).
  rewrite !matches_lazy. apply lazy_ext; [by apply dull_calm|by apply eater_eats|done|done|]. cbn. rewrite app_length. lia.
Qed.

(** ** Rules *)
(** What a newline turns into the start of a heredoc. *)
Definition open_shift (s : text) : Prop :=
  ∃ (dash : bool) u, word u ∧ s = chars "<<" ++ (if dash then chars "-" else []) ++ u.
Lemma calm_find r s : calm r → find r (s ++ [lf]) = ext <$> find r s.
Proof.
  intros H. unfold find. change (Spot None (s ++ [lf]) None) with (ext (Spot None s None)). rewrite H.
  by destruct (matches r _).
Qed.
Lemma set_find p c s : find (RSet p) ((c :: s) ++ [lf]) = ext <$> find (RSet p) (c :: s).
Proof. unfold find. cbn [app matches rest group]. by destruct (is_ascii_byte c && p c). Qed.
Lemma heredoc_find (dash : bool) u z :
  word u → ∃ b, find re_heredoc (chars "<<" ++ (if dash then chars "-" else []) ++ u ++ lf :: z) = Some (Spot b z (Some u)).
Proof.
  intros [Hne Hu]. destruct u as [|c u]; [done|]. pose proof Hu as [Hc _]%list.Forall_cons.
  assert (Hw : ∀ b, ∃ b', head (matches (RGroup (RPlus (RSet is_word))) (Spot b ((c :: u) ++ lf :: z) None)) = Some (Spot b' (lf :: z) (Some (c :: u)))).
  { intros b. pose proof (head_plus_set is_word (Spot b ((c :: u) ++ lf :: z) None) c u (lf :: z) (word_chars _ Hu) eq_refl eq_refl) as Hh.
    eexists. set (r := RPlus _) in *. clearbody r. cbn [matches rest]. destruct (matches r (Spot b ((c :: u) ++ lf :: z) None)) as [|y l]; [done|].
    injection Hh as ->. cbn [map head rest before]. do 3 f_equal. apply app_take_eq. }
  eexists. unfold find, re_heredoc. eapply head_rcat.
  { unfold RLit. rewrite (rtext_some (chars "<<") _ ((if dash then chars "-" else []) ++ (c :: u) ++ lf :: z)); [reflexivity|by repeat constructor|done]. }
  destruct (Hw (if dash then Some "-"%char else Some "<"%char)) as [b' Hb]. eapply head_rcat.
  { instantiate (1 := Spot (if dash then Some "-"%char else Some "<"%char) ((c :: u) ++ lf :: z) None).
    destruct dash; [done|]. cbn [ROpt matches RChar rest app]. destruct (Ascii.eqb "-" c) eqn:E; [|by rewrite andb_false_r].
    apply Ascii.eqb_eq in E as <-. done. }
  eapply head_rcat; [exact Hb|]. done.
Qed.
Lemma heredoc_find_inv s y :
  find re_heredoc s = Some y →
  ∃ (dash : bool) u, word u ∧ group y = Some u ∧ s = chars "<<" ++ (if dash then chars "-" else []) ++ u ++ lf :: rest y.
Proof.
  intros Hy. pose proof (find_steps _ _ _ Hy) as Hs. apply rsteps_suffix in Hs as [v Hs]. apply find_elem in Hy.
  destruct (heredoc_match _ _ _ Hy Hs) as (u & dash & Hu & Hg & Hv). exists dash, u. split; [done|]. split; [done|].
  rewrite Hs, Hv. by rewrite <- !(assoc_L (++)).
Qed.
Lemma heredoc_kept s y :
  find re_heredoc s = Some y → ∃ y', find re_heredoc (s ++ [lf]) = Some y' ∧ rest y' = rest y ++ [lf] ∧ group y' = group y.
Proof.
  intros (dash & u & Hu & Hg & ->)%heredoc_find_inv. destruct (heredoc_find dash u (rest y ++ [lf]) Hu) as [b Hb].
  exists (Spot b (rest y ++ [lf]) (Some u)). split; [|by rewrite Hg]. rewrite <- Hb. f_equal. rewrite <- !(assoc_L (++)). done.
Qed.
Lemma heredoc_none s : find re_heredoc s = None → ¬ open_shift s → find re_heredoc (s ++ [lf]) = None.
Proof.
  intros Hn Hs. destruct (find re_heredoc (s ++ [lf])) as [y|] eqn:E; [|done]. exfalso.
  apply heredoc_find_inv in E as (dash & u & Hu & Hg & E). destruct (rest y) as [|c z _] using rev_ind.
  - apply Hs. exists dash, u. split; [done|]. rewrite !(assoc_L (++)) in E. apply app_inj_tail in E as [-> _]. by rewrite <- !(assoc_L (++)).
  - replace (chars "<<" ++ (if dash then chars "-" else []) ++ u ++ lf :: z ++ [c])
      with ((chars "<<" ++ (if dash then chars "-" else []) ++ u ++ lf :: z) ++ [c]) in E by (by rewrite <- !(assoc_L (++))).
    apply app_inj_tail in E as [-> _]. destruct (heredoc_find dash u z Hu) as [b Hb]. congruence.
Qed.
Lemma chars_kept s y :
  find (RPlus (RNot special)) s = Some y → rest y ≠ [] →
  ∃ y', find (RPlus (RNot special)) (s ++ [lf]) = Some y' ∧ rest y' = rest y ++ [lf] ∧ group y' = group y.
Proof.
  intros Hf Hy. pose proof (find_elem _ _ _ Hf) as He. pose proof He as He'. apply plus_rnot_inv in He as (v & Hs & Hv). cbn in Hs.
  assert (v ≠ []) as Hne.
  { assert (eats (RPlus (RNot special))) as Hea by (by apply eater_eats). apply Hea in He'. cbn in He'. intros ->. rewrite Hs in He'. cbn in He'. lia. }
  assert (stuck special (rest y) ∧ group y = None) as [Hst Hg].
  { unfold find in Hf. cbn [RPlus matches] in Hf. destruct s as [|c s]; [done|]. cbn [rest group] in Hf.
    destruct (is_ascii_byte c && special c); [done|]. cbn [flat_map] in Hf. rewrite app_nil_r in Hf.
    set (x := Spot (Some c) (drop (rune_width (c :: s)) (c :: s)) None) in *. change (head (matches (RStar (RNot special)) x) = Some y) in Hf.
    rewrite matches_star in Hf. split; [by eapply star_greedy|].
    assert (Hgr : ∀ n x y, y ∈ star (RNot special) n x → group y = group x).
    { clear. intros n. induction n as [|n IH]; intros x y Hy; cbn [star] in Hy; [by apply elem_of_list_singleton in Hy as ->|].
      apply elem_of_app in Hy as [Hy|Hy]; [|by apply elem_of_list_singleton in Hy as ->].
      apply elem_of_list_In, in_flat_map in Hy as (z & Hz & Hy). apply elem_of_list_In in Hz, Hy. apply IH in Hy as ->.
      cbn in Hz. destruct (rest x) as [|c s]; [by apply elem_of_nil in Hz|]. destruct (_ && _); [by apply elem_of_nil in Hz|].
      by apply elem_of_list_singleton in Hz as ->. }
    apply head_elem in Hf. by apply Hgr in Hf. }
  destruct (rest y) as [|d z] eqn:Er; [done|]. cbn in Hst. destruct v as [|c v]; [done|].
  destruct (head_plus_rnot special (Spot None (s ++ [lf]) None) c v d (z ++ [lf])) as [b Hb].
  - done.
  - done.
  - cbn. rewrite Hs. cbn. by rewrite <- (assoc_L (++)).
  - eexists. split; [exact Hb|]. by split.
Qed.
Lemma chars_none s : s ≠ [] → find (RPlus (RNot special)) s = None → find (RPlus (RNot special)) (s ++ [lf]) = None.
Proof.
  intros Hs H. destruct s as [|c s]; [done|]. clear Hs. unfold find in *. cbn [RPlus matches app rest] in *.
  destruct (is_ascii_byte c && special c); [done|]. exfalso. cbn [flat_map] in H. rewrite app_nil_r in H.
  match type of H with head (?f (length ?a) ?x) = None => change (head (matches (RStar (RNot special)) x) = None) in H end.
  rewrite matches_star in H. edestruct star_some as [w Hw]. rewrite Hw in H. done.
Qed.

(** The text of a frame has no newline. *)
Definition clean_frame (fr : frame) : Prop := (fst fr = SString ∨ fst fr = SHeredoc) → lf ∉ snd fr.
Lemma core_calm r : r ∈ core → calm (pattern r) ∨ pattern r = re_heredoc ∨ ∃ p, pattern r = RSet p.
Proof.
  assert (Forall (λ r, calm (pattern r) ∨ pattern r = re_heredoc ∨ ∃ p, pattern r = RSet p) core) as H.
  { unfold core. repeat (apply list.Forall_cons; split;
      [first [left; apply dull_calm; vm_compute; reflexivity|left; apply calm_comment|right; left; reflexivity|right; right; eexists; reflexivity]|]).
    constructor. }
  rewrite Forall_forall in H. apply H.
Qed.
Lemma rule_calm m g r :
  clean_frame (m, g) → r ∈ rules (m, g) →
  calm (pattern r) ∨ (code_state m ∧ pattern r = re_heredoc) ∨ (∃ p, pattern r = RSet p) ∨
  (m = SString ∧ kind_of_token (Token (rname r) [] (start_pos "")) = TChar ∧ pattern r = RPlus (RNot special)).
Proof.
  intros Hc Hr.
  assert (Hcore : code_state m → r ∈ core → calm (pattern r) ∨ (code_state m ∧ pattern r = re_heredoc) ∨ ∃ p, pattern r = RSet p).
  { intros Hm Hin. destruct (core_calm _ Hin) as [?|[?|?]]; auto. }
  destruct m; cbn [rules] in Hr.
  - destruct (Hcore (or_introl eq_refl) Hr) as [?|[?|?]]; auto.
  - repeat (apply elem_of_cons in Hr as [->|Hr]); [..|by apply elem_of_nil in Hr]; cbn [pattern rname kind_of_token].
    all: try (left; by apply dull_calm).
    + left. apply calm_text. apply Hc. by left.
    + right. right. right. done.
  - apply elem_of_cons in Hr as [->|Hr]; [left; by apply dull_calm|]. destruct (Hcore (or_intror eq_refl) Hr) as [?|[?|?]]; auto.
  - repeat (apply elem_of_cons in Hr as [->|Hr]); [..|by apply elem_of_nil in Hr]; left; by apply dull_calm.
  - repeat (apply elem_of_cons in Hr as [->|Hr]); [..|by apply elem_of_nil in Hr]; cbn [pattern rname kind_of_token].
    all: try (left; by apply dull_calm).
    + left. apply calm_text. apply Hc. by right.
    + right. right. left. eexists. reflexivity.
Qed.
Lemma none_kept m g s r :
  clean_frame (m, g) → s ≠ [] → (code_state m → ¬ open_shift s) → r ∈ rules (m, g) →
  find (pattern r) s = None → find (pattern r) (s ++ [lf]) = None.
Proof.
  intros Hc Hs Hb Hr Hn. destruct (rule_calm _ _ _ Hc Hr) as [H|[[Hm E]|[[p E]|(-> & _ & E)]]].
  - by rewrite (calm_find _ s H), Hn.
  - rewrite E in *. apply heredoc_none; [done|]. by apply Hb.
  - rewrite E in *. destruct s as [|c s]; [done|]. by rewrite set_find, Hn.
  - rewrite E in *. by apply chars_none.
Qed.
Lemma some_kept m g s r y :
  clean_frame (m, g) → s ≠ [] → r ∈ rules (m, g) → (rname r = TChar → rest y ≠ []) →
  find (pattern r) s = Some y → ∃ y', find (pattern r) (s ++ [lf]) = Some y' ∧ rest y' = rest y ++ [lf] ∧ group y' = group y.
Proof.
  intros Hc Hs Hr Hy Hf. destruct (rule_calm _ _ _ Hc Hr) as [H|[[Hm E]|[[p E]|(-> & Ek & E)]]].
  - rewrite (calm_find _ s H), Hf. by exists (ext y).
  - rewrite E in *. by apply heredoc_kept.
  - rewrite E in *. destruct s as [|c s]; [done|]. rewrite set_find, Hf. by exists (ext y).
  - rewrite E in *. apply chars_kept; [done|]. by apply Hy.
Qed.
Lemma match_kept l s s' r y y' :
  (∀ r', r' ∈ l → find (pattern r') s = None → find (pattern r') s' = None) →
  first_match l s = Some (r, y) → find (pattern r) s' = Some y' → first_match l s' = Some (r, y').
Proof.
  induction l as [|r0 l IH]; intros Hn Hf Hy; [done|]. cbn [first_match] in *.
  destruct (find (pattern r0) s) as [y0|] eqn:E.
  - injection Hf as <- <-. by rewrite Hy.
  - rewrite (Hn r0); [|left|done]. apply IH; [|done..]. intros r' Hr'. apply Hn. by right.
Qed.

(** ** Steps *)
Lemma step_kept m g st p s t s' st' :
  lex_step ((m, g) :: st) p s = Some (t, s', st') → clean_frame (m, g) → (code_state m → ¬ open_shift s) →
  (kind_of_token t = TChar → s' ≠ []) →
  lex_step ((m, g) :: st) p (s ++ [lf]) = Some (t, s' ++ [lf], st').
Proof.
  intros H Hc Hb Ht. pose proof (lex_step_inv _ _ _ _ _ _ H) as (_ & _ & _ & _ & _ & _ & _ & _ & _ & _ & _ & Hp & _).
  apply lex_step_first in H as (fr & st0 & r & y & Hst & Hf & Hs & Hne & -> & Hk & ->).
  injection Hst as <- <-. pose proof (first_match_elem _ _ _ _ Hf) as [Hin Hy].
  assert (s ≠ []) as Hs0 by (rewrite Hs; by destruct (value t)).
  destruct (some_kept m g s r y) as (y' & Hy' & Hr' & Hg'); [done..|by rewrite <- Hk|done|].
  assert (first_match (rules (m, g)) (s ++ [lf]) = Some (r, y')) as Hf'.
  { apply (match_kept _ s _ _ y); [|done..]. intros r' Hin' Hn'. by apply (none_kept m g). }
  rewrite (lex_step_some st (m, g) p (s ++ [lf]) r y' (value t) Hf'); [|by rewrite Hr', Hs at 1; rewrite (assoc_L (++))|done].
  rewrite Hr', <- Hk, <- Hp. destruct t as [k v q]. cbn. unfold apply_action. by rewrite Hg'.
Qed.
Lemma step_clean m g st p s t s' st' :
  lex_step ((m, g) :: st) p s = Some (t, s', st') → Forall clean_frame ((m, g) :: st) → Forall clean_frame st'.
Proof.
  intros H Hc. pose proof Hc as [Hc1 Hc2]%list.Forall_cons.
  destruct (lex_step_cases _ _ _ _ _ _ _ _ H) as [[-> _]|[(m' & g' & -> & Ho & Hfr)|(-> & _)]]; [done| |done].
  apply list.Forall_cons. split; [|done]. intros Hm. cbn [fst snd] in Hm |- *. inversion Hfr as [o Hk|o g0 dash Hk Hv|o g0 Hk|o g0 Hk]; subst.
  - pose proof H as (r & y & Hr & Hrk & Hl & _)%step_rule. pose proof (rule_state _ _ _ Hr) as Hst. rewrite <- Hrk, Hk in Hst.
    destruct Hst as [_ Hin]. assert (Forall (λ r, rname r = TString → pattern r = RGroup (RSet is_quote)) core) as Hall.
    { unfold core. repeat (apply list.Forall_cons; split; [intros ?; first [reflexivity|discriminate]|]). constructor. }
    rewrite Forall_forall in Hall. rewrite (Hall r Hin) in Hl by congruence. cbn in Hl. destruct Hl as (c & -> & _ & Hq).
    intros Hin'%elem_of_list_singleton. by rewrite <- Hin' in Hq.
  - destruct (heredoc_step _ _ _ _ _ _ H Hk) as (dash' & u & [_ Hu] & _ & E). injection E as ->.
    intros Hin. rewrite Forall_forall in Hu. by specialize (Hu _ Hin).
  - by destruct Hm.
  - by destruct Hm.
Qed.

(** A text without newline after << stays an operator, and becomes the start of a
    heredoc with a newline. *)
Lemma start_none r c s : may_start r c = false → may_nil r = false → find r (c :: s) = None.
Proof.
  intros Hm Hn. destruct (find r (c :: s)) as [y|] eqn:E; [|done]. apply find_elem in E. destruct (matches_lang _ _ _ E) as (v & Hv & Hl).
  destruct v as [|d v]; [by rewrite (lang_nil _ Hl) in Hn|]. injection Hv as <- _. by rewrite (lang_start _ _ _ Hl) in Hm.
Qed.
Definition rule_heredoc : rule := Rule THeredoc re_heredoc (Push SHeredoc).
Definition idle (r : rule) : bool := negb (may_start (pattern r) "<"%char) && negb (may_nil (pattern r)).
Lemma idle_first l1 l2 s : forallb idle l1 = true → first_match (l1 ++ l2) ("<"%char :: s) = first_match l2 ("<"%char :: s).
Proof.
  induction l1 as [|r l1 IH]; [done|]. cbn [forallb app first_match]. intros [[H1%negb_true_iff H2%negb_true_iff]%andb_true_iff H]%andb_true_iff.
  rewrite (start_none _ _ _ H1 H2). by apply IH.
Qed.
Lemma rules_split m g :
  code_state m → ∃ l1 l2 l3, rules (m, g) = l1 ++ rule_heredoc :: l2 ++ op TOpBitwiseShiftLeft "<<" :: l3 ∧ forallb idle l1 = true ∧ forallb idle l2 = true.
Proof.
  intros [-> | ->].
  - exists (take 14 core), (take 5 (drop 15 core)), (drop 21 core). split; [reflexivity|]. split; vm_compute; reflexivity.
  - exists (take 15 (rules (SStringExpr, []))), (take 5 (drop 15 core)), (drop 21 core). split; [reflexivity|]. split; vm_compute; reflexivity.
Qed.
Lemma no_lf u : word u → lf ∉ u.
Proof. intros [_ Hu] Hin. rewrite Forall_forall in Hu. by specialize (Hu _ Hin). Qed.
Lemma shift_step m g st p (dash : bool) u :
  code_state m → word u → let w := (if dash then chars "-" else []) ++ u in
  lex_step ((m, g) :: st) p (chars "<<" ++ w) = Some (Token TOpBitwiseShiftLeft (chars "<<") p, w, (m, g) :: st) ∧
  lex_step ((m, g) :: st) p ((chars "<<" ++ w) ++ [lf]) =
    Some (Token THeredoc (chars "<<" ++ w ++ [lf]) p, [], (SHeredoc, u) :: (m, g) :: st).
Proof.
  intros Hm Hu w. destruct (rules_split m g Hm) as (l1 & l2 & l3 & Hr & H1 & H2). split.
  - erewrite (lex_step_some st (m, g) p _ (op TOpBitwiseShiftLeft "<<") (Spot (last (chars "<<")) w None) (chars "<<")); [done| |done|done].
    rewrite Hr. change (chars "<<" ++ w) with ("<"%char :: "<"%char :: w). rewrite idle_first by done. cbn [first_match].
    assert (find re_heredoc ("<"%char :: "<"%char :: w) = None) as E.
    { destruct (find re_heredoc _) as [y|] eqn:E; [|done]. exfalso. apply heredoc_find_inv in E as (dash' & u' & Hu' & _ & E).
      injection E as E. assert (lf ∈ w) as Hin by (rewrite E, !elem_of_app, elem_of_cons; auto). unfold w in Hin. apply elem_of_app in Hin as [Hin|Hin]; [|by apply (no_lf u)].
      destruct dash; [apply elem_of_list_singleton in Hin; done|by apply elem_of_nil in Hin]. }
    cbn [pattern rule_heredoc]. rewrite E, idle_first by done. cbn [first_match]. 
    change (find (pattern (op TOpBitwiseShiftLeft "<<")) ("<"%char :: "<"%char :: w)) with (find (RLit "<<") (chars "<<" ++ w)).
    rewrite rlit_find by (by repeat constructor). done.
  - destruct (heredoc_find dash u [] Hu) as [b Hb].
    assert ((chars "<<" ++ w) ++ [lf] = chars "<<" ++ (if dash then chars "-" else []) ++ u ++ [lf]) as E by (unfold w; by rewrite <- !(assoc_L (++))).
    erewrite (lex_step_some st (m, g) p _ rule_heredoc (Spot b [] (Some u)) (chars "<<" ++ w ++ [lf])); [done| | |done].
    + rewrite Hr. change ((chars "<<" ++ w) ++ [lf]) with ("<"%char :: "<"%char :: w ++ [lf]). rewrite idle_first by done. cbn [first_match].
      change ("<"%char :: "<"%char :: w ++ [lf]) with ((chars "<<" ++ w) ++ [lf]). rewrite E. cbn [pattern rule_heredoc]. by rewrite Hb.
    + cbn [rest]. by rewrite app_nil_r, <- !(assoc_L (++)).
Qed.

(** ** Runs *)
Lemma run_kept st p s ts st' p' s' :
  lexes st p s ts st' p' s' → Forall clean_frame st → (s' = [] → top st' ≠ SString) →
  (∀ us t vs, ts = us ++ t :: vs → kind_of_token t = TOpBitwiseShiftLeft → ¬ open_tail (text_of vs ++ s')) →
  lexes st p (s ++ [lf]) ts st' p' (s' ++ [lf]).
Proof.
  intros H. induction H as [st p s|st p s t st1 s1 ts st2 p2 s2 H1 H2 IH]; intros Hc Ht Hn; [constructor|].
  destruct st as [|[m g] st]; [done|].
  pose proof (lexes_text _ _ _ _ _ _ _ H2) as Es1.
  econstructor; [apply step_kept; [exact H1|..]|].
  - by apply list.Forall_cons in Hc as [Hc _].
  - intros Hm (dash & u & Hu & ->). destruct (shift_step m g st p dash u Hm Hu) as [Hsh _]. rewrite Hsh in H1. injection H1 as <- Hw <-.
    eapply (Hn [] _ ts); [done|done|]. exists dash, u. split; [done|]. by rewrite <- Es1.
  - intros Hk ->. assert (st1 = (m, g) :: st ∧ m = SString) as [-> ->].
    { apply step_rule in H1 as (r & y & Hr & Hrk & _ & _ & _ & -> & _). apply rule_state in Hr. rewrite <- Hrk, Hk in Hr. by destruct Hr as [-> ->]. }
    destruct ts as [|t0 ts]; [by inversion H2; subst; apply Ht|]. apply lexes_cons_inv in H2 as (s3 & st3 & H3 & _).
    apply step_rule in H3 as (? & ? & _ & _ & _ & Hne & Hv & _). by destruct (value t0).
  - apply IH; [by eapply step_clean|done|]. intros us t' vs -> Hk. by apply (Hn (t :: us) t' vs).
Qed.
Lemma run_clean st p s ts st' p' s' : lexes st p s ts st' p' s' → Forall clean_frame st → Forall clean_frame st'.
Proof. induction 1 as [|st p s t st1 s1 ts st2 p2 s2 H1 H2 IH]; [done|]. intros Hc. apply IH. destruct st as [|[m g] st]; [done|]. by eapply step_clean. Qed.
Lemma root_clean : Forall clean_frame root.
Proof. apply list.Forall_cons. split; [|constructor]. by intros [?|?]. Qed.
Lemma open_tail_no v w : open_tail (v ++ "<"%char :: w) → False.
Proof.
  intros (dash & u & [_ Hu] & E). assert ("<"%char ∈ (if dash then chars "-" else []) ++ u) as H.
  { rewrite <- E. apply elem_of_app. right. left. }
  apply elem_of_app in H as [H|H].
  - destruct dash; [by apply elem_of_list_singleton in H|by apply elem_of_nil in H].
  - rewrite Forall_forall in Hu. by specialize (Hu _ H).
Qed.
Lemma lexes_whole file s ts st p : lexes root (start_pos file) s ts st p [] → lex file s = Ok (Lexed ts st).
Proof. intros H. unfold lex. fold root. rewrite (lexes_lex _ _ _ _ _ _ _ (Lexed [] st) H eq_refl). by rewrite prepend_lexed, app_nil_r. Qed.
(** The same tokens and the newline. *)
Lemma lex_newline s ts :
  lex "" s = Ok (Lexed ts root) → ¬ ends_open ts →
  ∃ p, lex "" (s ++ [lf]) = Ok (Lexed (ts ++ [Token TLF [lf] p]) root).
Proof.
  intros H Hn. apply lex_lexes in H as [p H]. exists p. apply (lexes_whole _ _ _ _ (advance p [lf])).
  eapply lexes_app; [eapply (run_kept _ _ _ _ _ _ [])|].
  - exact H.
  - apply root_clean.
  - done.
  - intros us t vs -> Hk Ho. rewrite app_nil_r in Ho. apply Hn. by exists us, t, vs.
  - econstructor; [apply feed_step; left|constructor].
Qed.
(** A heredoc that is never closed. *)
Lemma lex_opens s ts st :
  lex "" s = Ok (Lexed ts st) → ends_open ts → ∃ ts' u st', lex "" (s ++ [lf]) = Ok (Lexed ts' ((SHeredoc, u) :: st')).
Proof.
  intros H (us & t & vs & -> & Hk & dash & u & Hu & Ev). apply lex_lexes in H as [p H].
  apply lexes_app_inv in H as (st1 & p1 & s1 & L1 & L2).
  pose proof (lexes_text _ _ _ _ _ _ _ L2) as Es1. rewrite app_nil_r in Es1.
  apply lexes_cons_inv in L2 as (s2 & st2 & Hs & L2). destruct st1 as [|[m g] st1]; [done|].
  pose proof (step_plain _ _ _ _ _ _ Hs) as (_ & Hop & _). rewrite Hk in Hop. specialize (Hop _ eq_refl).
  pose proof Hs as (r & y & Hr & Hrk & _)%step_rule. apply rule_state in Hr. rewrite <- Hrk, Hk in Hr. destruct Hr as [Hm _].
  assert (s1 = chars "<<" ++ (if dash then chars "-" else []) ++ u) as E1.
  { rewrite Es1. unfold text_of in *. cbn [map concat]. by rewrite Hop, Ev. }
  destruct (shift_step m g st1 p1 dash u Hm Hu) as [_ Hsh].
  eexists _, u, _. eapply lexes_whole. eapply lexes_app; [apply (run_kept _ _ _ _ _ _ s1 L1)|].
  - apply root_clean.
  - rewrite E1. done.
  - intros us' t' vs' _ _ Ho. rewrite E1 in Ho. by apply open_tail_no in Ho.
  - rewrite E1. econstructor; [exact Hsh|constructor].
Qed.
