(** * Strings *)
From stdpp Require Import base list option strings.
From Coq Require Import Ascii Lia.
From Verif Require Import GoBase EtxHeap EtxText EtxTextFacts EtxLex EtxLexSpec EtxLexFacts EtxLexNest EtxLexOps EtxLexIdent.

(** ** Several steps *)
Lemma lexes_app st p s ts1 st1 p1 s1 ts2 st2 p2 s2 :
  lexes st p s ts1 st1 p1 s1 → lexes st1 p1 s1 ts2 st2 p2 s2 → lexes st p s (ts1 ++ ts2) st2 p2 s2.
Proof. induction 1; [done|]. intros. simpl. econstructor; eauto. Qed.
Lemma lexes_text st p s ts st' p' s' : lexes st p s ts st' p' s' → s = text_of ts ++ s'.
Proof.
  induction 1 as [|st p s t st1 s1 ts st2 p2 s2 H1 H2 IH]; [done|].
  apply lex_step_inv in H1 as (fr & st0 & r & y & _ & _ & _ & Hv & _).
  unfold text_of in *. simpl. by rewrite <- (assoc_L (++)), <- IH.
Qed.
Definition lex_prepend (ts : list token) (l : lexed) : lexed := foldr lex_cons l ts.
Lemma tokens_prepend ts l : tokens_of (lex_prepend ts l) = ts ++ tokens_of l.
Proof. induction ts as [|t ts IH]; [done|]. simpl. rewrite <- IH. by destruct (lex_prepend ts l). Qed.
Lemma prepend_lexed ts ts' st : lex_prepend ts (Lexed ts' st) = Lexed (ts ++ ts') st.
Proof. induction ts as [|t ts IH]; [done|]. simpl. by rewrite IH. Qed.
Lemma lexes_fuel n st p s ts st' p' s' l :
  lexes st p s ts st' p' s' → lex_fuel n st' p' s' = Ok l → lex_fuel (length ts + n) st p s = Ok (lex_prepend ts l).
Proof.
  induction 1 as [|st p s t st1 s1 ts st2 p2 s2 H1 H2 IH]; [done|]. intros Hl. simpl.
  pose proof (lex_step_inv _ _ _ _ _ _ H1) as (fr & st0 & r & y & _ & _ & _ & Hv & Hne & _).
  destruct s as [|c s]; [by destruct (value t)|]. rewrite H1. by rewrite IH.
Qed.
(** The lexer after some steps. *)
Lemma lexes_lex st p s ts st' p' s' l :
  lexes st p s ts st' p' s' → lex_fuel (length s') st' p' s' = Ok l →
  lex_fuel (length s) st p s = Ok (lex_prepend ts l).
Proof.
  intros H1 H2. destruct (lex_total (length s) st p s) as (l0 & Hl0 & _); [done|]. rewrite Hl0.
  pose proof (lexes_fuel _ _ _ _ _ _ _ _ _ H1 H2) as H3.
  pose proof (lex_fuel_ok _ (length s + (length ts + length s')) _ _ _ _ Hl0 ltac:(lia)) as H4.
  pose proof (lex_fuel_ok _ (length s + (length ts + length s')) _ _ _ _ H3 ltac:(lia)) as H5.
  congruence.
Qed.

(** ** Runs of bytes outside a class *)
Definition outside (p : ascii → bool) (c : ascii) : bool := negb (is_ascii_byte c && p c).
Lemma rune_outside p c s :
  outside p c = true → Forall (λ d, outside p d = true) (take (rune_width (c :: s)) (c :: s)).
Proof.
  intros Hc. destruct (is_ascii_byte c) eqn:E.
  { rewrite rune_width_ascii by done. simpl. rewrite firstn_O. by repeat constructor. }
  apply Forall_forall. intros d Hd. unfold outside. destruct (is_ascii_byte d) eqn:Ed; [|done]. exfalso.
  apply elem_of_list_lookup in Hd as [i Hi]. apply lookup_take_Some in Hi as [Hi Hlt].
  assert (c :: s = take i (c :: s) ++ d :: drop (S i) (c :: s)) as Hsplit by (by rewrite take_drop_middle).
  assert (take i (c :: s) ≠ []) as Hne. { destruct i; [simpl in Hi; congruence|done]. }
  pose proof (rune_width_no_ascii (take i (c :: s)) d (drop (S i) (c :: s)) Ed Hne) as Hw.
  rewrite <- Hsplit in Hw. rewrite take_length in Hw. lia.
Qed.
Lemma rnot_matches p x y :
  y ∈ matches (RNot p) x →
  ∃ c s, rest x = c :: s ∧ outside p c = true ∧ rest y = drop (rune_width (c :: s)) (c :: s).
Proof.
  simpl. destruct (rest x) as [|c s] eqn:E; [by intros ?%elem_of_nil|]. unfold outside.
  destruct (is_ascii_byte c && p c) eqn:E'; [by intros ?%elem_of_nil|]. intros ->%elem_of_list_singleton.
  exists c, s. by rewrite E'.
Qed.
Lemma rnot_some p x c s :
  rest x = c :: s → outside p c = true →
  matches (RNot p) x = [Spot (Some c) (drop (rune_width (c :: s)) (c :: s)) (group x)].
Proof. intros Hx Hc. simpl. rewrite Hx. unfold outside in Hc. by destruct (is_ascii_byte c && p c). Qed.
Lemma star_rnot_inv p n x y :
  y ∈ star (RNot p) n x → ∃ v, rest x = v ++ rest y ∧ Forall (λ d, outside p d = true) v.
Proof.
  revert x. induction n as [|n IH]; intros x Hy; simpl in Hy.
  { apply elem_of_list_singleton in Hy as ->. by exists []. }
  apply elem_of_app in Hy as [Hy|Hy]; [|apply elem_of_list_singleton in Hy as ->; by exists []].
  apply elem_of_list_In, in_flat_map in Hy as (z & Hz & Hy). apply elem_of_list_In in Hz, Hy.
  change (z ∈ matches (RNot p) x) in Hz.
  apply rnot_matches in Hz as (c & s & Hx & Hc & Hr). apply IH in Hy as (v & Hv & Hvo).
  exists (take (rune_width (c :: s)) (c :: s) ++ v). split.
  - rewrite <- (assoc_L (++)), <- Hv, Hr, take_drop. done.
  - apply Forall_app. split; [by apply rune_outside|done].
Qed.
Lemma plus_rnot_inv p x y :
  y ∈ matches (RPlus (RNot p)) x → ∃ v, rest x = v ++ rest y ∧ Forall (λ d, outside p d = true) v.
Proof.
  intros (z & Hz & Hy)%rcat_matches. rewrite matches_star in Hy.
  apply rnot_matches in Hz as (c & s & Hx & Hc & Hr). apply star_rnot_inv in Hy as (v & Hv & Hvo).
  exists (take (rune_width (c :: s)) (c :: s) ++ v). split.
  - rewrite <- (assoc_L (++)), <- Hv, Hr, take_drop. done.
  - apply Forall_app. split; [by apply rune_outside|done].
Qed.

(** Where a run of such bytes followed by [d], an ASCII byte of the class, ends. *)
Lemma rune_in_run p c v d s :
  Forall (λ e, outside p e = true) (c :: v) → is_ascii_byte d = true →
  rune_width (c :: v ++ d :: s) ≤ length (c :: v).
Proof. intros Hv Hd. apply (rune_width_no_ascii (c :: v)); done. Qed.
Lemma head_star_rnot p n x v d s :
  Forall (λ e, outside p e = true) v → outside p d = false → rest x = v ++ d :: s → length v ≤ n →
  ∃ b, head (star (RNot p) n x) = Some (Spot b (d :: s) (group x)).
Proof.
  intros Hv Hd. revert x v Hv. induction n as [|n IH]; intros x v Hv Hx Hn.
  { destruct v; [|simpl in Hn; lia]. exists (before x). destruct x; simpl in *. by subst. }
  assert (is_ascii_byte d = true) as Hda by (unfold outside in Hd; by destruct (is_ascii_byte d)).
  destruct v as [|c v].
  { exists (before x). rewrite head_star_stop; [destruct x; simpl in *; by subst|].
    simpl. rewrite Hx. simpl. unfold outside in Hd. by destruct (is_ascii_byte d && p d). }
  pose proof (rune_in_run p c v d s Hv Hda) as Hw.
  pose proof (rune_width_pos (c :: v ++ d :: s) ltac:(done)) as Hw0.
  set (w := rune_width (c :: v ++ d :: s)) in *.
  pose proof Hv as Hv'. apply Forall_cons in Hv' as [Hc _].
  destruct (IH (Spot (Some c) (drop w (c :: v) ++ d :: s) (group x)) (drop w (c :: v))) as (b & Hb).
  - by apply Forall_drop.
  - done.
  - rewrite drop_length. cbn [length] in *. lia.
  - exists b. eapply head_star_step; [|exact Hb].
    rewrite (rnot_some p x c (v ++ d :: s)) by done. fold w.
    change (c :: v ++ d :: s) with ((c :: v) ++ d :: s). by rewrite drop_app_le'.
Qed.
Lemma head_plus_rnot p x c v d s :
  Forall (λ e, outside p e = true) (c :: v) → outside p d = false → rest x = c :: v ++ d :: s →
  ∃ b, head (matches (RPlus (RNot p)) x) = Some (Spot b (d :: s) (group x)).
Proof.
  intros Hv Hd Hx.
  assert (is_ascii_byte d = true) as Hda by (unfold outside in Hd; by destruct (is_ascii_byte d)).
  pose proof (rune_in_run p c v d s Hv Hda) as Hw.
  pose proof (rune_width_pos (c :: v ++ d :: s) ltac:(done)) as Hw0.
  set (w := rune_width (c :: v ++ d :: s)) in *.
  pose proof Hv as Hv'. apply Forall_cons in Hv' as [Hc _].
  set (z := Spot (Some c) (drop w (c :: v) ++ d :: s) (group x)).
  destruct (head_star_rnot p (length (rest z)) z (drop w (c :: v)) d s) as (b & Hb);
    [by apply Forall_drop|done|done|simpl; rewrite app_length; lia|].
  exists b. eapply head_rcat; [|rewrite matches_star; exact Hb].
  rewrite (rnot_some p x c (v ++ d :: s)) by done. fold w.
  change (c :: v ++ d :: s) with ((c :: v) ++ d :: s). by rewrite drop_app_le'.
Qed.

(** ** The tokens of a string *)
Definition special (c : ascii) : bool := one_of_chars "$%\" c || is_quote c.
Lemma for_all_ascii (P : ascii → bool) : forallb P all_ascii = true → ∀ c, P c = true.
Proof. rewrite forallb_forall. intros H c. apply H, elem_of_list_In, all_ascii_complete. Qed.
Lemma plain_outside c : c ∉ chars "$%\""'" ↔ outside special c = true.
Proof.
  assert (∀ c, Bool.eqb (bool_decide (c ∉ chars "$%\""'")) (outside special c) = true) as H
    by (apply for_all_ascii; vm_compute; reflexivity).
  specialize (H c). apply Bool.eqb_prop in H. rewrite <- H. by rewrite bool_decide_eq_true.
Qed.
Lemma quote_cases q : is_quote q = true → q = quote ∨ q = apostrophe.
Proof.
  unfold is_quote. intros H. apply orb_true_iff in H as [H|H]; apply Ascii.eqb_eq in H; auto.
Qed.
Lemma quote_special q : is_quote q = true → outside special q = false ∧ is_ascii_byte q = true ∧ is_hex q = false.
Proof. by intros [-> | ->]%quote_cases. Qed.

Lemma first_match_dead l i u t r y :
  forallb (λ r, dead (pattern r) u) (take i l) = true → l !! i = Some r →
  find (pattern r) (u ++ t) = Some y → first_match l (u ++ t) = Some (r, y).
Proof.
  intros Hd Hr Hy. apply (first_match_at l i); [done| |done]. intros j r' Hj Hr'.
  apply dead_find. rewrite forallb_forall in Hd. apply Hd, elem_of_list_In, elem_of_list_lookup.
  exists j. by rewrite lookup_take.
Qed.

Lemma body_drop_plain q c b : c ∉ chars "$%\""'" → string_body q (c :: b) → string_body q b.
Proof.
  intros Hc H. inversion H; subst; try done; exfalso; apply Hc; unfold chars; simpl.
  - unfold backslash. rewrite !elem_of_cons; tauto.
  - unfold backslash. rewrite !elem_of_cons; tauto.
  - rewrite !elem_of_cons; tauto.
  - rewrite !elem_of_cons; tauto.
Qed.
Lemma body_drop_plains q v b : Forall (λ c, outside special c = true) v → string_body q (v ++ b) → string_body q b.
Proof. induction 1 as [|c v Hc Hv IH]; [done|]. intros H. apply IH. apply (body_drop_plain q c); [by apply plain_outside|done]. Qed.
Lemma body_add_plains q v b : Forall (λ c, outside special c = true) v → string_body q b → string_body q (v ++ b).
Proof. induction 1 as [|c v Hc Hv IH]; [done|]. intros H. simpl. apply body_char; [by apply plain_outside|by apply IH]. Qed.

(** The bytes at the start of a text that are in no class. *)
Fixpoint run_of (p : ascii → bool) (s : text) : text * text :=
  match s with
  | [] => ([], [])
  | c :: s' => if outside p c then let '(v, s'') := run_of p s' in (c :: v, s'') else ([], s)
  end.
Lemma run_of_spec p s :
  s = fst (run_of p s) ++ snd (run_of p s) ∧ Forall (λ c, outside p c = true) (fst (run_of p s)) ∧
  match snd (run_of p s) with c :: _ => outside p c = false | [] => True end.
Proof.
  induction s as [|c s IH]; [split; [done|]; by split; [constructor|]|]. simpl.
  destruct (outside p c) eqn:E; [|split; [done|]; by split; [constructor|]].
  destruct (run_of p s) as [v s'']. simpl in *. destruct IH as (-> & ? & ?). split; [done|]. by split; [constructor|].
Qed.

Section steps.
Context (q : ascii) (Hq : is_quote q = true) (st : list frame).
Local Notation fr := (SString, [q]).

Lemma step_char p c b s :
  outside special c = true → string_body q (c :: b) →
  ∃ v b', c :: b = v ++ b' ∧ v ≠ [] ∧ string_body q b' ∧
    lex_step (fr :: st) p (c :: b ++ q :: s) = Some (Token TChar v p, b' ++ q :: s, fr :: st).
Proof.
  intros Hc Hb. destruct (run_of_spec special (c :: b)) as (Hsplit & Hrun & Hstop).
  set (v := fst (run_of special (c :: b))) in *. set (b' := snd (run_of special (c :: b))) in *.
  destruct (quote_special q Hq) as (Hqs & Hqa & _).
  assert (∃ v', v = c :: v') as [v' Ev].
  { unfold v. simpl. rewrite Hc. destruct (run_of special b). simpl. eauto. }
  exists v, b'. split; [done|]. split; [by rewrite Ev|].
  split. { apply (body_drop_plains q v); [done|]. by rewrite <- Hsplit. }
  assert (∃ d s', b' ++ q :: s = d :: s' ∧ outside special d = false) as (d & s' & Hd & Hds).
  { destruct b' as [|d b']; [by exists q, s|]. simpl. eauto. }
  destruct (head_plus_rnot special (Spot None (c :: b ++ q :: s) None) c v' d s') as (bf & Hf).
  { by rewrite <- Ev. } { done. }
  { simpl. rewrite <- Hd. rewrite (app_comm_cons b), Hsplit, Ev. simpl. by rewrite <- (assoc_L (++)). }
  erewrite (lex_step_some st fr p _ (Rule TChar (RPlus (RNot special)) Stay) (Spot bf (d :: s') None) v).
  - simpl. by rewrite Hd.
  - apply (first_match_dead (rules fr) 7 [c] (b ++ q :: s)); [|done|done].
    assert (∀ c, implb (outside special c) (forallb (λ r, dead (pattern r) [c]) (take 7 (rules (SString, [quote])))) = true) as H1
      by (apply for_all_ascii; vm_compute; reflexivity).
    assert (∀ c, implb (outside special c) (forallb (λ r, dead (pattern r) [c]) (take 7 (rules (SString, [apostrophe])))) = true) as H2
      by (apply for_all_ascii; vm_compute; reflexivity).
    specialize (H1 c). specialize (H2 c). rewrite Hc in H1, H2.
    destruct (quote_cases q Hq) as [-> | ->]; [exact H1|exact H2].
  - simpl. rewrite <- Hd. rewrite (app_comm_cons b), Hsplit. by rewrite <- (assoc_L (++)).
  - by rewrite Ev.
Qed.

Lemma step_end p s : lex_step (fr :: st) p (q :: s) = Some (Token TStringEnd [q] p, s, st).
Proof.
  destruct (quote_special q Hq) as (Hqs & Hqa & _).
  erewrite (lex_step_some st fr p _ (Rule TStringEnd (RText [q]) Pop) (Spot (Some q) s None) [q]); [done|..|done|done].
  apply (first_match_dead (rules fr) 2 [q] s); [|done|].
  - by destruct (quote_cases q Hq) as [-> | ->].
  - unfold find. cbn [pattern]. change (RText [q]) with (RChar q). by rewrite (rchar_some q _ s).
Qed.
Lemma step_quote p c s : is_quote c = true → c ≠ q → lex_step (fr :: st) p (c :: s) = Some (Token TQuote [c] p, s, fr :: st).
Proof.
  intros Hc Hne. destruct (quote_special c Hc) as (_ & Hca & _).
  erewrite (lex_step_some st fr p _ (Rule TQuote (RSet is_quote) Stay) (Spot (Some c) s None) [c]); [done|..|done|done].
  apply (first_match_dead (rules fr) 3 [c] s); [|done|].
  - destruct (quote_cases q Hq) as [-> | ->], (quote_cases c Hc) as [-> | ->]; done.
  - unfold find. cbn [pattern]. by rewrite (rset_some is_quote _ c s).
Qed.
Lemma step_non_expr p u s :
  u = chars "$${" ∨ u = chars "%%{" → lex_step (fr :: st) p (u ++ s) = Some (Token TNonExpr u p, s, fr :: st).
Proof.
  intros Hu. assert (ascii_text u) as Ha by (destruct Hu as [-> | ->]; repeat constructor).
  assert (∃ b g, find re_non_expr (u ++ s) = Some (Spot b s g)) as (b & g & Hf).
  { destruct Hu as [-> | ->]; eexists _, _; reflexivity. }
  erewrite (lex_step_some st fr p _ (Rule TNonExpr re_non_expr Stay) (Spot b s g) u); [done|..|done|].
  - apply (first_match_dead (rules fr) 4 u s); [|done|done].
    destruct (quote_cases q Hq) as [-> | ->], Hu as [-> | ->]; done.
  - by destruct Hu as [-> | ->].
Qed.
Lemma step_escape p c b s :
  c ≠ lf → c ≠ "u"%char → string_body q b →
  ∃ v b', b = v ++ b' ∧ string_body q b' ∧
    lex_step (fr :: st) p (backslash :: c :: b ++ q :: s) =
      Some (Token TEscaped (backslash :: c :: v) p, b' ++ q :: s, fr :: st).
Proof.
  intros Hlf Hu Hb. destruct (quote_special q Hq) as (Hqs & Hqa & _).
  set (all := λ d : ascii, true).
  destruct (run_of_spec all b) as (Hsplit & Hrun & Hstop).
  set (v0 := fst (run_of all b)) in *. set (b0 := snd (run_of all b)) in *.
  assert (Hnon : ∀ d, outside all d = true → outside special d = true).
  { intros d. unfold outside, all. rewrite andb_true_r. by destruct (is_ascii_byte d). }
  set (w := rune_width (c :: b ++ q :: s)).
  assert (1 ≤ w ≤ S (length v0) ∧ (is_ascii_byte c = true → w = 1)) as [Hw Hw1].
  { split; [split|].
    - apply rune_width_pos. done.
    - assert (∃ d s', b0 ++ q :: s = d :: s' ∧ is_ascii_byte d = true) as (d & s' & Hd & Hda).
      { destruct b0 as [|d b0]; [by exists q, s|]. simpl. eexists _, _. split; [done|].
        unfold outside, all in Hstop. by destruct (is_ascii_byte d). }
      unfold w. rewrite Hsplit, <- (assoc_L (++)), Hd.
      apply (rune_width_no_ascii (c :: v0)); done.
    - intros Hca. by apply rune_width_ascii. }
  set (v := take (w - 1) v0). set (b' := drop (w - 1) v0 ++ b0).
  assert (b = v ++ b') as Hvb by (unfold v, b'; by rewrite (assoc_L (++)), take_drop).
  exists v, b'. split; [done|]. split.
  { apply (body_drop_plains q v); [|by rewrite <- Hvb]. unfold v. apply Forall_take.
    eapply Forall_impl; [exact Hrun|]. exact Hnon. }
  assert (length v = w - 1) as Hlv by (unfold v; rewrite take_length; lia).
  assert (drop w (c :: b ++ q :: s) = b' ++ q :: s) as Hdrop.
  { rewrite Hvb. destruct w as [|w']; [lia|]. simpl. rewrite <- (assoc_L (++)).
    replace w' with (length v) by lia. by rewrite drop_app. }
  erewrite (lex_step_some st fr p _ (Rule TEscaped (RCat (RChar backslash) (RNot (Ascii.eqb lf))) Stay)
    (Spot (Some c) (b' ++ q :: s) None) (backslash :: c :: v)); [done|..|done].
  - apply (first_match_dead (rules fr) 1 [backslash; c] (b ++ q :: s)); [|done|].
    + assert (∀ c, Ascii.eqb c "u" || forallb (λ r, dead (pattern r) [backslash; c]) (take 1 (rules (SString, [quote]))) = true) as H1
        by (apply for_all_ascii; vm_compute; reflexivity).
      specialize (H1 c). destruct (Ascii.eqb_spec c "u") as [|_]; [done|]. exact H1.
    + unfold find. cbn [pattern]. eapply head_rcat.
      { rewrite (rchar_some backslash _ (c :: b ++ q :: s)); done. }
      rewrite (rnot_some _ _ c (b ++ q :: s)); [by fold w; rewrite Hdrop|done|].
      unfold outside. destruct (Ascii.eqb_spec lf c); [congruence|]. by rewrite andb_false_r.
  - cbn [rest]. rewrite Hvb. simpl. by rewrite <- (assoc_L (++)).
Qed.
Lemma step_u p s : ∃ g, lex_step (fr :: st) p (backslash :: "u"%char :: s) =
  Some (Token TUnicode (chars "\u") p, s, (SUnicode, g) :: fr :: st).
Proof.
  exists []. erewrite (lex_step_some st fr p _ (Rule TUnicode (RLit "\u") (Push SUnicode)) (Spot (Some "u"%char) s None) (chars "\u")); done.
Qed.
End steps.

(** Repetitions of a class. *)
Lemma rtimes_some p h x s :
  Forall (λ c, is_ascii_byte c = true ∧ p c = true) h → rest x = h ++ s →
  ∃ b, matches (RTimes (length h) (RSet p)) x = [Spot b s (group x)].
Proof.
  intros Hh. revert x. induction Hh as [|c h [Hc Hp] Hh IH]; intros x Hx.
  - exists (before x). destruct x; simpl in *. by subst.
  - change (length (c :: h)) with (S (length h)). cbn [RTimes matches].
    change (match rest x with [] => [] | c0 :: s0 => if is_ascii_byte c0 && p c0 then [Spot (Some c0) s0 (group x)] else [] end)
      with (matches (RSet p) x). rewrite (rset_some p x c (h ++ s)) by done. cbn [flat_map].
    destruct (IH (Spot (Some c) (h ++ s) (group x))) as [b Hb]; [done|]. exists b. by rewrite Hb.
Qed.
Lemma rtimes_inv p n x y :
  y ∈ matches (RTimes n (RSet p)) x →
  ∃ h, rest x = h ++ rest y ∧ length h = n ∧ Forall (λ c, is_ascii_byte c = true ∧ p c = true) h.
Proof.
  revert x. induction n as [|n IH]; intros x Hy.
  - apply elem_of_list_singleton in Hy as ->. by exists [].
  - apply rcat_matches in Hy as (z & Hz & Hy). apply rset_matches in Hz as (c & s & Hx & Hc & Hp & ->).
    apply IH in Hy as (h & Hr & Hl & Hh). exists (c :: h). simpl in *. rewrite Hx, Hr.
    split; [done|]. split; [lia|]. by constructor.
Qed.
Lemma hex_ascii h : Forall (λ c, is_hex c = true) h → Forall (λ c, is_ascii_byte c = true ∧ is_hex c = true) h.
Proof.
  intros H. eapply Forall_impl; [done|]. intros c Hc. split; [|done].
  assert (∀ c, implb (is_hex c) (is_ascii_byte c) = true) as H1 by (apply for_all_ascii; vm_compute; reflexivity).
  specialize (H1 c). by rewrite Hc in H1.
Qed.
Lemma hex_plain c : is_hex c = true → outside special c = true.
Proof.
  assert (∀ c, implb (is_hex c) (outside special c) = true) as H1 by (apply for_all_ascii; vm_compute; reflexivity).
  specialize (H1 c). intros Hc. by rewrite Hc in H1.
Qed.
Lemma step_digits q st g p h b s :
  is_quote q = true → length h = 4 → Forall (λ c, is_hex c = true) h → string_body q b →
  ∃ t b', h ++ b = value t ++ b' ∧ text_kind (kind_of_token t) ∧ string_body q b' ∧ value t ≠ [] ∧
    lex_step ((SUnicode, g) :: st) p (h ++ b ++ q :: s) = Some (t, b' ++ q :: s, st).
Proof.
  intros Hq Hl Hh Hb. destruct (quote_special q Hq) as (_ & _ & Hqh).
  destruct (find (RTimes 8 (RSet is_hex)) (h ++ b ++ q :: s)) as [y|] eqn:E.
  - pose proof E as E'. apply find_elem, rtimes_inv in E' as (h8 & Hr & Hl8 & Hh8). simpl in Hr.
    assert (∃ b', h ++ b = h8 ++ b' ∧ rest y = b' ++ q :: s) as (b' & Hb' & Hy).
    { exists (drop 8 (h ++ b)).
      assert (length h8 ≤ length (h ++ b)) as Hle.
      { destruct (decide (length h8 ≤ length (h ++ b))) as [|Hn]; [done|]. exfalso.
        assert (q ∈ h8) as Hin.
        { apply elem_of_list_lookup. exists (length (h ++ b)).
          rewrite <- (lookup_app_l h8 (rest y)) by lia. rewrite <- Hr, (assoc_L (++)).
          rewrite lookup_app_r by lia. by rewrite Nat.sub_diag. }
        rewrite Forall_forall in Hh8. destruct (Hh8 _ Hin). congruence. }
      rewrite (assoc_L (++)) in Hr.
      assert (h8 = take 8 (h ++ b)) as E8.
      { rewrite <- Hl8. rewrite <- (take_app_le _ (q :: s)) by done. rewrite Hr. by rewrite take_app. }
      split.
      - rewrite E8 at 1. by rewrite take_drop.
      - apply (app_inv_head h8). rewrite <- Hr. rewrite (assoc_L (++)). rewrite E8 at 1. by rewrite take_drop. }
    exists (Token TUnicodeLong h8 p), b'. split; [done|]. split; [unfold text_kind; simpl; rewrite !elem_of_cons; tauto|].
    split.
    { apply (body_drop_plains q h8); [|rewrite <- Hb'; apply body_add_plains; [|done]].
      - eapply Forall_impl; [exact Hh8|]. intros c [_ Hc]. by apply hex_plain.
      - eapply Forall_impl; [exact Hh|]. intros c Hc. by apply hex_plain. }
    split; [simpl; intros ->; done|].
    erewrite (lex_step_some st (SUnicode, g) p _ (Rule TUnicodeLong (RTimes 8 (RSet is_hex)) Pop) y h8); [by rewrite Hy|..].
    + cbn [rules first_match pattern]. by rewrite E.
    + done.
    + intros ->. done.
  - exists (Token TUnicodeShort h p), b. split; [done|]. split; [unfold text_kind; simpl; rewrite !elem_of_cons; tauto|].
    split; [done|]. split; [simpl; intros ->; done|].
    destruct (rtimes_some is_hex h (Spot None (h ++ b ++ q :: s) None) (b ++ q :: s)) as [bf Hbf]; [by apply hex_ascii|done|].
    rewrite Hl in Hbf.
    erewrite (lex_step_some st (SUnicode, g) p _ (Rule TUnicodeShort (RTimes 4 (RSet is_hex)) Pop) (Spot bf (b ++ q :: s) None) h); [done|..].
    + cbn [rules first_match pattern]. rewrite E. unfold find. by rewrite Hbf.
    + done.
    + intros ->. done.
Qed.

(** ** Whole strings *)
Lemma lex_body q st p b s :
  is_quote q = true → string_body q b →
  ∃ ts p', text_of ts = b ∧ Forall (λ t, text_kind (kind_of_token t)) ts ∧
    lexes ((SString, [q]) :: st) p (b ++ q :: s) ts ((SString, [q]) :: st) p' (q :: s).
Proof.
  intros Hq. remember (length b) as n eqn:En. revert b En p. induction n as [n IH] using lt_wf_ind.
  intros b -> p Hb.
  assert (Hgo : ∀ t b', b = value t ++ b' → value t ≠ [] → text_kind (kind_of_token t) → string_body q b' →
     lex_step ((SString, [q]) :: st) p (b ++ q :: s) = Some (t, b' ++ q :: s, (SString, [q]) :: st) →
     ∃ ts p', text_of ts = b ∧ Forall (λ t, text_kind (kind_of_token t)) ts ∧
       lexes ((SString, [q]) :: st) p (b ++ q :: s) ts ((SString, [q]) :: st) p' (q :: s)).
  { intros t b' Hbt Hne Hk Hb' Hstep.
    destruct (IH (length b') ltac:(rewrite Hbt, app_length; destruct (value t); simpl; [done|lia]) b' eq_refl (advance p (value t)) Hb')
      as (ts & p' & Ht & Hf & Hl).
    exists (t :: ts), p'. split; [|split; [by constructor|by econstructor]].
    unfold text_of in *. simpl. by rewrite Ht. }
  destruct Hb as [|c b Hc Hb|c b Hc Hne Hb|c b H1 H2 Hb|h b Hl Hh Hb|b Hb|b Hb].
  - exists [], p. split; [done|]. split; constructor.
  - apply plain_outside in Hc. destruct (step_char q Hq st p c b s Hc) as (v & b' & H1 & H2 & H3 & H4).
    { by apply body_add_plains with (v := [c]); [constructor|]. }
    apply (Hgo (Token TChar v p) b'); try done. unfold text_kind. simpl. rewrite !elem_of_cons. tauto.
  - apply (Hgo (Token TQuote [c] p) b); try done; [|by apply step_quote].
    unfold text_kind. simpl. rewrite !elem_of_cons. tauto.
  - destruct (step_escape q Hq st p c b s H1 H2 Hb) as (v & b' & -> & Hb' & Hstep).
    apply (Hgo (Token TEscaped (backslash :: c :: v) p) b'); try done.
    unfold text_kind. simpl. rewrite !elem_of_cons. tauto.
  - clear Hgo. destruct (step_u q st p (h ++ b ++ q :: s)) as [g Hg].
    destruct (step_digits q ((SString, [q]) :: st) g (advance p (chars "\u")) h b s Hq Hl Hh Hb)
      as (t & b' & H1 & H2 & H3 & H4 & H5).
    destruct (IH (length b') ltac:(change (length (backslash :: "u"%char :: h ++ b)) with (S (S (length (h ++ b))));
      rewrite H1, app_length; lia) b' eq_refl (advance (advance p (chars "\u")) (value t)) H3)
      as (ts & p' & Ht & Hf & Hlx).
    exists (Token TUnicode (chars "\u") p :: t :: ts), p'. split; [|split].
    + unfold text_of in *. simpl. rewrite Ht. by rewrite <- H1.
    + constructor; [unfold text_kind; simpl; rewrite !elem_of_cons; tauto|]. by constructor.
    + econstructor; [rewrite <- Hg; simpl; by rewrite <- (assoc_L (++))|]. by econstructor.
  - apply (Hgo (Token TNonExpr (chars "$${") p) b); try done.
    + unfold text_kind. simpl. rewrite !elem_of_cons. tauto.
    + rewrite <- (assoc_L (++)). apply step_non_expr; [done|by left].
  - apply (Hgo (Token TNonExpr (chars "%%{") p) b); try done.
    + unfold text_kind. simpl. rewrite !elem_of_cons. tauto.
    + rewrite <- (assoc_L (++)). apply step_non_expr; [done|by right].
Qed.

(** ** The converse: what lies between the quotes is a body *)
Lemma lex_step_first st p s t s' st' :
  lex_step st p s = Some (t, s', st') →
  ∃ fr st0 r y, st = fr :: st0 ∧ first_match (rules fr) s = Some (r, y) ∧
    s = value t ++ rest y ∧ value t ≠ [] ∧ s' = rest y ∧ kind_of_token t = rname r ∧ st' = apply_action (act r) y st.
Proof.
  unfold lex_step. destruct st as [|fr st0]; [done|].
  destruct (first_match (rules fr) s) as [[r y]|] eqn:E; [|done].
  pose proof (first_match_elem _ _ _ _ E) as [_ Hy]. pose proof (find_steps _ _ _ Hy) as Hs.
  destruct (decide _) as [|Hne]; [done|]. intros [= <- <- <-].
  exists fr, st0, r, y. simpl. pose proof (cut_span _ _ Hs).
  repeat match goal with |- _ ∧ _ => split end; done.
Qed.
Lemma find_text_none g s : ascii_text g → find (RText g) (g ++ s) ≠ None.
Proof. intros Hg. unfold find. by rewrite (rtext_some g _ s). Qed.

Lemma string_step_inv q st p s t s1 st1 :
  is_quote q = true → lex_step ((SString, [q]) :: st) p s = Some (t, s1, st1) → text_kind (kind_of_token t) →
  (st1 = (SString, [q]) :: st ∧ ∀ b, string_body q b → string_body q (value t ++ b)) ∨
  (value t = chars "\u" ∧ ∃ g, st1 = (SUnicode, g) :: (SString, [q]) :: st).
Proof.
  intros Hq (fr & st0 & r & y & Hst & Hf & Hv & Hne & -> & Hk & ->)%lex_step_first Htk.
  injection Hst as <- <-. destruct (quote_special q Hq) as (Hqs & Hqa & _).
  assert (Hv' : ∀ v, s = v ++ rest y → value t = v).
  { intros v Hs. apply (app_inv_tail (rest y)). by rewrite <- Hv. }
  cbn [rules first_match pattern] in Hf.
  destruct (find (RLit "\u") s) as [y0|] eqn:E1.
  { injection Hf as <- <-. right. simpl. apply find_elem, rtext_inv in E1 as [E1 _]. split; [by apply Hv'|eauto]. }
  destruct (find (RCat (RChar backslash) (RNot (Ascii.eqb lf))) s) as [y0|] eqn:E2.
  { injection Hf as <- <-. left. split; [done|]. intros b Hb.
    apply find_elem, rcat_matches in E2 as (z & Hz & Hy). apply rchar_matches in Hz as (s2 & Hs2 & ->).
    apply rnot_matches in Hy as (c & s3 & Hs3 & Hc & Hr). simpl in Hs2, Hs3. subst s2.
    assert (s = (backslash :: take (rune_width (c :: s3)) (c :: s3)) ++ rest y0) as Hs.
    { simpl. rewrite Hr, take_drop. done. }
    rewrite (Hv' _ Hs).
    assert (c ≠ lf) as Hlf.
    { intros ->. done. }
    assert (c ≠ "u"%char) as Hu.
    { intros ->. rewrite Hs2 in E1. apply (find_text_none (chars "\u") s3); [repeat constructor|exact E1]. }
    assert (∃ v, take (rune_width (c :: s3)) (c :: s3) = c :: v ∧ Forall (λ c, outside special c = true) v) as (v & Hvt & Hvf).
    { pose proof (rune_width_pos (c :: s3) ltac:(done)) as Hw.
      destruct (is_ascii_byte c) eqn:Ec.
      - rewrite rune_width_ascii by done. exists []. split; [done|constructor].
      - assert (outside (λ _, true) c = true) as Hoc by (unfold outside; by rewrite Ec).
        pose proof (rune_outside (λ _, true) c s3 Hoc) as Hall.
        destruct (rune_width (c :: s3)) as [|w]; [lia|]. simpl in *. exists (take w s3). split; [done|].
        apply Forall_cons in Hall as [_ Hall]. eapply Forall_impl; [exact Hall|].
        intros d. unfold outside. rewrite andb_true_r. by destruct (is_ascii_byte d). }
    rewrite Hvt. simpl. apply body_escape; [done|done|]. by apply body_add_plains. }
  destruct (find (RText [q]) s) as [y0|] eqn:E3.
  { injection Hf as <- <-. simpl in Hk. exfalso. unfold text_kind in Htk. rewrite Hk in Htk.
    repeat (apply elem_of_cons in Htk as [Htk|Htk]; [done|]). by apply elem_of_nil in Htk. }
  destruct (find (RSet is_quote) s) as [y0|] eqn:E4.
  { injection Hf as <- <-. left. split; [done|]. intros b Hb.
    apply find_elem, rset_matches in E4 as (c & s2 & Hs & Hca & Hc & ->). simpl in Hs.
    rewrite (Hv' [c]) by done. simpl. apply body_quote; [done| |done]. intros ->.
    apply (find_text_none [q] s2); [by repeat constructor|]. by rewrite <- E3, Hs. }
  destruct (find re_non_expr s) as [y0|] eqn:E5.
  { injection Hf as <- <-. left. split; [done|]. intros b Hb.
    apply find_elem in E5. apply elem_of_list_fmap in E5 as (z & -> & Hz). cbn [rest] in *.
    change (z ∈ matches (RText (chars "$${")) (Spot None s None) ++ matches (RText (chars "%%{")) (Spot None s None)) in Hz.
    apply elem_of_app in Hz as [Hz|Hz]; apply rtext_inv in Hz as [Hz _]; rewrite (Hv' _ Hz);
      [by apply body_dollar|by apply body_percent]. }
  destruct (find (RLit "${") s) as [y0|] eqn:E6.
  { injection Hf as <- <-. simpl in Hk. exfalso. unfold text_kind in Htk. rewrite Hk in Htk.
    repeat (apply elem_of_cons in Htk as [Htk|Htk]; [done|]). by apply elem_of_nil in Htk. }
  destruct (find (RLit "%{") s) as [y0|] eqn:E7.
  { injection Hf as <- <-. simpl in Hk. exfalso. unfold text_kind in Htk. rewrite Hk in Htk.
    repeat (apply elem_of_cons in Htk as [Htk|Htk]; [done|]). by apply elem_of_nil in Htk. }
  fold special in Hf.
  destruct (find (RPlus (RNot special)) s) as [y0|] eqn:E8; [|done].
  injection Hf as <- <-. left. split; [done|]. intros b Hb.
  apply find_elem, plus_rnot_inv in E8 as (v & Hs & Hvf). simpl in Hs. rewrite (Hv' _ Hs).
  by apply body_add_plains.
Qed.
Lemma unicode_step_inv q st g p s t s1 st1 :
  lex_step ((SUnicode, g) :: st) p s = Some (t, s1, st1) →
  st1 = st ∧ (kind_of_token t = TUnicodeLong ∨ kind_of_token t = TUnicodeShort) ∧
  ∀ b, string_body q b → string_body q (chars "\u" ++ value t ++ b).
Proof.
  intros (fr & st0 & r & y & Hst & Hf & Hv & Hne & -> & Hk & ->)%lex_step_first.
  injection Hst as <- <-.
  assert (Hv' : ∀ v, s = v ++ rest y → value t = v).
  { intros v Hs. apply (app_inv_tail (rest y)). by rewrite <- Hv. }
  cbn [rules first_match pattern] in Hf.
  destruct (find (RTimes 8 (RSet is_hex)) s) as [y0|] eqn:E1.
  { injection Hf as <- <-. split; [done|]. split; [by left|]. intros b Hb.
    apply find_elem, rtimes_inv in E1 as (h & Hs & Hl & Hh). simpl in Hs. rewrite (Hv' _ Hs).
    rewrite <- (take_drop 4 h), <- (assoc_L (++)). simpl. apply body_unicode.
    - rewrite take_length. lia.
    - apply Forall_take. eapply Forall_impl; [exact Hh|]. by intros c [_ ?].
    - apply body_add_plains; [|done]. apply Forall_drop. eapply Forall_impl; [exact Hh|].
      intros c [_ ?]. by apply hex_plain. }
  destruct (find (RTimes 4 (RSet is_hex)) s) as [y0|] eqn:E2; [|done].
  injection Hf as <- <-. split; [done|]. split; [by right|]. intros b Hb.
  apply find_elem, rtimes_inv in E2 as (h & Hs & Hl & Hh). simpl in Hs. rewrite (Hv' _ Hs).
  simpl. apply body_unicode; [done| |done]. eapply Forall_impl; [exact Hh|]. by intros c [_ ?].
Qed.

Lemma body_inv q st p s ts st2 p2 s2 :
  is_quote q = true → lexes ((SString, [q]) :: st) p s ts st2 p2 s2 →
  Forall (λ t, text_kind (kind_of_token t)) ts →
  (st2 = (SString, [q]) :: st ∧ string_body q (text_of ts)) ∨ (∃ g st', st2 = (SUnicode, g) :: st').
Proof.
  intros Hq. remember (length ts) as n eqn:En. revert ts En p s. induction n as [n IH] using lt_wf_ind.
  intros ts -> p s H Hts. inversion H as [|? ? ? t st1 s1 ts1 ? ? ? H1 H2]; subst.
  { left. split; [done|]. constructor. }
  apply Forall_cons in Hts as [Ht Hts].
  destruct (string_step_inv _ _ _ _ _ _ _ Hq H1 Ht) as [[-> Hb]|(Hv & g & ->)].
  - destruct (IH (length ts1) ltac:(simpl; lia) ts1 eq_refl _ _ H2 Hts) as [[-> Hb1]|?]; [left|by right].
    split; [done|]. by apply Hb.
  - inversion H2 as [|? ? ? t' st1 s1' ts1' ? ? ? H3 H4]; subst; [right; eauto|].
    destruct (unicode_step_inv q _ _ _ _ _ _ _ H3) as (-> & _ & Hb). apply Forall_cons in Hts as [_ Hts].
    destruct (IH (length ts1') ltac:(simpl; lia) ts1' eq_refl _ _ H4 Hts) as [[-> Hb1]|?]; [left|by right].
    split; [done|]. unfold text_of in *. cbn [map concat]. rewrite Hv. by apply Hb.
Qed.

Lemma lexes_app_inv st p s ts1 ts2 st2 p2 s2 :
  lexes st p s (ts1 ++ ts2) st2 p2 s2 →
  ∃ st1 p1 s1, lexes st p s ts1 st1 p1 s1 ∧ lexes st1 p1 s1 ts2 st2 p2 s2.
Proof.
  revert st p s. induction ts1 as [|t ts1 IH]; intros st p s H; simpl in H.
  { exists st, p, s. split; [constructor|done]. }
  inversion H as [|? ? ? ? st1 s1 ? ? ? ? H1 H2]; subst. destruct (IH _ _ _ H2) as (st3 & p3 & s3 & H3 & H4).
  exists st3, p3, s3. split; [by econstructor|done].
Qed.
Lemma lex_lexes n st p s ts st' :
  lex_fuel n st p s = Ok (Lexed ts st') → ∃ p', lexes st p s ts st' p' [].
Proof.
  revert st p s ts. induction n as [|n IH]; intros st p s ts H.
  { destruct s; [|done]. injection H as <- <-. eexists. constructor. }
  cbn [lex_fuel] in H. destruct s as [|c s]; [injection H as <- <-; eexists; constructor|].
  destruct (lex_step st p (c :: s)) as [[[t s'] st1]|] eqn:E; [|done].
  destruct (lex_fuel n st1 _ s') as [[ts1 st2|]| |] eqn:E'; try done. injection H as <- <-.
  apply IH in E' as [p' Hp']. exists p'. by econstructor.
Qed.

(** The opening quote. *)
Lemma step_open m g st p q s :
  code_state m → is_quote q = true →
  lex_step ((m, g) :: st) p (q :: s) = Some (Token TString [q] p, s, (SString, [q]) :: (m, g) :: st).
Proof.
  intros Hm Hq. set (r := Rule TString (RGroup (RSet is_quote)) (Push SString)).
  assert (find (pattern r) (q :: s) = Some (Spot (Some q) s (Some [q]))) as Hf.
  { unfold find. cbn [pattern r matches]. destruct (quote_special q Hq) as (_ & Hqa & _).
    cbn [rest]. rewrite Hqa, Hq. cbn [andb map head group before rest length].
    replace (S (length s) - length s) with 1 by lia. done. }
  erewrite (lex_step_some ((st)) (m, g) p _ r (Spot (Some q) s (Some [q])) [q]); [done|..|done|done].
  rewrite (rules_code m g Hm).
  apply (first_match_dead (rules (m, [])) (place (rules (m, [])) TString) [q] s);
    [..|exact Hf]; by destruct Hm as [-> | ->], (quote_cases q Hq) as [-> | ->].
Qed.

(** A whole string in code. *)
Lemma lex_string m g st p q b s :
  code_state m → is_quote q = true → string_body q b →
  ∃ o ts c p', kind_of_token o = TString ∧ value o = [q] ∧ kind_of_token c = TStringEnd ∧ value c = [q] ∧
    text_of ts = b ∧ Forall (λ t, text_kind (kind_of_token t)) ts ∧
    lexes ((m, g) :: st) p (q :: b ++ q :: s) (o :: ts ++ [c]) ((m, g) :: st) p' s.
Proof.
  intros Hm Hq Hb. destruct (lex_body q ((m, g) :: st) (advance p [q]) b s Hq Hb) as (ts & p1 & H1 & H2 & H3).
  exists (Token TString [q] p), ts, (Token TStringEnd [q] p1), (advance p1 [q]).
  do 4 (split; [done|]). split; [done|]. split; [done|].
  econstructor; [by apply step_open|]. eapply lexes_app; [exact H3|].
  econstructor; [by apply step_end|]. constructor.
Qed.
