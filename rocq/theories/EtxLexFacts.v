(** * Facts about the lexer *)
From stdpp Require Import base list option strings.
From Coq Require Import Ascii Lia.
From Verif Require Import GoBase EtxHeap EtxText EtxTextFacts EtxLex EtxLexSpec.

(** ** Matches *)
Lemma matches_steps r x y : y ∈ matches r x → rsteps (rest x) (rest y).
Proof.
  revert x y. induction r as [p|p| |r1 IH1 r2 IH2|r1 IH1 r2 IH2|r IH|r IH| |r IH]; intros x y Hy; simpl in Hy.
  - destruct (rest x) as [|c s]; [by apply elem_of_nil in Hy|].
    destruct (is_ascii_byte c) eqn:E; simpl in Hy; [|by apply elem_of_nil in Hy].
    destruct (p c); [|by apply elem_of_nil in Hy]. apply elem_of_list_singleton in Hy as ->. by apply rsteps_ascii.
  - destruct (rest x) as [|c s]; [by apply elem_of_nil in Hy|].
    destruct (_ && _); [by apply elem_of_nil in Hy|]. apply elem_of_list_singleton in Hy as ->.
    by apply (rsteps_one (c :: s)).
  - apply elem_of_list_singleton in Hy as ->. apply rsteps_refl.
  - apply elem_of_list_In, in_flat_map in Hy as (z & Hz & Hy).
    apply elem_of_list_In in Hz, Hy. eapply rsteps_trans; [by apply IH1|by apply IH2].
  - apply elem_of_app in Hy as [Hy|Hy]; auto.
  - revert Hy. generalize (length (rest x)). intros n. revert x. induction n as [|n IHn]; intros x Hy.
    + apply elem_of_list_singleton in Hy as ->. apply rsteps_refl.
    + apply elem_of_app in Hy as [Hy|Hy].
      * apply elem_of_list_In, in_flat_map in Hy as (z & Hz & Hy). apply elem_of_list_In in Hz, Hy.
        eapply rsteps_trans; [by apply IH|by apply IHn].
      * apply elem_of_list_singleton in Hy as ->. apply rsteps_refl.
  - revert Hy. generalize (length (rest x)). intros n. revert x. induction n as [|n IHn]; intros x Hy.
    + apply elem_of_list_singleton in Hy as ->. apply rsteps_refl.
    + apply elem_of_cons in Hy as [->|Hy]; [apply rsteps_refl|].
      apply elem_of_list_In, in_flat_map in Hy as (z & Hz & Hy). apply elem_of_list_In in Hz, Hy.
      eapply rsteps_trans; [by apply IH|by apply IHn].
  - destruct (xorb _ _); [|by apply elem_of_nil in Hy].
    apply elem_of_list_singleton in Hy as ->. apply rsteps_refl.
  - apply elem_of_list_fmap in Hy as (z & -> & Hz). simpl. by apply IH.
Qed.
Lemma head_elem {A} (l : list A) x : head l = Some x → x ∈ l.
Proof. destruct l; [done|]. intros [= ->]. left. Qed.
Lemma find_steps r s y : find r s = Some y → rsteps s (rest y).
Proof. intros H%head_elem. apply matches_steps in H. done. Qed.
Lemma first_match_elem l s r y :
  first_match l s = Some (r, y) → r ∈ l ∧ find (pattern r) s = Some y.
Proof.
  induction l as [|r0 l IH]; [done|]. simpl. destruct (find (pattern r0) s) eqn:E.
  - intros [= <- <-]. by split; [left|].
  - intros [? ?]%IH. by split; [right|].
Qed.

(** ** One step *)
Lemma cut_span s s' : rsteps s s' → s = take (length s - length s') s ++ s'.
Proof.
  intros [pre ->]%rsteps_suffix. rewrite app_length. replace (length pre + length s' - length s')
    with (length pre) by lia. by rewrite take_app.
Qed.
Lemma lex_step_inv st p s t s' st' :
  lex_step st p s = Some (t, s', st') →
  ∃ fr st0 r y, st = fr :: st0 ∧ r ∈ rules fr ∧ find (pattern r) s = Some y ∧
    s = value t ++ s' ∧ value t ≠ [] ∧ rsteps s s' ∧ s' = rest y ∧
    start t = p ∧ kind_of_token t = rname r ∧ st' = apply_action (act r) y st.
Proof.
  unfold lex_step. destruct st as [|fr st0]; [done|].
  destruct (first_match (rules fr) s) as [[r y]|] eqn:E; [|done].
  apply first_match_elem in E as [Hr Hy]. pose proof (find_steps _ _ _ Hy) as Hs.
  destruct (decide _) as [|Hne]; [done|]. intros [= <- <- <-].
  exists fr, st0, r, y. simpl. pose proof (cut_span _ _ Hs).
  repeat match goal with |- _ ∧ _ => split end; done.
Qed.

(** ** The whole input *)
Lemma lex_total n st p s : length s ≤ n → ∃ l, lex_fuel n st p s = Ok l ∧ length (tokens_of l) ≤ length s.
Proof.
  revert st p s. induction n as [|n IH]; intros st p s Hs.
  { destruct s; simpl in *; [|lia]. eexists. by split. }
  cbn [lex_fuel]. destruct s as [|c s]; [eexists; by split|]. set (s0 := c :: s) in *.
  destruct (lex_step st p s0) as [[[t s'] st']|] eqn:E; [|eexists; split; [done|simpl; lia]].
  apply lex_step_inv in E as (fr & st0 & r & y & _ & _ & _ & Hv & Hne & _).
  assert (length s0 = length (value t) + length s') as Hl by (rewrite <- app_length; by f_equal).
  assert (0 < length (value t)) by (destruct (value t); simpl; [done|lia]).
  destruct (IH st' (advance p (value t)) s') as (l & -> & Hlen); [lia|].
  eexists. split; [done|]. destruct l; simpl in *; lia.
Qed.
(** The general induction: what holds of every step holds of a whole run. *)
Lemma lex_fuel_ok n m st p s l :
  lex_fuel n st p s = Ok l → n ≤ m → lex_fuel m st p s = Ok l.
Proof.
  revert m st p s l. induction n as [|n IH]; intros m st p s l H Hm.
  { destruct s; [|done]. by destruct m. }
  destruct m as [|m]; [lia|]. cbn [lex_fuel] in *. destruct s as [|c s]; [done|].
  destruct (lex_step st p (c :: s)) as [[[t s'] st']|]; [|done].
  destruct (lex_fuel n st' _ s') as [l'| |] eqn:E; [|done|done].
  rewrite (IH m _ _ _ _ E) by lia. done.
Qed.

Lemma lex_lossless n st p s l :
  lex_fuel n st p s = Ok l →
  Forall (λ t, value t ≠ []) (tokens_of l) ∧
  match l with
  | Lexed ts _ => text_of ts = s
  | LexError ts _ => ∃ s', s = text_of ts ++ s' ∧ s' ≠ []
  end.
Proof.
  revert st p s l. induction n as [|n IH]; intros st p s l H.
  { destruct s; [|done]. injection H as <-. split; [constructor|done]. }
  cbn [lex_fuel] in H. destruct s as [|c s]; [injection H as <-; split; [constructor|done]|]. set (s0 := c :: s) in *.
  destruct (lex_step st p s0) as [[[t s'] st']|] eqn:E.
  2:{ injection H as <-. split; [constructor|]. by exists s0. }
  apply lex_step_inv in E as (fr & st0 & r & y & _ & _ & _ & Hv & Hne & _).
  destruct (lex_fuel n st' _ s') as [l'| |] eqn:E'; [|done|done]. injection H as <-.
  apply IH in E' as [Hf Hl]. rewrite Hv.
  destruct l' as [ts st''|ts p']; simpl in *; (split; [by constructor|]); unfold text_of in *; simpl.
  - by rewrite Hl.
  - destruct Hl as (s'' & -> & ?). exists s''. by rewrite (assoc_L (++)).
Qed.

Lemma lex_positions n st file pre s l :
  lex_fuel n st (pos_at file pre) s = Ok l → rsteps (pre ++ s) s →
  (∀ i t, tokens_of l !! i = Some t → start t = pos_at file (pre ++ text_of (take i (tokens_of l)))) ∧
  match l with
  | LexError ts p => p = pos_at file (pre ++ text_of ts)
  | _ => True
  end.
Proof.
  revert st pre s l. induction n as [|n IH]; intros st pre s l H Hpre.
  { destruct s; [|done]. injection H as <-. done. }
  cbn [lex_fuel] in H. destruct s as [|c s]; [injection H as <-; by split|]. set (s0 := c :: s) in *.
  destruct (lex_step st _ s0) as [[[t s'] st']|] eqn:E.
  2:{ injection H as <-. split; [done|]. unfold text_of. simpl. by rewrite (right_id_L [] (++)). }
  apply lex_step_inv in E as (fr & st0 & r & y & _ & _ & _ & Hv & Hne & Hs & _ & Hp & _).
  destruct (lex_fuel n st' _ s') as [l'| |] eqn:E'; [|done|done]. injection H as <-.
  rewrite Hv in Hpre, Hs. rewrite (advance_pos_at file pre (value t) s') in E' by done.
  apply IH in E' as [Hts Hl].
  2:{ rewrite <- (assoc_L (++)). by eapply rsteps_trans. }
  assert (∀ i t', (t :: tokens_of l') !! i = Some t' →
                  start t' = pos_at file (pre ++ text_of (take i (t :: tokens_of l')))) as Hall.
  { intros [|i] t' Ht'; simpl in *.
    - injection Ht' as <-. unfold text_of. simpl. by rewrite (right_id_L [] (++)).
    - rewrite (Hts _ _ Ht'). unfold text_of. simpl. by rewrite (assoc_L (++)). }
  destruct l'; simpl in *; (split; [done|]); [done|]. rewrite Hl. unfold text_of. simpl.
  by rewrite (assoc_L (++)).
Qed.

(** ** Texts as patterns *)
Definition ascii_text (g : text) : Prop := Forall (λ c, is_ascii_byte c = true) g.
Lemma rchar_matches c x y : y ∈ matches (RChar c) x → ∃ s, rest x = c :: s ∧ y = Spot (Some c) s (group x).
Proof.
  simpl. destruct (rest x) as [|c' s]; [by intros ?%elem_of_nil|].
  destruct (is_ascii_byte c'); [|by intros ?%elem_of_nil]. simpl.
  destruct (Ascii.eqb_spec c c') as [->|]; [|by intros ?%elem_of_nil].
  intros ->%elem_of_list_singleton. eauto.
Qed.
Lemma rtext_cons c d g x : matches (RText (c :: d :: g)) x = flat_map (matches (RText (d :: g))) (matches (RChar c) x).
Proof. done. Qed.
Lemma rtext_inv g x y : y ∈ matches (RText g) x → rest x = g ++ rest y ∧ group y = group x.
Proof.
  revert x. induction g as [|c [|d g] IH]; intros x Hy.
  - apply elem_of_list_singleton in Hy as ->. done.
  - apply rchar_matches in Hy as (s & -> & ->). done.
  - rewrite rtext_cons in Hy. apply elem_of_list_In, in_flat_map in Hy as (z & Hz & Hy).
    apply elem_of_list_In in Hz, Hy. apply rchar_matches in Hz as (s & -> & ->).
    apply IH in Hy as [Hy ?]. simpl in *. by rewrite Hy.
Qed.
Lemma rchar_some c x s :
  is_ascii_byte c = true → rest x = c :: s → matches (RChar c) x = [Spot (Some c) s (group x)].
Proof. intros Hc Hx. simpl. by rewrite Hx, Hc, Ascii.eqb_refl. Qed.
Lemma rtext_some g x s :
  ascii_text g → rest x = g ++ s → matches (RText g) x = [Spot (match last g with Some c => Some c | None => before x end) s (group x)].
Proof.
  revert x. induction g as [|c [|d g] IH]; intros x Hg Hx.
  - destruct x; simpl in *. by rewrite Hx.
  - apply Forall_cons in Hg as [Hc _]. change (RText [c]) with (RChar c). by rewrite (rchar_some c x s).
  - apply Forall_cons in Hg as [Hc Hg]. rewrite rtext_cons, (rchar_some c x (d :: g ++ s)) by done.
    cbn [flat_map]. rewrite (right_id_L [] (++)). rewrite IH by done. cbn [before group].
    change (last (c :: d :: g)) with (last (d :: g)).
    destruct (last (d :: g)) eqn:E; [done|]. by apply last_None in E.
Qed.
