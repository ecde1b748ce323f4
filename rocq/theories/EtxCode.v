(** * Printed text and the tokens it is read as *)
From stdpp Require Import base list option strings.
From Coq Require Import Ascii Lia.
From Verif Require Import GoBase EtxAst EtxHeap EtxHeapSpec EtxText EtxLex EtxLexSpec EtxLexFacts EtxLexNest EtxLexOps
  EtxLexIdent EtxLexString EtxUtil EtxUtilProofs EtxNumProofs EtxGram EtxParse EtxParseLexed EtxLayout EtxRelex EtxWriteSpec.

Definition lexeme : Type := tname * text.
Definition lex_of (t : token) : lexeme := (kind_of_token t, value t).
(** [spells W u z]: in front of [z], the text [u] is read as [W]. *)
Definition spells (W : list lexeme) (u z : text) : Prop :=
  ∀ p, ∃ ts p', lexes root p (u ++ z) ts root p' z ∧ map lex_of (elide ts) = W.
Lemma spells_nil z : spells [] [] z.
Proof. intros p. exists [], p. split; constructor. Qed.
Lemma spells_app W V s1 s2 z : spells W s1 (s2 ++ z) → spells V s2 z → spells (W ++ V) (s1 ++ s2) z.
Proof.
  intros H1 H2 p. destruct (H1 p) as (ts1 & p1 & L1 & A1). destruct (H2 p1) as (ts2 & p2 & L2 & A2).
  exists (ts1 ++ ts2), p2. split; [rewrite <- (assoc_L (++)); by eapply lexes_app|]. rewrite elide_app, map_app. by rewrite A1, A2.
Qed.
Lemma spells_step k v z :
  k ≠ TWhitespace → (∀ p, lex_step root p (v ++ z) = Some (Token k v p, z, root)) → spells [(k, v)] v z.
Proof.
  intros Hk H p. exists [Token k v p], (advance p v). split.
  - econstructor; [apply H|constructor].
  - unfold elide. rewrite filter_cons, decide_True by done. done.
Qed.
Lemma spells_blank b z : b ≠ [] → Forall (λ c, blank c = true) b → stops blank z → spells [] b z.
Proof.
  intros Hb Hf Hz p. destruct b as [|c b]; [done|]. exists [Token TWhitespace (c :: b) p], (advance p (c :: b)). split; [|done].
  set (r := Rule TWhitespace (RPlus (RSet blank)) Stay).
  assert (Forall (λ c, is_ascii_byte c = true ∧ blank c = true) (c :: b)) as Hf'.
  { eapply Forall_impl; [exact Hf|]. intros d Hd. split; [|done]. unfold blank in Hd.
    apply orb_true_iff in Hd as [Hd|Hd]; apply Ascii.eqb_eq in Hd; by subst. }
  pose proof (head_plus_set blank (Spot None ((c :: b) ++ z) None) c b z Hf' Hz eq_refl) as H.
  econstructor; [|constructor]. unfold root.
  erewrite (lex_step_some [] (SRoot, []) p _ r (Spot (last_or None (c :: b)) z None) (c :: b)); [done|..|done|done].
  apply Forall_cons in Hf as [Hc _].
  change ((c :: b) ++ z) with ([c] ++ b ++ z) in *. apply (first_match_dead (rules (SRoot, [])) 46 [c] (b ++ z)); [|done|exact H].
  unfold blank in Hc. apply orb_true_iff in Hc as [Hc|Hc]; apply Ascii.eqb_eq in Hc; subst; by vm_compute.
Qed.
Lemma spells_lf z : spells [(TLF, [lf])] [lf] z.
Proof.
  apply spells_step; [done|]. intros p. set (r := Rule TLF (RSet (λ c, Ascii.eqb c cr || Ascii.eqb c lf)) Stay). unfold root.
  erewrite (lex_step_some [] (SRoot, []) p _ r (Spot (Some lf) z None) [lf]); [done|..|done|done].
  apply (first_match_dead (rules (SRoot, [])) 45 [lf] z); [by vm_compute|done|done].
Qed.
Lemma spells_op o k z :
  (o, k) ∈ operators → match z with c :: _ => extends o c = false | [] => True end → spells [(k, chars o)] (chars o) z.
Proof.
  intros Ho Hz. apply spells_step.
  - intros ->. apply text_of_op_spec in Ho. by vm_compute in Ho.
  - intros p. apply lex_operator; [done|by left|done|done].
Qed.
Lemma spells_name v z : name v → ident_ends z → spells [(TIdent, v)] v z.
Proof.
  intros (u & us & -> & Hid & Hk) Hz. apply spells_step; [done|]. intros p. rewrite <- (assoc_L (++)). apply lex_ident; [by left|done..].
Qed.
Lemma spells_keyword k n z : (k, n) ∈ keywords → stops is_word z → spells [(n, chars k)] (chars k) z.
Proof.
  intros Hk Hz. apply spells_step.
  - intros ->. unfold keywords in Hk. rewrite !elem_of_cons, elem_of_nil in Hk. by destruct_or?.
  - intros p. by apply lex_keyword; [left|..].
Qed.
Lemma spells_number v z : number_text v → number_ends z → spells [(TNumber, v)] v z.
Proof. intros Hv Hz. apply spells_step; [done|]. intros p. by apply lex_number; [left|..]. Qed.
Lemma spells_remark v z : remark v → spells [(TSingleLineComment, v)] v (lf :: z).
Proof.
  intros [[w Hw] Hv]. apply spells_step; [done|]. intros p.
  set (r := Rule TSingleLineComment (RCat (RAlt (RLit "//") (RLit "#")) (RStar (RNot (Ascii.eqb lf)))) Stay).
  assert (∃ b, find (pattern r) (v ++ lf :: z) = Some (Spot b (lf :: z) None)) as [b Hb].
  { assert (Forall (λ c, outside (Ascii.eqb lf) c = true) w) as Ho.
    { apply Forall_forall. intros c Hc. assert (c ≠ lf) as Hne.
      { intros ->. apply Hv. destruct Hw as [-> | ->]; apply elem_of_app; by right. }
      unfold outside. destruct (Ascii.eqb_spec lf c); [by subst|]. by destruct (is_ascii_byte c). }
    destruct (head_star_rnot (Ascii.eqb lf) (length (w ++ lf :: z)) (Spot (Some (if decide (v = chars "//" ++ w) then "/" else "#")%char) (w ++ lf :: z) None) w lf z)
      as (b & Hb); [done|done|done|rewrite app_length; cbn; lia|]. exists b.
    unfold find. cbn [pattern r]. destruct Hw as [-> | ->].
    - rewrite decide_True in Hb by done. eapply head_rcat; [|rewrite matches_star; exact Hb]. by vm_compute.
    - rewrite decide_False in Hb by done. eapply head_rcat; [|rewrite matches_star; exact Hb]. by vm_compute. }
  unfold root. erewrite (lex_step_some [] (SRoot, []) p _ r (Spot b (lf :: z) None) v); [done|..|done|].
  - apply (first_match_dead (rules (SRoot, [])) 0 [] (v ++ lf :: z)); [done|done|exact Hb].
  - by destruct Hw as [-> | ->].
Qed.

(** ** Strings *)
Definition piece_kind (v : text) : tname :=
  if decide (v = chars "'") then TQuote else if decide (v = chars "$${" ∨ v = chars "%%{") then TNonExpr else TChar.
Lemma no_special_outside c : no_special c = true → outside special c = true ∧ c ≠ lf.
Proof.
  unfold no_special. intros [H1 H2]%andb_true_iff. apply negb_true_iff in H1, H2. split; [|intros ->; done].
  unfold outside, special. rewrite H1. by destruct (is_ascii_byte c).
Qed.
Lemma run_special v : run v → Forall (λ c, outside special c = true) v.
Proof. intros [_ H]. eapply Forall_impl; [exact H|]. intros c Hc. by apply no_special_outside. Qed.
Lemma run_char v : run v → piece_kind v = TChar.
Proof.
  intros H. apply run_special in H. unfold piece_kind. rewrite decide_False by (intros ->; by apply Forall_cons in H as [? _]).
  rewrite decide_False; [done|]. intros [-> | ->]; by apply Forall_cons in H as [? _].
Qed.
Lemma lexes_pieces l z p :
  Forall piece l → no_runs l →
  ∃ ts p', lexes (inside quote) p (concat l ++ quote :: z) ts (inside quote) p' (quote :: z) ∧
    map lex_of ts = map (λ v, (piece_kind v, v)) l.
Proof.
  intros Hf. revert p. induction Hf as [|v l Hv Hf IH]; intros p Hd; [exists [], p; split; constructor|].
  assert (no_runs l) as Hd' by (destruct l; [done|apply Hd]).
  assert (lex_step (inside quote) p (v ++ concat l ++ quote :: z) = Some (Token (piece_kind v) v p, concat l ++ quote :: z, inside quote)) as L.
  { destruct Hv as [Hv|[-> |Hv]].
    - rewrite (run_char v Hv).
      assert (∃ d r, concat l ++ quote :: z = d :: r ∧ outside special d = false) as (d & r & -> & Hds).
      { destruct l as [|v2 l]; [by exists quote, z|]. destruct Hd as [Hd _]. apply Forall_cons in Hf as [Hf _]. cbn [concat].
        destruct Hf as [Hf|[-> |Hf]]; [by destruct Hd|by eexists _, _|]. destruct Hf as [-> | ->]; by eexists _, _. }
      destruct v as [|c v]; [by destruct Hv|]. apply step_run; [done|by apply run_special|done].
    - apply step_quote; done.
    - assert (piece_kind v = TNonExpr) as -> by (by destruct Hv as [-> | ->]). by apply step_non_expr. }
  destruct (IH (advance p v) Hd') as (ts & p' & L' & A'). exists (Token (piece_kind v) v p :: ts), p'. split.
  - cbn [concat]. rewrite <- (assoc_L (++)). by econstructor.
  - cbn [map]. by rewrite A'.
Qed.
Definition string_lexemes (l : list text) : list lexeme :=
  (TString, [quote]) :: map (λ v, (piece_kind v, v)) l ++ [(TStringEnd, [quote])].
Lemma piece_kind_white v : piece_kind v ≠ TWhitespace.
Proof. unfold piece_kind. by repeat case_decide. Qed.
Lemma elide_none ts : Forall (λ t, kind_of_token t ≠ TWhitespace) ts → elide ts = ts.
Proof. unfold elide. induction 1 as [|x l Hx K IH]; [done|]. rewrite filter_cons, decide_True by done. by rewrite IH. Qed.
Lemma spells_string l z : Forall piece l → no_runs l → spells (string_lexemes l) (quote :: concat l ++ [quote]) z.
Proof.
  intros Hf Hd p. destruct (lexes_pieces l z (advance p [quote]) Hf Hd) as (ts & p' & L & A).
  exists (Token TString [quote] p :: ts ++ [Token TStringEnd [quote] p']), (advance p' [quote]). split.
  - replace ((quote :: concat l ++ [quote]) ++ z) with (quote :: concat l ++ quote :: z) by (cbn; by rewrite <- (assoc_L (++))).
    econstructor; [apply step_open; [by left|done]|]. eapply lexes_app; [exact L|].
    econstructor; [by apply step_end|]. constructor.
  - rewrite elide_none; [cbn [map]; rewrite map_app, A; done|]. constructor; [done|]. apply Forall_app. split; [|by constructor].
    apply Forall_forall. intros t Ht. assert (lex_of t ∈ map lex_of ts) as H by (by apply elem_of_list_fmap_1). rewrite A in H.
    apply elem_of_list_fmap in H as (v & E & _). injection E as -> _. apply piece_kind_white.
Qed.

(** ** Printed text *)
(** A piece of text that indentation leaves alone. *)
Definition solid (v : text) : Prop := stops blank v ∧ v ≠ [] ∧ lf ∉ v.
(** [legible z u W]: in front of [z], the text [u] is read as [W], and so it is after it has
    been indented. *)
Inductive legible (z : text) : text → list lexeme → Prop :=
| leg_nil : legible z [] []
| leg_feed u W : legible z u W → legible z (lf :: u) ((TLF, [lf]) :: W)
| leg_blank b u W : b ≠ [] → Forall (λ c, blank c = true) b → stops blank (u ++ z) → legible z u W → legible z (b ++ u) W
| leg_solid v V u W :
    solid v → Forall (λ x, x.1 ≠ TLF) V → (∀ r, head r = head (u ++ z) → spells V v r) → legible z u W → legible z (v ++ u) (V ++ W).
Lemma leg_spells z u W : legible z u W → spells W u z.
Proof.
  induction 1 as [|u W H IH|b u W Hb Hf Hs H IH|v V u W Hv Hq Hs H IH].
  - apply spells_nil.
  - apply (spells_app [_] W [lf] u); [apply spells_lf|done].
  - apply (spells_app [] W b u); [by apply spells_blank|done].
  - apply spells_app; [by apply Hs|done].
Qed.
Lemma stops_head p (r r' : text) : head r = head r' → stops p r → stops p r'.
Proof. destruct r, r'; cbn; intros E; simplify_eq; done. Qed.
Lemma head_app_eq (u z z' : text) : head z = head z' → head (u ++ z) = head (u ++ z').
Proof. by destruct u. Qed.
Lemma leg_ext z z' u W : head z = head z' → legible z u W → legible z' u W.
Proof.
  intros E. induction 1 as [|u W H IH|b u W Hb Hf Hs H IH|v V u W Hv Hq Hs H IH]; [constructor|by constructor| |].
  - constructor; [done|done| |done]. eapply stops_head; [|exact Hs]. by apply head_app_eq.
  - constructor; [done|done| |done]. intros r Hr. apply Hs. rewrite Hr. symmetry. by apply head_app_eq.
Qed.
Lemma leg_app z u1 u2 W1 W2 : legible (u2 ++ z) u1 W1 → legible z u2 W2 → legible z (u1 ++ u2) (W1 ++ W2).
Proof.
  intros H H2. induction H as [|u W H IH|b u W Hb Hf Hs H IH|v V u W Hv Hq Hs H IH]; [done|by constructor| |].
  - rewrite <- (assoc_L (++)). constructor; [done|done| |done]. by rewrite <- (assoc_L (++)).
  - rewrite <- !(assoc_L (++)). constructor; [done|done| |done]. intros r Hr. apply Hs. by rewrite Hr, <- (assoc_L (++)).
Qed.

(** *** Indentation *)
Lemma indent_solid b p v u : lf ∉ v → v ≠ [] → indent_from b p (v ++ u) = (if b then p else []) ++ v ++ indent_from false p u.
Proof.
  intros Hv Hne. destruct v as [|c v]; [done|]. clear Hne. cbn [app indent_from].
  assert (Ascii.eqb c lf = false) as E by (apply Ascii.eqb_neq; intros ->; apply Hv; by left).
  rewrite E. cbn [negb]. rewrite andb_true_r. f_equal. f_equal.
  assert (lf ∉ v) as Hv' by (intros H; apply Hv; by right). clear Hv E c. revert Hv'.
  induction v as [|c v IH]; intros Hv; [done|]. cbn [app indent_from].
  assert (Ascii.eqb c lf = false) as E by (apply Ascii.eqb_neq; intros ->; apply Hv; by left).
  rewrite E. cbn [andb app]. f_equal. apply IH. intros H. apply Hv. by right.
Qed.
Lemma indent_head p (u z : text) : head (indent_from false p u ++ z) = head (u ++ z).
Proof. by destruct u. Qed.
Lemma blank_no_lf b : Forall (λ c, blank c = true) b → lf ∉ b.
Proof. intros H Hl. rewrite Forall_forall in H. by specialize (H _ Hl). Qed.
Lemma leg_tab z u W (b : bool) : stops blank (u ++ z) → legible z u W → legible z ((if b then [tab] else []) ++ u) W.
Proof. intros Hs H. destruct b; [|done]. constructor; [done|by repeat constructor|done|done]. Qed.
Lemma leg_indent z u W : legible z u W → ∀ b, legible z (indent_from b [tab] u) W.
Proof.
  induction 1 as [|u W H IH|b u W Hb Hf Hs H IH|v V u W Hv Hq Hs H IH]; intros bol.
  - constructor.
  - cbn [indent_from]. rewrite andb_false_r. cbn [app]. constructor. apply IH.
  - rewrite indent_solid by (done || by apply blank_no_lf). rewrite (assoc_L (++)). constructor; [by destruct bol|by destruct bol; [constructor|]| |apply IH].
    eapply stops_head; [|exact Hs]. symmetry. apply indent_head.
  - destruct Hv as (Hv1 & Hv2 & Hv3). rewrite indent_solid by done. apply leg_tab; [by destruct v|].
    constructor; [done|done| |apply IH]. intros r Hr. apply Hs. by rewrite Hr, indent_head.
Qed.
Lemma leg_tabbed z u W : legible z u W → legible z (EtxFormat.tabbed u) W.
Proof. intros H. by apply leg_indent. Qed.

(** ** Characters *)
Definition upto (P : ascii → bool) (z : text) : Prop := match z with c :: _ => P c = true | [] => True end.
Definition starts (P : ascii → bool) (u : text) : Prop := match u with c :: _ => P c = true | [] => False end.
(** What may follow an expression, and what may follow a name. *)
Definition soft (c : ascii) : bool := one_of_chars " )],:[" c || Ascii.eqb c lf.
Definition mild (c : ascii) : bool := soft c || one_of_chars ".(" c.
(** What operands, operands that are no numbers, and other things start with. *)
Definition lead (c : ascii) : bool := is_word c || is_quote c || one_of_chars "~!-+.([" c.
Definition clear (c : ascii) : bool := is_word c || is_quote c || one_of_chars ".[" c.
Definition gentle (c : ascii) : bool := is_alpha c || is_quote c || Ascii.eqb c "[".
Definition after_word (c : ascii) : bool := negb (is_word c) && negb (Ascii.eqb c "-").
Definition after_number (c : ascii) : bool := negb (is_word c) && negb (Ascii.eqb c ".").
Definition not_blank (c : ascii) : bool := negb (blank c).
Lemma implies_all (P Q : ascii → bool) : forallb (λ c, implb (P c) (Q c)) all_ascii = true → ∀ c, P c = true → Q c = true.
Proof. intros H c Hc. pose proof (for_all_ascii _ H c) as H'. cbn in H'. by rewrite Hc in H'. Qed.
Lemma upto_impl P Q z : forallb (λ c, implb (P c) (Q c)) all_ascii = true → upto P z → upto Q z.
Proof. intros H. destruct z as [|c z]; [done|]. by apply implies_all. Qed.
Lemma starts_impl P Q u : forallb (λ c, implb (P c) (Q c)) all_ascii = true → starts P u → starts Q u.
Proof. intros H. destruct u as [|c u]; [done|]. by apply implies_all. Qed.
Lemma starts_app P u v : starts P u → starts P (u ++ v).
Proof. by destruct u. Qed.
Lemma starts_upto P Q u z : forallb (λ c, implb (P c) (Q c)) all_ascii = true → starts P u → upto Q (u ++ z).
Proof. intros H. destruct u as [|c u]; [done|]. by apply implies_all. Qed.
Lemma upto_head P z z' : head z = head z' → upto P z → upto P z'.
Proof. destruct z, z'; cbn; intros E; simplify_eq; done. Qed.
Lemma upto_stops P z : upto (λ c, negb (P c)) z → stops P z.
Proof. destruct z; [done|]. by intros H%negb_true_iff. Qed.
Lemma upto_ident z : upto after_word z → ident_ends z.
Proof.
  destruct z as [|c z]; [done|]. cbn. intros [H1 H2]%andb_true_iff. apply negb_true_iff in H1, H2.
  split; [done|]. by intros ->.
Qed.
Lemma upto_number z : upto after_number z → number_ends z.
Proof.
  destruct z as [|c z]; [done|]. cbn. intros [H1 H2]%andb_true_iff. apply negb_true_iff in H1, H2.
  split; [done|]. by intros ->.
Qed.

(** ** Putting texts together *)
Lemma leg_op o k z u W :
  (o, k) ∈ operators → upto (λ c, negb (extends o c)) (u ++ z) → legible z u W → legible z (chars o ++ u) ((k, chars o) :: W).
Proof.
  intros Ho Hu H. apply (leg_solid z (chars o) [(k, chars o)]); [| | |done].
  - unfold operators in Ho. rewrite !elem_of_cons, elem_of_nil in Ho.
    destruct_or?; simplify_eq; (split; [done|split; [done|]]); by apply (bool_decide_unpack _); vm_compute.
  - apply Forall_singleton. unfold operators in Ho. rewrite !elem_of_cons, elem_of_nil in Ho. destruct_or?; by simplify_eq.
  - intros r Hr. apply spells_op; [done|]. apply (upto_head _ _ r) in Hu; [|done]. destruct r; [done|]. by apply negb_true_iff.
Qed.
Lemma leg_space z u W : upto not_blank (u ++ z) → legible z u W → legible z (chars " " ++ u) W.
Proof. intros Hu H. apply leg_blank; [done|by repeat constructor| |done]. by apply upto_stops. Qed.
Lemma name_head v : name v → starts is_alpha v.
Proof. intros (u & us & -> & (_ & (c & Hc & Ha) & _) & _). destruct u as [|d u]; [done|]. by injection Hc as ->. Qed.
Lemma name_chars v : name v → Forall (λ c, is_word c || Ascii.eqb c "-" = true) v.
Proof.
  intros (u & us & -> & ([_ Hu] & _ & Hus) & _). apply Forall_app. split.
  - eapply Forall_impl; [exact Hu|]. intros c Hc. cbn in *. by rewrite Hc.
  - unfold dashed. induction Hus as [|w us [_ Hw] _ IH]; [constructor|]. cbn [map concat app]. constructor; [done|].
    apply Forall_app. split; [|done]. eapply Forall_impl; [exact Hw|]. intros c Hc. cbn in *. by rewrite Hc.
Qed.
Lemma solid_chars P v : forallb (λ c, implb (P c) (negb (Ascii.eqb c lf) && not_blank c)) all_ascii = true → v ≠ [] → Forall (λ c, P c = true) v → solid v.
Proof.
  intros HP Hne Hv. pose proof (implies_all _ _ HP) as HP'. split_and!; [|done|].
  - destruct v as [|c v]; [done|]. apply Forall_cons in Hv as [Hc _]. apply HP', andb_true_iff in Hc as [_ Hc]. by apply negb_true_iff.
  - intros Hl. rewrite Forall_forall in Hv. apply Hv, HP' in Hl. done.
Qed.
Lemma leg_name v z u W : name v → upto after_word (u ++ z) → legible z u W → legible z (v ++ u) ((TIdent, v) :: W).
Proof.
  intros Hv Hu H. apply (leg_solid z v [(TIdent, v)]); [|by repeat constructor| |done].
  - eapply (solid_chars (λ c, is_word c || Ascii.eqb c "-")); [by vm_compute| |by apply name_chars]. intros ->. by apply name_head in Hv.
  - intros r Hr. apply spells_name; [done|]. apply upto_ident. by eapply upto_head; [|exact Hu].
Qed.
Lemma leg_keyword k n z u W :
  (k, n) ∈ keywords → upto (λ c, negb (is_word c)) (u ++ z) → legible z u W → legible z (chars k ++ u) ((n, chars k) :: W).
Proof.
  intros Hk Hu H. apply (leg_solid z (chars k) [(n, chars k)]); [| | |done].
  - unfold keywords in Hk. rewrite !elem_of_cons, elem_of_nil in Hk.
    destruct_or?; simplify_eq; (split; [done|split; [done|]]); by apply (bool_decide_unpack _); vm_compute.
  - apply Forall_singleton. unfold keywords in Hk. rewrite !elem_of_cons, elem_of_nil in Hk. destruct_or?; by simplify_eq.
  - intros r Hr. apply spells_keyword; [done|]. apply upto_stops. by eapply upto_head; [|exact Hu].
Qed.
Definition number_char (c : ascii) : bool := is_word c || one_of_chars "+-." c.
Lemma digits_chars P ds : forallb (λ c, implb (P c) (number_char c)) all_ascii = true → digits_of P ds → Forall (λ c, number_char c = true) ds.
Proof. intros H Hd. eapply Forall_impl; [exact Hd|]. intros c [Hc| ->]; [|done]. revert Hc. by apply (implies_all P). Qed.
Lemma exponent_chars e : exponent_text e → Forall (λ c, number_char c = true) e.
Proof.
  intros [-> |(c & sg & ds & -> & Hc & Hsg & _ & Hds)]; [constructor|]. constructor; [|apply Forall_app; split].
  - unfold chars in Hc. cbn in Hc. rewrite !elem_of_cons, elem_of_nil in Hc. by destruct_or?; subst.
  - rewrite !elem_of_cons, elem_of_nil in Hsg. destruct_or?; subst; repeat constructor.
  - eapply digits_chars; [|done]. by vm_compute.
Qed.
Lemma number_chars v : number_text v → Forall (λ c, number_char c = true) v.
Proof.
  assert (∀ s x, x ∈ chars s → forallb number_char (chars s) = true → number_char x = true) as Hx.
  { intros s x Hx H. rewrite forallb_forall in H. by apply H, elem_of_list_In. }
  intros [x ds H _ Hds|x ds H Hds|x ds H Hds|ds e Hds _ He|ds fs e Hds Hfs _ He].
  1-3: (constructor; [done|]; constructor; [by eapply Hx|]; eapply digits_chars; [|done]; by vm_compute).
  - apply Forall_app. split; [eapply digits_chars; [|done]; by vm_compute|by apply exponent_chars].
  - apply Forall_app. split; [eapply digits_chars; [|done]; by vm_compute|]. constructor; [done|]. apply Forall_app.
    split; [eapply digits_chars; [|done]; by vm_compute|by apply exponent_chars].
Qed.
Lemma leg_number v z u W : number_text v → upto after_number (u ++ z) → legible z u W → legible z (v ++ u) ((TNumber, v) :: W).
Proof.
  intros Hv Hu H. pose proof (number_chars v Hv) as Hc. apply (leg_solid z v [(TNumber, v)]); [|by repeat constructor| |done].
  - eapply solid_chars; [|by destruct (number_head v Hv) as (? & ? & -> & _)|exact Hc]. by vm_compute.
  - intros r Hr. apply spells_number; [done|]. apply upto_number. by eapply upto_head; [|exact Hu].
Qed.
Lemma leg_remark v z u W : remark v → legible z u W → legible z (v ++ lf :: u) ((TSingleLineComment, v) :: (TLF, [lf]) :: W).
Proof.
  intros Hv H. apply (leg_solid z v [(TSingleLineComment, v)]); [|by repeat constructor| |by constructor].
  - destruct Hv as [[w Hw] Hv]. split_and!; [|by destruct Hw as [-> | ->]|done]. by destruct Hw as [-> | ->].
  - intros r Hr. destruct r as [|c r]; [done|]. injection Hr as ->. by apply spells_remark.
Qed.
Lemma piece_no_lf v : piece v → lf ∉ v.
Proof.
  intros [[_ H]|H] Hl; [rewrite Forall_forall in H; by apply H, no_special_outside in Hl as [_ ?]|].
  destruct_or?; subst v; revert Hl; by apply (bool_decide_unpack _); vm_compute.
Qed.
Lemma string_no_lf l : Forall (λ x, x.1 ≠ TLF) (string_lexemes l).
Proof.
  unfold string_lexemes. constructor; [done|]. apply Forall_app. split; [|by repeat constructor].
  apply Forall_forall. intros x (v & -> & _)%elem_of_list_fmap. cbn. unfold piece_kind. by repeat case_decide.
Qed.
Lemma leg_string l z u W :
  Forall piece l → no_runs l → legible z u W → legible z ((quote :: concat l ++ [quote]) ++ u) (string_lexemes l ++ W).
Proof.
  intros Hl Hd H. apply leg_solid; [|by apply string_no_lf| |done].
  - split_and!; [done|done|]. intros [?|Hx]%elem_of_cons; [done|]. apply elem_of_app in Hx as [Hx|Hx]; [|by apply elem_of_list_singleton in Hx].
    apply elem_of_list_In, in_concat in Hx as (v & Hv & Hx). apply elem_of_list_In in Hv, Hx. rewrite Forall_forall in Hl.
    by eapply piece_no_lf; [apply Hl|].
  - intros r _. by apply spells_string.
Qed.
(** Line breaks are line feeds. *)
Lemma legible_lf z u W : legible z u W → Forall (λ x, x.1 = TLF → x.2 = [lf]) W.
Proof.
  induction 1 as [|u W H IH|b u W Hb Hf Hs H IH|v V u W Hv Hq Hs H IH]; [constructor|by constructor|done|].
  apply Forall_app. split; [|done]. by eapply Forall_impl; [exact Hq|].
Qed.
(** A file. *)
Lemma legible_lex u W : legible [] u W → ∃ ts, lex "" u = Ok (Lexed ts root) ∧ map lex_of (elide ts) = W.
Proof.
  intros H%leg_spells. destruct (H (start_pos "")) as (ts & p' & L & A). rewrite app_nil_r in L. exists ts. split; [|done].
  unfold lex. change [(SRoot, [])] with root. rewrite (lexes_lex _ _ _ _ _ _ _ (Lexed [] root) L); [|done].
  by rewrite prepend_lexed, app_nil_r.
Qed.
