(** * The parser does not look beyond the end of a line

    Token lists without open brackets, strings or words that start a statement; runs of
    the expression structs on such a list do not depend on what comes after the wall behind it. *)
From stdpp Require Import base list option strings.
From Coq Require Import Ascii Lia.
From Verif Require Import GoBase EtxAst EtxHeap EtxHeapSpec EtxText EtxLex EtxUtil EtxGram EtxParse EtxParseBase
  EtxParsePropProofs EtxParseFirst EtxFormat EtxFormatSpec EtxLayout EtxRelex EtxBarrier.

Definition harmless (t : token) : Prop :=
  kind_of_token t ∉ [TIf; TSwitch; THeredoc; TString] ∧ value t ∉ map chars ["["; "]"; "{"] ∧
  ∀ o k, (o, k) ∈ lits → value t = chars o → kind_of_token t = k.
(** The kinds of the last token of an expression. *)
Definition closers : list tname := [TIdent; TNumber; TStringEnd; TOpRBracket; TOpRParen].
Definition ends (v : list token) : Prop := match last v with Some t => kind_of_token t ∈ closers | None => True end.
Inductive flat : list token → Prop :=
| flat_nil : flat []
| flat_one t v : harmless t → flat v → flat (t :: v)
| flat_string o q frs c v :
    kind_of_token o = TString → value o = [q] → is_quote q = true → Forall (λ x, frag_kind (kind_of_token x)) frs →
    kind_of_token c = TStringEnd → flat v → flat (o :: frs ++ c :: v)
| flat_index o v c w :
    kind_of_token o = TOpLBracket → value o = chars "[" → flat v → ends v → v ≠ [] → kind_of_token c = TOpRBracket → value c = chars "]" →
    flat w → flat (o :: v ++ c :: w).
Ltac lit_in := apply (bool_decide_unpack _); reflexivity.
Ltac not_in H := exfalso; apply (bool_decide_eq_true_2 _) in H; vm_compute in H; discriminate H.
Lemma flat_app v w : flat v → flat w → flat (v ++ w).
Proof.
  intros H Hw. induction H as [|t v Ht _ IH|o q frs c v H1 H2 H3 H4 H5 _ IH|o v c u H1 H2 H3 IH1 He Hn H4 H5 H6 IH2]; cbn; [done|by constructor| |].
  - rewrite <- (assoc_L (++)). cbn. by eapply flat_string.
  - rewrite <- (assoc_L (++)). cbn. by eapply flat_index.
Qed.
Lemma ends_tail t v : ends (t :: v) → ends v.
Proof. unfold ends. rewrite last_cons. by destruct (last v). Qed.
Lemma ends_app v w : ends (v ++ w) → ends w.
Proof. unfold ends. rewrite last_app. by destruct (last w). Qed.
Lemma ends_app_intro v w : ends v → ends w → ends (v ++ w).
Proof. unfold ends. rewrite last_app. by destruct (last w). Qed.
(** What the parser is at: [free] if structs may be looked for at the end. *)
Definition at_ (line b : bool) (v : list token) : Prop := flat v ∧ ends v ∧ (line = true → b = true → v ≠ []).
Lemma at_false line b v : at_ line b v → at_ line false v.
Proof. intros (H1 & H2 & _). by split_and!. Qed.

(** What ends the part that is looked at: a line feed, the end of the file or the first word
    of a declaration; or a closing bracket. *)
Definition decl_words : list text := map chars ["input"; "output"; "const"; "val"].
Definition wall (line : bool) (B : list token) : Prop :=
  match B with
  | [] => line = true
  | c :: _ =>
      if line then kind_of_token c = TLF ∧ value c ∈ [[lf]; [cr]] ∨ kind_of_token c = TIdent ∧ value c ∈ decl_words
      else kind_of_token c = TOpRBracket ∧ value c = chars "]"
  end.
Definition upto (Q : list token → Prop) (B B' ts ts' : list token) : Prop :=
  ∃ v v', ts = v ++ B ∧ ts' = v' ++ B' ∧ Forall2 alike v v' ∧ Q v.
Definition any (v : list token) : Prop := True.
Lemma upto_any Q B B' ts ts' : upto Q B B' ts ts' → upto any B B' ts ts'.
Proof. intros (v & v' & H1 & H2 & H3 & _). by exists v, v'. Qed.
Lemma upto_len B B' ts ts' us us' :
  upto any B B' ts ts' → upto any B B' us us' → (length ts - length us = length ts' - length us')%nat.
Proof.
  intros (v & v' & -> & -> & H1%Forall2_length & _) (w & w' & -> & -> & H2%Forall2_length & _). rewrite !app_length. lia.
Qed.

(** ** Which atoms are safe *)
Definition hits (k : tname) (v : text) (a : atom) : bool :=
  match a with ALit s => bool_decide (v = chars s) | ATok t => bool_decide (k = t) end.
Lemma atom_hits t a : atom_is t a = hits (kind_of_token t) (value t) a.
Proof. by destruct a. Qed.
Definition opener (a : atom) : bool :=
  match a with ALit s => bool_decide (s ∈ [":"; "="; "("; ","; "?"; "."]) | ATok k => bool_decide (k ∉ closers) end.
Definition may (line b : bool) (a : atom) : bool :=
  match a with ALit s => literal_ok s | ATok _ => true end &&
  negb (hits TOpLBracket (chars "[") a) && bool_decide (a ≠ ATok TString) &&
  (if line then b || forallb (λ v, negb (hits TLF v a)) [[lf]; [cr]] && forallb (λ v, negb (hits TIdent v a)) decl_words
   else negb (hits TOpRBracket (chars "]") a)).
Lemma wall_no line b a c B : may line b a = true → line = true → b = false → wall line (c :: B) → atom_is c a = false.
Proof.
  unfold may. rewrite !andb_true_iff. intros [[_ _] H] -> -> Hw. cbn [orb] in H. rewrite atom_hits. cbn in Hw.
  apply andb_true_iff in H as [H1 H2]. rewrite forallb_forall in H1, H2.
  destruct Hw as [[-> Hw%elem_of_list_In]|[-> Hw%elem_of_list_In]]; [specialize (H1 _ Hw)|specialize (H2 _ Hw)]; by apply negb_true_iff.
Qed.
Lemma bracket_no b a c B : may false b a = true → wall false (c :: B) → atom_is c a = false.
Proof.
  unfold may. rewrite !andb_true_iff. intros [[_ _] H] Hw. rewrite atom_hits. apply negb_true_iff in H. by destruct Hw as [-> ->].
Qed.
Lemma atom_alike a t t' : match a with ALit s => literal_ok s = true | ATok _ => True end → alike t t' → atom_is t a = atom_is t' a.
Proof.
  intros Ha H. destruct a as [s|k]; cbn [atom_is]; [by apply literal_alike|]. by rewrite (alike_kind _ _ H).
Qed.
Lemma quote_literal s q : literal_ok s = true → is_quote q = true → [q] ≠ chars s.
Proof. intros [_ H]%andb_true_iff Hq E. rewrite <- E in H. by rewrite Hq in H. Qed.
Lemma may_literal line b a : may line b a = true → match a with ALit s => literal_ok s = true | ATok _ => True end.
Proof. unfold may. rewrite !andb_true_iff. intros [[[Ha _] _] _]. by destruct a. Qed.
Lemma flat_hit line b a t v : may line b a = true → flat (t :: v) → atom_is t a = true → flat v ∧ harmless t.
Proof.
  unfold may. rewrite !andb_true_iff. intros [[[H1 H2%negb_true_iff] H3] _] Hf. rewrite atom_hits.
  inversion Hf as [|? ? Ht Hv|? q frs c ? Ho Hq Hq' _ _ _|? ? ? ? Ho Hv]; subst; [done| |].
  - rewrite Ho, Hq. intros Ha. exfalso. destruct a as [s|k]; cbn in Ha; apply bool_decide_eq_true in Ha.
    + by eapply quote_literal.
    + subst k. by apply bool_decide_eq_true in H3.
  - rewrite Ho, Hv. by rewrite H2.
Qed.
Lemma opener_kind t a : harmless t → opener a = true → atom_is t a = true → kind_of_token t ∉ closers.
Proof.
  intros (_ & _ & Ht) Ho Ha. destruct a as [s|k]; cbn in Ho, Ha; apply bool_decide_eq_true in Ho, Ha; [|by subst k].
  rewrite !elem_of_cons, elem_of_nil in Ho.
  destruct Ho as [->|[->|[->|[->|[->|[->|[]]]]]]].
  - rewrite (Ht ":" TOpColon) by (done || lit_in). intros H. not_in H.
  - rewrite (Ht "=" TOpAssign) by (done || lit_in). intros H. not_in H.
  - rewrite (Ht "(" TOpLParen) by (done || lit_in). intros H. not_in H.
  - rewrite (Ht "," TOpComma) by (done || lit_in). intros H. not_in H.
  - rewrite (Ht "?" TOpCondition) by (done || lit_in). intros H. not_in H.
  - rewrite (Ht "." TDot) by (done || lit_in). intros H. not_in H.
Qed.
Lemma upto_next line b a B B' ts ts' :
  may line b a = true → wall line B → wall line B' → upto (at_ line b) B B' ts ts' →
  next_ok opener (λ b, upto (at_ line b) B B') a ts ts'.
Proof.
  intros Ha HB HB' (v & v' & -> & -> & Hv & Hf & He & Hn). destruct Hv as [|t t' v v' Ht Hv]; cbn [app].
  - assert (∀ c C, wall line (c :: C) → atom_is c a = false) as Hno.
    { intros c C Hw. destruct line; [|by eapply bracket_no]. destruct b; [by destruct (Hn eq_refl eq_refl)|]. by eapply wall_no. }
    unfold next_ok. destruct B as [|c B], B' as [|c' B']; try done; [by eapply Hno..|].
    rewrite (Hno _ _ HB), (Hno _ _ HB'). done.
  - cbn [next_ok]. split.
    + apply atom_alike; [|done]. by eapply may_literal.
    + intros E. split; [done|]. destruct (flat_hit _ _ _ _ _ Ha Hf E) as [Hf' Hh]. exists v, v'. split_and!; try done.
      split_and!; [done|by eapply ends_tail|]. intros _ Ho ->. by apply (opener_kind t a Hh Ho E).
Qed.

(** ** Structs *)
Section structs.
Context (eof eof' : pos).
Definition local (n : nat) (line : bool) (k : kind) : Prop :=
  ∀ B B' ts ts', wall line B → wall line B' → upto (at_ line true) B B' ts ts' →
  beside_parsed (λ b, upto (at_ line b) B B') (upto any B B') (parse_struct eof n k ts) (parse_struct eof' n k ts').
Lemma struct_beside (Rok : bool → list token → list token → Prop) (Rerr : list token → list token → Prop) n k ts ts' b c R :
  (∀ b ts ts', Rok b ts ts' → Rerr ts ts') → (∀ ts ts', Rok true ts ts' → Rok false ts ts') →
  beside Rok Rerr k b c R (eval (parse_struct eof n) (grammar k) (Ctx ts [] []))
    (eval (parse_struct eof' n) (grammar k) (Ctx ts' [] [])) →
  beside_parsed Rok Rerr (parse_struct eof (S n) k ts) (parse_struct eof' (S n) k ts').
Proof. intros Hok Hm H. exact (finish_beside Rok Rerr Hok Hm k eof eof' ts ts' b c R _ _ H). Qed.
Lemma start_ctx (R : list token → list token → Prop) k ts ts' : R ts ts' → beside_ctx k R (Ctx ts [] []) (Ctx ts' [] []).
Proof. intros H. constructor; [done|constructor|constructor]. Qed.
Lemma upto_mono (Q Q' : list token → Prop) B B' ts ts' : (∀ v, Q v → Q' v) → upto Q B B' ts ts' → upto Q' B B' ts ts'.
Proof. intros H (v & v' & H1 & H2 & H3 & H4). exists v, v'. split_and!; auto. Qed.
Lemma upto_low line B B' ts ts' : upto (at_ line true) B B' ts ts' → upto (at_ line false) B B' ts ts'.
Proof. apply upto_mono, at_false. Qed.
Lemma upto_free line B B' : negb line = true → ∀ ts ts', upto (at_ line false) B B' ts ts' → upto (at_ line true) B B' ts ts'.
Proof. intros ->%negb_true_iff ts ts'. apply upto_mono. intros v (H1 & H2 & _). by split_and!. Qed.
Notation walks line := (walk (negb line) (may line) opener).
Lemma eval_local n line k g b c B B' x x' :
  wall line B → wall line B' → (∀ k', k' ∈ subs g → local n line k') → walks line b g = Some c → caps_ok k g = true →
  beside_ctx k (upto (at_ line b) B B') x x' →
  beside (λ b, upto (at_ line b) B B') (upto any B B') k b c (both g) (eval (parse_struct eof n) g x) (eval (parse_struct eof' n) g x').
Proof.
  intros HB HB' Hs Ha Hc Hx.
  apply (eval_beside (negb line) (may line) opener); [intros ?; apply upto_any|apply upto_low|by apply upto_free|apply upto_len| | |done|done|done].
  - intros k' Hk' ts ts' Hts. by apply (Hs k' Hk').
  - intros a Ha' b' ts ts' Hb Hts. by apply (upto_next line b').
Qed.
Lemma generic n line k :
  match walks line true (grammar k) with Some _ => true | None => false end = true → (∀ k', k' ∈ subs (grammar k) → local n line k') →
  local (S n) line k.
Proof.
  intros Ha Hs B B' ts ts' HB HB' Hts. destruct (walks line true (grammar k)) as [c|] eqn:Ew; [|done].
  eapply struct_beside; [intros ?; apply upto_any|apply upto_low|].
  eapply eval_local; [exact HB|exact HB'|done|exact Ew|apply grammar_caps|by apply start_ctx].
Qed.
(** Refused at the first token. *)
Definition captured_tok (f : option fld) (t : tname) : gexp := match f with Some f => GCap f (GTok t) | None => GTok t end.
Lemma tok_refused n k f t gs ts : grammar k = GSeq (captured_tok f t :: gs) → match ts with u :: _ => kind_of_token u ≠ t | [] => True end →
  ∀ e, parse_struct e (S n) k ts = PNone.
Proof.
  intros Hg H e. cbn [parse_struct]. rewrite Hg. destruct f; cbn [captured_tok eval run_seq]; unfold next_is; cbn [todo];
    (destruct ts as [|u ts]; [done|]; by rewrite bool_decide_eq_false_2).
Qed.
Lemma lit_refused n k s gs ts : grammar k = GSeq (GLit s :: gs) → match ts with u :: _ => value u ≠ chars s | [] => True end →
  ∀ e, parse_struct e (S n) k ts = PNone.
Proof.
  intros Hg H e. cbn [parse_struct]. rewrite Hg. cbn [eval run_seq]. unfold next_is. cbn [todo].
  destruct ts as [|u ts]; [done|]. by rewrite bool_decide_eq_false_2.
Qed.
Lemma head_alike (Q : token → Prop) line B B' ts ts' :
  (∀ c B, wall false (c :: B) → Q c) → wall line B → wall line B' → upto (at_ line true) B B' ts ts' →
  (∀ t v, flat (t :: v) → Q t) → (∀ t t', alike t t' → Q t → Q t') →
  match ts with u :: _ => Q u | [] => True end ∧ match ts' with u :: _ => Q u | [] => True end.
Proof.
  intros Hw HB HB' (v & v' & -> & -> & Hv & Hf & He & Hn) HQ HA. destruct Hv as [|t t' v v' Ht Hv]; cbn [app].
  - destruct line; [by destruct (Hn eq_refl eq_refl)|]. split; [destruct B; [done|by eapply Hw]|destruct B'; [done|by eapply Hw]].
  - assert (Q t) by (by eapply HQ). split; [done|by eapply HA].
Qed.
Lemma flat_head_kind t v k : k ∈ [TIf; TSwitch; THeredoc] → flat (t :: v) → kind_of_token t ≠ k.
Proof.
  intros Hk Hf E. inversion Hf as [|? ? (H & _ & _) Hv|? q frs c ? Ho|? ? ? ? Ho]; subst.
  - apply H. revert Hk. rewrite !elem_of_cons. tauto.
  - rewrite Ho in Hk. not_in Hk.
  - rewrite Ho in Hk. not_in Hk.
Qed.
Lemma flat_head_brace t v : flat (t :: v) → value t ≠ chars "{".
Proof.
  intros Hf E. inversion Hf as [|? ? (_ & H & _) Hv|? q frs c ? _ Ho Hq|? ? ? ? _ Ho]; subst.
  - apply H. rewrite E. by apply (bool_decide_unpack _).
  - rewrite Ho in E. injection E as ->. done.
  - by rewrite Ho in E.
Qed.
Lemma flat_head_close t v : flat (t :: v) → value t ≠ chars "]".
Proof.
  intros Hf E. inversion Hf as [|? ? (_ & H & _) Hv|? q frs c ? _ Ho Hq|? ? ? ? _ Ho]; subst.
  - apply H. rewrite E. by apply (bool_decide_unpack _).
  - rewrite Ho in E. injection E as ->. done.
  - by rewrite Ho in E.
Qed.
Lemma refused_tok n line k f t gs :
  grammar k = GSeq (captured_tok f t :: gs) → t ∈ [TIf; TSwitch; THeredoc] → local (S n) line k.
Proof.
  intros Hg Ht B B' ts ts' HB HB' Hts.
  destruct (head_alike (λ u, kind_of_token u ≠ t) line B B' ts ts') as [H1 H2]; try done.
  - intros c C [Hw _] E. rewrite Hw in E. subst t. not_in Ht.
  - intros u v. by apply flat_head_kind.
  - intros u u' Hu E. by rewrite <- (alike_kind _ _ Hu).
  - rewrite (tok_refused n k f t gs ts Hg H1), (tok_refused n k f t gs ts' Hg H2). constructor.
Qed.
Lemma refused_brace n line k gs : grammar k = GSeq (GLit "{" :: gs) → local (S n) line k.
Proof.
  intros Hg B B' ts ts' HB HB' Hts.
  destruct (head_alike (λ u, value u ≠ chars "{") line B B' ts ts') as [H1 H2]; try done.
  - intros c C [_ Hw] E. by rewrite Hw in E.
  - intros u v. by apply flat_head_brace.
  - intros u u' Hu E E'. apply E. pose proof (literal_alike "{" u u' eq_refl Hu) as H. rewrite (bool_decide_eq_true_2 _ E') in H.
    by apply bool_decide_eq_true in H.
  - rewrite (lit_refused n k "{" gs ts Hg H1), (lit_refused n k "{" gs ts' Hg H2). constructor.
Qed.

(** ** Strings *)
Definition body (v : list token) : Prop := Forall (λ x, frag_kind (kind_of_token x)) v.
Definition shut (B : list token) : Prop := match B with c :: _ => kind_of_token c = TStringEnd | [] => False end.
Lemma body_next k B B' ts ts' :
  k ≠ TStringEnd → shut B → shut B' → upto body B B' ts ts' → next_ok (λ _, false) (λ _, upto body B B') (ATok k) ts ts'.
Proof.
  intros Hk HB HB' (v & v' & -> & -> & Hv & Hf). destruct Hv as [|t t' v v' Ht Hv]; cbn [app].
  - unfold next_ok. destruct B as [|c B], B' as [|c' B']; try done. cbn in HB, HB' |- *. rewrite HB, HB'.
    rewrite bool_decide_eq_false_2 by done. done.
  - apply Forall_cons in Hf as [_ Hf]. cbn. rewrite (alike_kind _ _ Ht). split; [done|]. intros _. split; [done|]. by exists v, v'.
Qed.
Lemma body_no n t gs B B' x x' :
  t ∈ [TExpr; TDirective] → shut B → shut B' → beside_ctx KStringFragment (upto body B B') x x' →
  eval (parse_struct eof n) (GSeq (GTok t :: gs)) x = Ret None x ∧ eval (parse_struct eof' n) (GSeq (GTok t :: gs)) x' = Ret None x'.
Proof.
  intros Ht HB HB' [(v & v' & E1 & E2 & Hv & Hf) _ _]. cbn [eval run_seq]. unfold next_is. rewrite E1, E2.
  assert (∀ k, k ∈ [TChar; TQuote; TNonExpr; TStringEnd] → k ≠ t) as Hne.
  { intros k Hk ->. rewrite !elem_of_cons, elem_of_nil in Ht. destruct Ht as [->|[->|[]]]; not_in Hk. }
  destruct Hv as [|u u' v v' Hu Hv]; cbn [app].
  - destruct B as [|c B], B' as [|c' B']; try done. cbn in HB, HB'. rewrite HB, HB'.
    rewrite !bool_decide_eq_false_2; [done|]. apply Hne. by apply (bool_decide_unpack _).
  - apply Forall_cons in Hf as [Hf _]. rewrite <- (alike_kind _ _ Hu).
    rewrite !bool_decide_eq_false_2; [done|]. apply Hne. unfold frag_kind in Hf. rewrite !elem_of_cons in Hf |- *. rewrite elem_of_nil in Hf. tauto.
Qed.
Definition no_end (b : bool) (a : atom) : bool := match a with ATok k => bool_decide (k ≠ TStringEnd) | ALit _ => false end.
Lemma fragment_local n B B' ts ts' :
  shut B → shut B' → upto body B B' ts ts' →
  beside_parsed (λ _, upto body B B') (upto any B B') (parse_struct eof (S n) KStringFragment ts) (parse_struct eof' (S n) KStringFragment ts').
Proof.
  intros HB HB' Hts. eapply (struct_beside (λ _, upto body B B') _ _ _ _ _ false); [intros ?; apply upto_any|done|]. cbn [grammar eval].
  assert (∀ g, subs g = [] → caps_ok KStringFragment g = true →
    runs true no_end (λ _, false) (λ _, upto body B B') (upto any B B') KStringFragment (eval (parse_struct eof n)) (eval (parse_struct eof' n)) g) as Hg.
  { intros g Hs Hc. apply eval_beside; [intros ?; apply upto_any|done|done|apply upto_len| | |done].
    - intros k Hk. rewrite Hs in Hk. by apply elem_of_nil in Hk.
    - intros a _ b us us' Ha Hus. destruct a as [s|k]; [done|]. apply bool_decide_eq_true in Ha. by apply body_next. }
  apply (alt_beside true no_end (λ _, false)) with (c := false); [intros ?; apply upto_any|done|apply upto_len| |reflexivity|by apply start_ctx].
  repeat (apply Forall_cons; split); [by apply Hg..| | |by apply Hg|constructor].
  - intros b c x x' _ Hx. destruct (body_no n TExpr [GSub FExpr KExpr; GTok TExprEnd] B B' x x') as [-> ->]; try done; [by left|by constructor].
  - intros b c x x' _ Hx. destruct (body_no n TDirective [GSub FDirective KExpr; GTok TExprEnd] B B' x x') as [-> ->]; try done; [by right; left|by constructor].
Qed.

Lemma seq_first sub g gs x :
  eval sub (GSeq (g :: gs)) x =
  match eval sub g x with Ret (Some l) y => run_seq (eval sub) false gs l y | Ret None y => Ret None y | r => r end.
Proof. reflexivity. Qed.
Lemma lit_first sub s x : eval sub (GLit s) x = next_is (λ t, bool_decide (value t = chars s)) x.
Proof. reflexivity. Qed.
Lemma tok_first sub k x : eval sub (GTok k) x = next_is (λ t, bool_decide (kind_of_token t = k)) x.
Proof. reflexivity. Qed.
Definition whatever (l l' : list text) : Prop := length l = length l'.
Lemma seq_chain (Rok Rok1 : bool → list token → list token → Prop) (Rerr Rerr1 : list token → list token → Prop) k b c b0 c0
    (R : list text → list text → Prop) g gs ev ev' (acc acc' : list text) x x' :
  (∀ b ts ts', Rok1 b ts ts' → Rerr ts ts') → (∀ ts ts', Rerr1 ts ts' → Rerr ts ts') →
  (∀ l l', R l l' → length l = length l') → length acc = length acc' → beside Rok1 Rerr1 k b c R (ev g x) (ev' g x') →
  (∀ acc acc' y y', length acc = length acc' → beside_ctx k (Rok1 c) y y' →
    beside Rok Rerr k b0 c0 whatever (run_seq ev false gs acc y) (run_seq ev' false gs acc' y')) →
  beside Rok Rerr k b0 c0 whatever (run_seq ev false (g :: gs) acc x) (run_seq ev' false (g :: gs) acc' x').
Proof.
  intros H1 H2 HR Hacc H Hgs. cbn [run_seq].
  destruct H as [l l' y y' Hl Hy|y y' Hy|y y' Hy| | |]; try (constructor; done).
  - apply Hgs; [|done]. by rewrite !app_length, Hacc, (HR _ _ Hl).
  - constructor. exact (beside_mono _ _ _ _ _ (H1 _) Hy).
  - constructor. exact (beside_mono _ _ _ _ _ H2 Hy).
Qed.
Lemma any_inner c c' v v' B B' ts ts' :
  Forall2 alike v v' → alike c c' → upto any (c :: v ++ B) (c' :: v' ++ B') ts ts' → upto any B B' ts ts'.
Proof.
  intros Hv Hc (w & w' & -> & -> & Hw & _). exists (w ++ c :: v), (w' ++ c' :: v'). rewrite <- !(assoc_L (++)). split_and!; try done.
  apply Forall2_app; [done|]. by constructor.
Qed.
Lemma alike_app_inv v c w us : Forall2 alike (v ++ c :: w) us → ∃ v' c' w', us = v' ++ c' :: w' ∧ Forall2 alike v v' ∧ alike c c' ∧ Forall2 alike w w'.
Proof.
  intros (v' & us' & Hv & Hus & ->)%Forall2_app_inv_l. apply Forall2_cons_inv_l in Hus as (c' & w' & Hc & Hw & ->). eauto 10.
Qed.
(** The end of a part between brackets or quotes. *)
Lemma close_beside (Q : list token → Prop) line a (p : token → bool) k c c' w w' B B' ev ev' g (acc acc' : list text) x x' :
  (∀ t, p t = atom_is t a) → (∀ x, ev g x = next_is p x) → (∀ x, ev' g x = next_is p x) →
  atom_is c a = true → atom_is c' a = true → (∀ t v, Q (t :: v) → atom_is t a = false) → (∀ t t', alike t t' → atom_is t a = atom_is t' a) →
  alike c c' → Forall2 alike w w' → at_ line false w → length acc = length acc' → beside_ctx k (upto Q (c :: w ++ B) (c' :: w' ++ B')) x x' →
  beside (λ b, upto (at_ line b) B B') (upto any B B') k false false whatever (run_seq ev false [g] acc x) (run_seq ev' false [g] acc' x').
Proof.
  intros Hp He He' Hc Hc' HQ Ha Hcc Hw Hf Hacc [(v & v' & E & E' & Hv & Hq) H2 H3]. cbn [run_seq]. rewrite He, He'. unfold next_is. rewrite E, E'.
  destruct Hv as [|t t' v v' Ht Hv]; cbn [app].
  - rewrite !Hp, Hc, Hc'. rewrite !bool_decide_eq_false_2 by (by intros [_ ?]%app_eq_nil).
    constructor; [by unfold whatever; rewrite !app_length, Hacc|]. constructor; [|done|done]. cbn. by exists w, w'.
  - rewrite !Hp, <- (Ha _ _ Ht), (HQ _ _ Hq). constructor. constructor; [|done|done]. rewrite E, E'.
    apply (any_inner c c' w w'); [done|done|]. exists (t :: v), (t' :: v'). split_and!; try done. by constructor.
Qed.
Lemma string_local n line : local (S n) line KValueString.
Proof.
  intros B B' ts ts' HB HB' Hts. eapply (struct_beside _ _ _ _ _ _ false false whatever); [intros ?; apply upto_any|apply upto_low|]. cbn [grammar].
  rewrite !seq_first, !tok_first. unfold next_is. cbn [todo].
  assert (beside (λ b, upto (at_ line b) B B') (upto any B B') KValueString false false whatever (Ret None (Ctx ts [] [])) (Ret None (Ctx ts' [] []))) as Hno
    by (constructor; apply start_ctx; by apply upto_low).
  destruct Hts as (v & v' & -> & -> & Hv & Hf & He & Hn). destruct Hf as [|t v Ht Hf|o q frs c v H1 H2 H3 H4 H5 Hf|o v c w H1 H2 H3 _ _ H4 H5 H6].
  - apply Forall2_nil_inv_l in Hv as ->. destruct line; [by destruct (Hn eq_refl eq_refl)|]. cbn [app] in *.
    assert (∀ b, wall false b → match b with u :: _ => kind_of_token u ≠ TString | [] => True end) as Hb.
    { intros [|u b] Hb; [done|]. destruct Hb as [-> _]; done. }
    pose proof (Hb _ HB). pose proof (Hb _ HB'). destruct B, B'; cbn [app] in *; try rewrite !bool_decide_eq_false_2 by done; done.
  - apply Forall2_cons_inv_l in Hv as (t' & w & Ht' & Hw & ->). cbn [app] in *. rewrite <- (alike_kind _ _ Ht').
    rewrite bool_decide_eq_false_2; [done|]. intros E. destruct Ht as [Ht _]. apply Ht. rewrite E. lit_in.
  - apply Forall2_cons_inv_l in Hv as (o' & us & Ho & Hus & ->). apply alike_app_inv in Hus as (frs' & c' & w' & -> & Hfrs & Hc & Hw).
    cbn [app] in *. rewrite <- (alike_kind _ _ Ho), bool_decide_eq_true_2 by done. rewrite <- !(assoc_L (++)). cbn [app].
    eapply (seq_chain _ (λ _, upto body (c :: v ++ B) (c' :: w' ++ B')) _ (upto any (c :: v ++ B) (c' :: w' ++ B')) KValueString true false _ _
      (both (GMany (GSub FFragment KStringFragment)))).
    + intros _ ? ? H%upto_any. by eapply any_inner.
    + intros ? ? H. by eapply any_inner.
    + by intros ? ? [[? _] _].
    + done.
    + apply (eval_beside true no_end (λ _, false)); [intros ?; apply upto_any|done|done|apply upto_len| | |done|done|].
      * intros k ->%elem_of_list_singleton us us' Hus. destruct n as [|n]; [constructor|].
        apply fragment_local; [done| |done]. cbn. by rewrite <- (alike_kind _ _ Hc).
      * intros a Ha. by apply elem_of_nil in Ha.
      * apply start_ctx. by exists frs, frs'.
    + intros acc acc' y y' Hacc Hy.
      apply (close_beside body line (ATok TStringEnd) (λ t, bool_decide (kind_of_token t = TStringEnd)) _ c c' v w'); try done.
      * cbn. by apply bool_decide_eq_true_2.
      * cbn. apply bool_decide_eq_true_2. by rewrite <- (alike_kind _ _ Hc).
      * intros t u [Ht _]%Forall_cons. cbn. apply bool_decide_eq_false_2. intros E. rewrite E in Ht. not_in Ht.
      * intros t t' Ht. cbn. by rewrite (alike_kind _ _ Ht).
      * split_and!; [done| |done]. apply ends_tail in He. by apply ends_app, ends_tail in He.
  - apply Forall2_cons_inv_l in Hv as (t' & w' & Ht' & Hw & ->). cbn [app] in *. rewrite <- (alike_kind _ _ Ht').
    rewrite bool_decide_eq_false_2; [done|]. by rewrite H1.
Qed.

(** ** Brackets *)
Lemma inner_seq n k line gs c c' w w' B B' :
  (∀ g, g ∈ gs → (∀ k', k' ∈ subs g → local n false k') ∧ match walks false false g with Some _ => true | None => false end = true ∧ caps_ok k g = true) →
  kind_of_token c = TOpRBracket → value c = chars "]" → alike c c' → Forall2 alike w w' → at_ line false w →
  ∀ acc acc' x x', length acc = length acc' → beside_ctx k (upto (at_ false false) (c :: w ++ B) (c' :: w' ++ B')) x x' →
  beside (λ b, upto (at_ line b) B B') (upto any B B') k false false whatever
    (run_seq (eval (parse_struct eof n)) false (gs ++ [GLit "]"]) acc x) (run_seq (eval (parse_struct eof' n)) false (gs ++ [GLit "]"]) acc' x').
Proof.
  intros Hgs Hk Hv Hc Hw Hf.
  assert (value c' = chars "]") as Hv'.
  { pose proof (literal_alike "]" c c' eq_refl Hc) as H. rewrite (bool_decide_eq_true_2 _ Hv) in H. symmetry in H. by apply bool_decide_eq_true in H. }
  induction gs as [|g gs IH]; intros acc acc' x x' Hacc Hx.
  - cbn [app]. apply (close_beside (at_ false false) line (ALit "]") (λ t, bool_decide (value t = chars "]")) _ c c' w w'); try done.
    + cbn. by apply bool_decide_eq_true_2.
    + cbn. by apply bool_decide_eq_true_2.
    + intros t v [Ht _]. cbn. apply bool_decide_eq_false_2. by eapply flat_head_close.
    + intros t t' Ht. by apply literal_alike.
  - destruct (Hgs g ltac:(by left)) as (G1 & G2 & G3). cbn [app]. destruct (walks false false g) as [d|] eqn:Ew; [|done].
    eapply (seq_chain _ (λ b, upto (at_ false b) (c :: w ++ B) (c' :: w' ++ B')) _ (upto any (c :: w ++ B) (c' :: w' ++ B')) k false d _ _ (both g)).
    + intros ? ? ? H%upto_any. by eapply any_inner.
    + intros ? ? H. by eapply any_inner.
    + by intros ? ? [[? _] _].
    + done.
    + apply (eval_local n false); try done. split; [|done]. by rewrite <- (alike_kind _ _ Hc).
    + intros bcc bcc' y y' Hb Hy. apply IH; [|done|]. { intros g' Hg'. apply Hgs. by right. }
      eapply beside_mono; [|exact Hy]. intros ? ?. apply upto_mono, at_false.
Qed.
Lemma bracket_seq n line k gs B B' x x' :
  (∀ g, g ∈ gs → (∀ k', k' ∈ subs g → local n false k') ∧ match walks false false g with Some _ => true | None => false end = true ∧ caps_ok k g = true) →
  wall line B → wall line B' → beside_ctx k (upto (at_ line false) B B') x x' →
  beside (λ b, upto (at_ line b) B B') (upto any B B') k false false whatever
    (eval (parse_struct eof n) (GSeq (GLit "[" :: gs ++ [GLit "]"])) x) (eval (parse_struct eof' n) (GSeq (GLit "[" :: gs ++ [GLit "]"])) x').
Proof.
  intros Hgs HB HB' Hx. rewrite !seq_first, !lit_first. unfold next_is.
  assert (beside (λ b, upto (at_ line b) B B') (upto any B B') k false false whatever (Ret None x) (Ret None x')) as Hno by (by constructor).
  pose proof Hx as [(v & v' & E & E' & Hv & Hf & He & Hn) Hx2 Hx3]. rewrite E, E'.
  destruct Hf as [|t v Ht Hf|o q frs c v H1 H2 H3 H4 H5 Hf|o v c w H1 H2 H3 Hev Hnv H4 H5 H6].
  - apply Forall2_nil_inv_l in Hv as ->. cbn [app] in *.
    assert (∀ b, wall line b → match b with u :: _ => value u ≠ chars "[" | [] => True end) as Hb.
    { intros [|u b] Hb; [done|]. intros Eu. destruct line; cbn in Hb.
      - destruct Hb as [[_ Hb]|[_ Hb]]; rewrite Eu in Hb; not_in Hb.
      - destruct Hb as [_ Hb]. by rewrite Eu in Hb. }
    pose proof (Hb _ HB). pose proof (Hb _ HB'). destruct B, B'; try rewrite !bool_decide_eq_false_2 by done; done.
  - apply Forall2_cons_inv_l in Hv as (t' & w & Ht' & Hw & ->). cbn [app] in *. rewrite <- (literal_alike "[" _ _ eq_refl Ht').
    rewrite bool_decide_eq_false_2; [done|]. intros E0. destruct Ht as (_ & Ht & _). apply Ht. rewrite E0. lit_in.
  - apply Forall2_cons_inv_l in Hv as (t' & w' & Ht' & Hw & ->). cbn [app] in *. rewrite <- (literal_alike "[" _ _ eq_refl Ht').
    rewrite bool_decide_eq_false_2; [done|]. rewrite H2. intros [= ->]. done.
  - apply Forall2_cons_inv_l in Hv as (o' & us & Ho & Hus & ->). apply alike_app_inv in Hus as (v' & c' & w' & -> & Hv & Hc & Hw).
    cbn [app] in *. rewrite <- (literal_alike "[" _ _ eq_refl Ho), bool_decide_eq_true_2 by done. rewrite <- !(assoc_L (++)). cbn [app].
    apply (inner_seq n k line gs c c' w w'); try done.
    + split_and!; [done| |done]. apply ends_tail in He. by apply ends_app, ends_tail in He.
    + constructor; [|done|done]. cbn. by exists v, v'.
Qed.
Lemma list_local n line : local n false KListItem → local (S n) line KValueList.
Proof.
  intros Hi B B' ts ts' HB HB' Hts. eapply (struct_beside _ _ _ _ _ _ false false whatever); [intros ?; apply upto_any|apply upto_low|]. cbn [grammar].
  apply (bracket_seq n line KValueList [g_lfs; GMany (GSub FItems KListItem)]); [|done|done|apply start_ctx; by apply upto_low].
  intros g Hg. rewrite !elem_of_cons, elem_of_nil in Hg. destruct Hg as [->|[->|[]]]; (split; [|done]).
  - intros k Hk. by apply elem_of_nil in Hk.
  - by intros k ->%elem_of_list_singleton.
Qed.
Lemma postfix_local n line :
  local n line KExprPrimary → local n false KExpr → local n line KExprPostfix → local (S n) line KExprPostfix.
Proof.
  intros H1 H2 H3 B B' ts ts' HB HB' Hts. eapply (struct_beside _ _ _ _ _ _ false false whatever); [intros ?; apply upto_any|apply upto_low|]. cbn [grammar].
  assert (∀ acc acc' x x', length acc = length acc' → beside_ctx KExprPostfix (upto (at_ line false) B B') x x' →
    beside (λ b, upto (at_ line b) B B') (upto any B B') KExprPostfix false false whatever
    (run_seq (eval (parse_struct eof n)) false [GOpt (GSeq [GLit "["; GSub FIndex KExpr; GLit "]"]); GOpt (GSeq [GLit "."; GSub FPost KExprPostfix])] acc x)
    (run_seq (eval (parse_struct eof' n)) false [GOpt (GSeq [GLit "["; GSub FIndex KExpr; GLit "]"]); GOpt (GSeq [GLit "."; GSub FPost KExprPostfix])] acc' x')) as Hrest.
  { intros acc acc' x x' Hacc Hx.
    eapply (seq_chain _ (λ b, upto (at_ line b) B B') _ (upto any B B') _ false false _ _ whatever); [intros ?; apply upto_any|done|done|done| |].
    - cbn [eval]. apply (opt_beside (λ b, upto (at_ line b) B B') (upto any B B')) with (c := false);
        [intros ?; apply upto_any|apply upto_low|apply upto_len| |done|done].
      apply (bracket_seq n line KExprPostfix [GSub FIndex KExpr]); [|done|done|by apply beside_branch].
      intros g ->%elem_of_list_singleton. split; [|done]. by intros k ->%elem_of_list_singleton.
    - intros bcc bcc' y y' Hbcc Hy.
      eapply (seq_chain _ (λ b, upto (at_ line b) B B') _ (upto any B B') _ false false _ _ (both _)); [intros ?; apply upto_any|done|by intros ? ? [[? _] _]|done| |].
      + eapply eval_local; [exact HB|exact HB'| |by destruct line|done|done]. by intros k'' ->%elem_of_list_singleton.
      + intros ccc ccc' z z' Hccc Hz. cbn [run_seq]. destruct ccc, ccc'; try done; by constructor. }
  rewrite !seq_first. pose proof (start_ctx (upto (at_ line true) B B') KExprPostfix ts ts' Hts) as Hx.
  assert (beside (λ b, upto (at_ line b) B B') (upto any B B') KExprPostfix true false (both (GSub FValue KExprPrimary))
    (eval (parse_struct eof n) (GSub FValue KExprPrimary) (Ctx ts [] [])) (eval (parse_struct eof' n) (GSub FValue KExprPrimary) (Ctx ts' [] []))) as H.
  { eapply eval_local; [exact HB|exact HB'| |by destruct line|done|done]. by intros k'' ->%elem_of_list_singleton. }
  destruct H as [l l' y y' [[Hl _] _] Hy|y y' Hy|y y' Hy| | |]; try (constructor; done); [by apply Hrest|].
  constructor. eapply beside_mono; [|exact Hy]. apply upto_low.
Qed.

(** ** All that expressions and types are made of *)
Definition inside_kinds : list kind :=
  [KParameterType; KFuncSignature; KIdent; KExpr; KExprConditional; KExprLogicalOr; KExprLogicalAnd; KExprBitwiseOr;
   KExprBitwiseXor; KExprBitwiseAnd; KExprEquality; KExprRelational; KExprShift; KExprAdditive; KExprMultiplicative;
   KExprUnary; KExprPrimary; KExprInvocationParams; KValue].
Definition local_kinds (line : bool) : list kind :=
  inside_kinds ++ [KExprPostfix; KValueString; KValueList; KExprIf; KExprSwitch; KHeredoc; KValueMap] ++ (if line then [] else [KListItem; KComment]).
Lemma inside_ok : forallb (λ line, forallb (λ k, match walks line true (grammar k) with Some _ => true | None => false end &&
  forallb (λ k', bool_decide (k' ∈ local_kinds line)) (subs (grammar k)))
  (inside_kinds ++ if line then [] else [KListItem; KComment])) [true; false] = true.
Proof. vm_compute. reflexivity. Qed.
Lemma local_all n : ∀ line k, k ∈ local_kinds line → local n line k.
Proof.
  induction n as [|n IH]; intros line k Hk.
  { intros B B' ts ts' _ _ _. constructor. }
  assert (k ∈ inside_kinds ++ (if line then [] else [KListItem; KComment]) ∨
    k ∈ [KExprPostfix; KValueString; KValueList; KExprIf; KExprSwitch; KHeredoc; KValueMap]) as [H|H].
  { apply elem_of_app in Hk as [Hk|[Hk|Hk]%elem_of_app]; [left; apply elem_of_app; by left|by right|left; apply elem_of_app; by right]. }
  - pose proof inside_ok as Hok. rewrite forallb_forall in Hok. specialize (Hok line).
    rewrite forallb_forall in Hok. apply elem_of_list_In in H. specialize (Hok ltac:(destruct line; cbn; tauto) k H).
    apply andb_true_iff in Hok as [H1 H2]. apply generic; [done|]. intros k' Hk'. apply IH.
    rewrite forallb_forall in H2. apply elem_of_list_In in Hk'. specialize (H2 k' Hk'). by apply bool_decide_eq_true in H2.
  - assert (∀ line k, bool_decide (k ∈ local_kinds line) = true → local n line k) as IH'.
    { intros l k' Hk'. apply IH. by apply bool_decide_eq_true in Hk'. }
    rewrite !elem_of_cons, elem_of_nil in H. destruct H as [->|[->|[->|[->|[->|[->|[->|[]]]]]]]].
    + apply postfix_local; apply IH'; by destruct line.
    + apply string_local.
    + apply list_local. apply IH'. reflexivity.
    + eapply (refused_tok n line _ None TIf); [reflexivity|lit_in].
    + eapply (refused_tok n line _ None TSwitch); [reflexivity|lit_in].
    + eapply (refused_tok n line _ (Some FDelimiter) THeredoc); [reflexivity|lit_in].
    + eapply refused_brace. reflexivity.
Qed.
Lemma parser_local line k B B' v v' :
  k ∈ local_kinds line → wall line B → wall line B' → Forall2 alike v v' → at_ line true v →
  beside_parsed (λ b, upto (at_ line b) B B') (upto any B B') (parser eof k (v ++ B)) (parser eof' k (v' ++ B')).
Proof.
  intros Hk HB HB' Hv Hf. set (n := enough k (v ++ B) + enough k (v' ++ B')).
  rewrite <- (parser_enough eof n) by (unfold n; lia). rewrite <- (parser_enough eof' n) by (unfold n; lia).
  apply (local_all n line k Hk); try done. by exists v, v'.
Qed.
End structs.
