(** * Formatting depends on the gist but for line feeds and tabs *)
From stdpp Require Import base list option strings relations.
From Coq Require Import Ascii Lia.
From Verif Require EtxOrder.
From Verif Require Import GoBase EtxAst EtxHeap EtxHeapSpec EtxText EtxTextFacts EtxLex EtxLexSpec EtxLexString EtxUtil EtxNumProofs EtxGram EtxParse EtxParseBase
  EtxParseSpec EtxParseStore EtxParseTyped EtxParseFirst EtxParseParts EtxFormat EtxShape EtxPrec EtxFormatTotal EtxFormatPanic EtxReprintSpec EtxRelex EtxReprint
  EtxParsePropProofs EtxSettled EtxDeclsSpec EtxWriteSpec EtxCode EtxSays EtxWriteBase EtxOrdinarySpec EtxOrdinaryLex EtxOrdinaryCaps EtxWriteFile EtxOrdinary EtxInkSpec EtxCycle.

Lemma ink_app u v : ink (u ++ v) = ink u ++ ink v.
Proof. apply filter_app. Qed.
Lemma ink_lf u : ink (lf :: u) = ink u.
Proof. unfold ink. by rewrite filter_cons, decide_False by naive_solver. Qed.
Lemma ink_tab u : ink (tab :: u) = ink u.
Proof. unfold ink. by rewrite filter_cons, decide_False by naive_solver. Qed.
Lemma ink_lfs v : Forall (λ c, c = lf) v → ink v = [].
Proof. induction 1 as [|c v -> _ IH]; [done|]. by rewrite ink_lf. Qed.
Lemma ink_indent u : ∀ b, ink (indent_from b [tab] u) = ink u.
Proof.
  induction u as [|c u IH]; intros b; [done|]. cbn [indent_from]. rewrite ink_app. change (c :: u) with ([c] ++ u). rewrite (ink_app [c]).
  change (c :: indent_from (Ascii.eqb c lf) [tab] u) with ([c] ++ indent_from (Ascii.eqb c lf) [tab] u). rewrite (ink_app [c]), IH.
  by destruct (b && _).
Qed.
Lemma ink_tabbed u : ink (tabbed u) = ink u.
Proof. apply ink_indent. Qed.
Definition inked (u w : text) : Prop := ink w = ink u.
Lemma inked_app u u' v v' : inked u u' → inked v v' → inked (u ++ v) (u' ++ v').
Proof. unfold inked. rewrite !ink_app. by intros -> ->. Qed.
Lemma inked_tabbed u u' : inked u u' → inked (tabbed u) (tabbed u').
Proof. unfold inked. by rewrite !ink_tabbed. Qed.
Lemma inked_refl u : inked u u.
Proof. done. Qed.
Lemma inked_braced u u' : inked u u' → inked (braced u) (braced u').
Proof. intros H. unfold braced. repeat apply inked_app; try done. by apply inked_tabbed. Qed.
Lemma inked_join sep l l' : Forall2 inked l l' → inked (join sep l) (join sep l').
Proof.
  induction 1 as [|u u' l l' Hu H IH]; [done|]. destruct H as [|v v' l l' Hv H]; [done|]. cbn [join] in *.
  apply inked_app; [done|]. apply inked_app; [done|exact IH].
Qed.
Lemma inked_concat (f : text → text) l l' : (∀ u u', inked u u' → inked (f u) (f u')) → Forall2 inked l l' → inked (concat (map f l)) (concat (map f l')).
Proof. intros Hf. induction 1 as [|u u' l l' Hu H IH]; [done|]. cbn. apply inked_app; [by apply Hf|exact IH]. Qed.
Lemma ink_join l : ink (join [lf; lf] l) = ink (concat l).
Proof.
  induction l as [|u l IH]; [done|]. destruct l as [|v l]; [cbn; by rewrite app_nil_r|]. cbn [join concat] in *. rewrite ink_app, (ink_app [lf; lf]), IH, (ink_app u). done.
Qed.
Lemma ink_concat (f : text → text) l : (∀ u, ink (f u) = ink u) → ink (concat (map f l)) = ink (concat l).
Proof. intros Hf. induction l as [|u l IH]; [done|]. cbn. by rewrite !ink_app, Hf, IH. Qed.

(** ** Results *)
Definition rel {A B} (R : A → B → Prop) (a : res A) (b : res B) : Prop := ∀ x, a = Ok x → ∃ y, b = Ok y ∧ R x y.
Lemma rel_bind {A B A' B'} (R : A → B → Prop) (S : A' → B' → Prop) a b f g :
  rel R a b → (∀ x y, R x y → rel S (f x) (g y)) → rel S (a ≫= f) (b ≫= g).
Proof.
  intros Hab Hfg x Hx. destruct a as [a| |]; [|done..]. destruct (Hab a eq_refl) as (y & -> & Hy). by apply (Hfg a y Hy).
Qed.
Lemma rel_ok {A B} (R : A → B → Prop) a b : R a b → rel R (Ok a) (Ok b).
Proof. intros H x [= <-]. by exists b. Qed.
Lemma rel_panic {A B} (R : A → B → Prop) b : rel R Panic b.
Proof. by intros x [=]. Qed.

(** ** Nodes *)
Notation same t := (rel inked (format t) (format (gist t))).
Definition blanks (t : ast) : Prop := ∀ m, m ∈ nodes t → blank_line m = true → ∃ v, format m = Ok v ∧ Forall (λ c, c = lf) v.
Lemma rel_of o : (∀ c, o = Some c → same c) → rel inked (fmt_of format o) (fmt_of format (gist <$> o)).
Proof. intros H. destruct o as [c|]; [by apply H|apply rel_panic]. Qed.
Lemma rel_first l r : (∀ c, Some c ∈ l → same c) → rel inked r r → rel inked (first_set format l r) (first_set format (map (fmap gist) l) r).
Proof.
  intros H Hr. induction l as [|[c|] l IH]; [done|..]; cbn.
  - apply H. by left.
  - apply IH. intros c Hc. apply H. by right.
Qed.
Lemma rel_all l : (∀ c, Some c ∈ l → same c) → rel (Forall2 inked) (fmt_all format l) (fmt_all format (map (fmap gist) l)).
Proof.
  induction l as [|o l IH]; intros H; [by apply rel_ok|]. cbn [map fmt_all]. eapply rel_bind; [apply rel_of; intros c ->; apply H; by left|].
  intros x y Hxy. eapply rel_bind; [apply IH; intros c Hc; apply H; by right|]. intros xs ys Hs. apply rel_ok. by constructor.
Qed.
Lemma rel_rows l :
  (∀ c, Some c ∈ l → same c) → (∀ c, Some c ∈ l → blank_line c = true → ∃ v, format c = Ok v ∧ Forall (λ x, x = lf) v) →
  rel (λ us ws, ink (concat ws) = ink (concat us)) (fmt_all format l) (fmt_all format (keep l)).
Proof.
  induction l as [|[c|] l IH]; intros H Hb; [by apply rel_ok| |apply rel_panic].
  assert (rel (λ us ws, ink (concat ws) = ink (concat us)) (fmt_all format l) (fmt_all format (keep l))) as IH'.
  { apply IH; [intros c' Hc'; apply H; by right|intros c' Hc'; apply Hb; by right]. }
  destruct (blank_line c) eqn:E.
  - rewrite keep_blank by done. destruct (Hb c ltac:(by left) E) as (v & F & Hv). intros x. cbn [fmt_all fmt_of]. rewrite F.
    destruct (fmt_all format l) as [us| |]; [|done..]. intros [= <-]. destruct (IH' us eq_refl) as (ws & -> & Hw). exists ws. split; [done|].
    cbn [concat]. by rewrite ink_app, (ink_lfs v Hv).
  - rewrite keep_row by done. cbn [fmt_all fmt_of]. eapply rel_bind; [apply H; by left|]. intros u w Hu. eapply rel_bind; [exact IH'|].
    intros us ws Hus. apply rel_ok. cbn [concat]. rewrite !ink_app, Hus. unfold inked in Hu. by rewrite Hu.
Qed.
Section node.
Context (t : ast) (Hty : typed t = true) (Hb : blanks t) (IH : ∀ c, size c < size t → c ∈ nodes t → same c).
Lemma rel_ptr f c : ptr_of f t = Some c → same c.
Proof.
  unfold ptr_of. destruct (get f t) as [[| | | |o| |]|] eqn:E; try done. intros ->. apply get_held in E.
  apply IH; [eapply size_sub|eapply EtxOrder.sub_node]; try done; by left.
Qed.
Lemma rel_emb f c : emb_of f t = Some c → same c.
Proof.
  unfold emb_of. destruct (get f t) as [[| | | | |c'|]|] eqn:E; try done. intros [= ->]. apply get_held in E.
  apply IH; [eapply size_sub|eapply EtxOrder.sub_node]; try done; by left.
Qed.
Lemma in_list f c : Some c ∈ list_of f t → size c < size t ∧ c ∈ nodes t.
Proof.
  unfold list_of. destruct (get f t) as [[| | | | | |[[[] l]|]]|] eqn:E; try (by intros ?%elem_of_nil). intros H. apply get_held in E.
  assert (c ∈ val_subs (VList (Some ((), l)))) as Hs by (cbn; apply elem_of_list_omap; by exists (Some c)).
  split; [by eapply size_sub|by eapply EtxOrder.sub_node].
Qed.
Lemma rel_list f c : Some c ∈ list_of f t → same c.
Proof. intros [H1 H2]%in_list. by apply IH. Qed.
Lemma rel_grand_ptr f g i c : Some i ∈ list_of f t → ptr_of g i = Some c → same c.
Proof.
  intros [H1 H2]%in_list. unfold ptr_of. destruct (get g i) as [[| | | |o| |]|] eqn:E; try done. intros ->. apply get_held in E.
  assert (c ∈ val_subs (VPtr (Some c))) as Hs by (by left). pose proof (size_sub _ _ _ _ E Hs). apply IH; [lia|].
  eapply EtxOrder.nodes_trans; [exact H2|]. by eapply EtxOrder.sub_node.
Qed.
Lemma rel_grand_emb f g i c : Some i ∈ list_of f t → emb_of g i = Some c → same c.
Proof.
  intros [H1 H2]%in_list. unfold emb_of. destruct (get g i) as [[| | | | |o|]|] eqn:E; try done. intros [= ->]. apply get_held in E.
  assert (c ∈ val_subs (VEmb c)) as Hs by (by left). pose proof (size_sub _ _ _ _ E Hs). apply IH; [lia|].
  eapply EtxOrder.nodes_trans; [exact H2|]. by eapply EtxOrder.sub_node.
Qed.
Lemma longest_gist l : longest (map (fmap gist) l) = longest l.
Proof. induction l as [|[c|] l IHl]; [done| |done]. cbn. by rewrite IHl, str_gist. Qed.
Lemma rel_entries f g n : rel inked (format_entries format g n (list_of f t)) (format_entries format g n (map (fmap gist) (list_of f t))).
Proof.
  assert (∀ i c, Some i ∈ list_of f t → emb_of g i = Some c → same c) as H by (intros i c; apply rel_grand_emb).
  induction (list_of f t) as [|[c|] l IHl]; [by apply rel_ok| |apply rel_panic]. cbn [map fmap option_fmap option_map format_entries].
  rewrite emb_gist, str_gist. eapply rel_bind; [apply rel_of; intros d; apply H; by left|]. intros x y Hx.
  eapply rel_bind; [apply IHl; intros i d Hi; apply H; by right|]. intros x' y' Hx'. apply rel_ok. repeat apply inked_app; done.
Qed.
Lemma rel_pairs f : rel inked (format_pairs format (list_of f t)) (format_pairs format (map (fmap gist) (list_of f t))).
Proof.
  assert (∀ i g c, Some i ∈ list_of f t → ptr_of g i = Some c → same c) as H by (intros i g c; apply rel_grand_ptr).
  induction (list_of f t) as [|[c|] l IHl]; [by apply rel_ok| |apply rel_panic]. cbn [map fmap option_fmap option_map format_pairs].
  rewrite !ptr_gist. eapply rel_bind; [apply rel_of; intros d; apply H; by left|]. intros x y Hx.
  eapply rel_bind; [apply rel_of; intros d; apply H; by left|]. intros x1 y1 Hx1.
  eapply rel_bind; [apply IHl; intros i g d Hi; apply H; by right|]. intros x' y' Hx'. apply rel_ok.
  apply inked_app; [apply inked_tabbed|]; repeat apply inked_app; done.
Qed.
Lemma rel_aligned f k : (FItems, TList k) ∈ schema (kind_of t) → row_kind k = false → rel inked (format_aligned format f t) (format_aligned format f (gist t)).
Proof.
  intros H1 H2. unfold format_aligned. rewrite (keep_list t FItems k Hty H1 H2), longest_gist.
  destruct (longest (list_of FItems t)); [apply rel_entries|by intros ? [=]..].
Qed.

Ltac ink_step :=
  match goal with
  | |- inked ?x ?x => exact (inked_refl x)
  | |- rel _ Panic _ => apply rel_panic
  | |- rel _ (Ok _) (Ok _) => apply rel_ok
  | |- rel _ (_ ≫= _) (_ ≫= _) => first [apply (rel_bind inked inked)|apply (rel_bind (Forall2 inked) inked)]; [|intros ? ? ?]
  | |- rel _ (fmt_of format (ptr_of ?f t)) _ => apply rel_of; intros ?; apply rel_ptr
  | |- rel _ (fmt_of format (emb_of ?f t)) _ => apply rel_of; intros ?; apply rel_emb
  | |- rel _ (fmt_all format (list_of ?f t)) (fmt_all _ (map _ _)) => apply rel_all; intros ?; apply rel_list
  | H : ptr_of ?f t = Some ?c |- rel _ (format ?c) _ => exact (rel_ptr f c H)
  | |- inked (_ ++ _) (_ ++ _) => apply inked_app
  | |- inked (braced _) (braced _) => apply inked_braced
  | |- inked (tabbed _) (tabbed _) => apply inked_tabbed
  | |- inked (join _ _) (join _ _) => apply inked_join
  | |- inked (concat (map _ _)) _ => apply inked_concat; [intros ? ? ?|]
  | |- inked (concat ?l) (concat ?l') => rewrite <- (map_id l), <- (map_id l')
  | |- _ => assumption
  end.
Ltac ptrs := repeat match goal with |- context [ptr_of ?f t] => let E := fresh "E" in destruct (ptr_of f t) eqn:E; cbn [fmap option_fmap option_map is_nil first_set fmt_of] end.
Ltac lst f := erewrite (keep_list t f _ Hty); [|match goal with Hk : kind_of t = _ |- _ => rewrite Hk end; in_sc|done].
Lemma rel_body f : rel (λ us ws, ink (concat ws) = ink (concat us)) (fmt_all format (list_of f t)) (fmt_all format (list_of f (gist t))).
Proof.
  rewrite list_gist. apply rel_rows; [intros c; apply rel_list|]. intros c [_ Hc]%in_list. by apply Hb.
Qed.
Lemma rel_items f d (F : list text → text) a b :
  (∀ us, ink (F us) = a ++ ink (concat us) ++ b) → ink d = a ++ b →
  rel inked (if decide (list_of f t = []) then Ok d else l ← fmt_all format (list_of f t); Ok (F l))
            (if decide (list_of f (gist t) = []) then Ok d else l ← fmt_all format (list_of f (gist t)); Ok (F l)).
Proof.
  intros HF Hd. pose proof (rel_body f) as H. case_decide as E1.
  - rewrite list_gist, E1. cbn. by apply rel_ok.
  - intros x. destruct (fmt_all format (list_of f t)) as [us| |]; [|done..]. intros [= <-]. destruct (H us eq_refl) as (ws & Hws & Hi). case_decide as E2.
    + rewrite E2 in Hws. injection Hws as <-. exists d. split; [done|]. unfold inked. by rewrite HF, Hd, <- Hi.
    + rewrite Hws. exists (F ws). split; [done|]. unfold inked. by rewrite !HF, Hi.
Qed.
Lemma rel_node : writable_node t → same t.
Proof.
  intros [_ Hw]. rewrite !format_unfold. unfold format_node. rewrite kind_gist.
  destruct (kind_of t) eqn:Hk.
  all: unfold format_decl, format_parameter, format_entry, format_binary; rewrite ?str_gist, ?strs_gist, ?bool_gist, ?ptr_gist, ?emb_gist.
  all: try match goal with H : kind_of t = KAST |- _ =>
    apply (rel_items FItems [] (λ l, join [lf; lf] l ++ [lf]) [] []); [|done]; intros us; rewrite ink_app, ink_join; done end.
  all: try match goal with H : kind_of t = KValueList |- _ =>
    apply (rel_items FItems (chars "[]") (λ l, chars "[" ++ [lf] ++ concat (map tabbed l) ++ chars "]") (chars "[") (chars "]")); [|done];
    intros us; rewrite !ink_app, (ink_concat tabbed) by apply ink_tabbed; done end.
  all: try match goal with H : kind_of t = KExprSwitch |- _ =>
    lst FCases; ink_step; [repeat ink_step|]; assert (Hl : map (fmap gist) (list_of FCases t) = [] ↔ list_of FCases t = []) by (by destruct (list_of FCases t));
    rewrite (decide_ext _ _ _ _ Hl); case_decide; repeat ink_step; done end.
  all: try (by eapply rel_aligned; [rewrite Hk; in_sc|]).
  all: try (repeat case_decide; try (ptrs; repeat ink_step; done)).
  all: try (destruct (bool_of _ t); ptrs; repeat ink_step; done).
  - lst FParameters. repeat ink_step.
  - lst FParameters. lst FReturn. ink_step; [ink_step|]. ink_step; [ink_step|]. apply (rel_bind (λ us ws, ink (concat ws) = ink (concat us)) inked); [apply rel_body|].
    intros us ws Hus. apply rel_ok. repeat (apply inked_app; [by repeat ink_step|]). apply inked_app.
    { match goal with H : Forall2 inked ?l ?l' |- inked (match ?l with _ => _ end) _ => destruct H as [|? ? ? ? ? [|? ? ? ? ? ?]]; repeat ink_step; constructor; [done|by constructor] end. }
    assert (∀ b, ink match b with [] => chars " {}" | _ => chars " {" ++ [lf] ++ concat (map (λ s, tabbed s ++ [lf]) b) ++ chars "}" end = chars " {" ++ ink (concat b) ++ chars "}") as E.
    { intros [|? ?]; [done|]. rewrite !ink_app, (ink_concat (λ s, tabbed s ++ [lf])); [done|]. intros u. rewrite ink_app, ink_tabbed. by rewrite app_nil_r. }
    unfold inked. by rewrite !E, Hus.
  - rewrite get_gist. destruct (get FValue t) as [[| | |[[[] ?]|]|[?|]|?|[[[] l]|]]|]; try (repeat ink_step; done); try (by cbn; repeat ink_step).
  - lst FFragment. repeat ink_step.
  - assert (nil_list FConditions (gist t) = nil_list FConditions t) as ->.
    { destruct Hw as [_ Hw]. destruct (bool_of FDefault t).
      - rewrite Hw. unfold nil_list in *. rewrite get_gist. destruct (get FConditions t) as [[| |[[[] [|]]|]|[[[] ?]|]|[?|]|?|[[[] l]|]]|]; done.
      - assert (list_of FConditions (gist t) ≠ []) as Hw' by (lst FConditions; by destruct (list_of FConditions t)).
        unfold nil_list, list_of in *. destruct (get FConditions t) as [[| |[[[] [|]]|]|[[[] ?]|]|[?|]|?|[[[] l]|]]|]; try done.
        by destruct (get FConditions (gist t)) as [[| | | | | |[[[] ?]|]]|]. }
    lst FConditions. destruct (nil_list FConditions t), (bool_of FDefault t); cbn [negb]; repeat ink_step.
  - lst FMonads. ptrs; repeat ink_step.
  - lst FValues. repeat ink_step.
Qed.
End node.

(** ** Trees *)
Lemma writable_sub t m : writable t → m ∈ nodes t → writable m.
Proof.
  intros [H1 H2] Hm. split; [by eapply (proj1 EtxOrder.typed_node)|]. intros x Hx. apply H2. by eapply EtxOrder.nodes_trans.
Qed.
Lemma writable_blanks t : writable t → blanks t.
Proof.
  intros Hw m Hm Hb. pose proof (all_good _ (writable_sub _ _ Hw Hm)) as Hg. unfold good in Hg. unfold blank_line in Hb.
  assert (row_claim (if decide (kind_of m = KListItem) then [lf] else []) m) as H by (by destruct (kind_of m)).
  unfold row_claim, blank_line in H. rewrite Hb in H. destruct H as (v & F & _ & Hv). by exists v.
Qed.
Lemma gist_same t : writable t → same t.
Proof.
  assert (∃ k, size t < k) as [k Hk] by (exists (S (size t)); lia). revert t Hk. induction k as [|k IH]; intros t Hn; [lia|].
  intros Hw. apply rel_node; [by destruct Hw| by apply writable_blanks| |by apply Hw; destruct t; left].
  intros c Hc Hm. apply IH; [lia|]. by eapply writable_sub.
Qed.
(*P C78_same_ink *)
(** Trees that can be written down and say the same have texts that differ only in line
    feeds and tabs. *)
Lemma same_ink t t' u u' :
  writable t → writable t' → gist t = gist t' → format t = Ok u → format t' = Ok u' → ink u = ink u'.
Proof.
  intros H1 H2 E F1 F2. destruct (gist_same t H1 u F1) as (w & Fw & <-). destruct (gist_same t' H2 u' F2) as (w' & Fw' & <-).
  rewrite E, Fw' in Fw. by injection Fw as ->.
Qed.
(*P C78_only_layout_changes *)
(** However often an ordinary file is formatted: the text of the first time and that of any
    later time differ only in line feeds and tabs. *)
Lemma only_layout_changes s r u v :
  parse s = Ok (Some r) → ordinary r → formats_to s u → rtc formats_to u v → ink u = ink v.
Proof.
  intros Hp Ho Hu [->|(w & Hw & r2 & Hr2 & Fv)]%rtc_inv_r; [done|]. pose proof (rtc_l _ _ _ _ Hu Hw) as Hw'. destruct Hu as (r0 & Hr & Fu).
  rewrite Hp in Hr. injection Hr as <-. destruct (ordinary_cycles _ _ _ Hp Ho Hw') as (r' & v' & P' & G & Ho' & F'). rewrite Hr2 in P'. injection P' as <-.
  eapply (same_ink r r2); [by eapply parsed_writable|by eapply parsed_writable|by symmetry|done|done].
Qed.
