(** * The items of a file, one by one *)
From stdpp Require Import base list option strings.
From Coq Require Import Ascii Lia.
From Verif Require Import GoBase EtxAst EtxHeap EtxHeapSpec EtxText EtxLex EtxLexSpec EtxUtil EtxUtilProofs EtxGram
  EtxParse EtxParseBase EtxParseSpec EtxParseStore EtxParseFirst EtxParseClean EtxParseLevel EtxPrecSpec EtxPrec EtxPrecParse
  EtxShape EtxFormat EtxFormatSpec EtxFormatTotal EtxReprintSpec EtxReprint.
From Verif Require EtxParseTotal.

Definition drop_lf (ts : list token) : list token :=
  match ts with c :: ts' => if decide (kind_of_token c = TLF) then ts' else ts | [] => [] end.
Definition no_feed (ts : list token) : Prop := match ts with c :: _ => kind_of_token c ≠ TLF | [] => True end.

(** ** What is stored *)
Definition blank_fields (s : string) : list (fld * aval) := set_field FEmptyLine (VStr s) (fields (zero no_pos KRootItem)).
Definition line_captures (us : list token) : list capture := map (λ t, (FEmptyLine, Texts [value t])) us.
Lemma store_lines us : ∀ s, store_all KRootItem (blank_fields s) (line_captures us) = Stored (blank_fields (s +:+ str (text_of us))).
Proof.
  induction us as [|t us IH]; intros s.
  - cbn [line_captures map store_all]. assert (s +:+ str (text_of []) = s) as ->; [|done].
    clear. induction s as [|c s IH]; [done|]. change (String c (s +:+ str (text_of [])) = String c s). by rewrite IH.
  - change (line_captures (t :: us)) with ((FEmptyLine, Texts [value t]) :: line_captures us). cbn [store_all].
    change (store KRootItem (blank_fields s) (FEmptyLine, Texts [value t])) with (Stored (blank_fields (s +:+ str (concat [value t])))).
    cbn beta iota. rewrite IH. f_equal. f_equal. change (text_of (t :: us)) with (value t ++ text_of us). cbn [concat]. rewrite app_nil_r, str_app. by rewrite string_app_assoc.
Qed.
Definition file_fields (is : list ast) : list (fld * aval) := set_field FItems (VList (if decide (is = []) then None else Some (tt, map Some is))) (fields (zero no_pos KAST)).
Definition item_captures (is : list ast) : list capture := map (λ i, (FItems, Struct i)) is.
Lemma store_items is : ∀ is0, store_all KAST (file_fields is0) (item_captures is) = Stored (file_fields (is0 ++ is)).
Proof.
  induction is as [|i is IH]; intros is0; [by rewrite app_nil_r|].
  change (item_captures (i :: is)) with ((FItems, Struct i) :: item_captures is). cbn [store_all].
  assert (store KAST (file_fields is0) (FItems, Struct i) = Stored (file_fields (is0 ++ [i]))) as ->.
  { unfold file_fields. rewrite (decide_False (P := is0 ++ [i] = [])) by (by destruct is0). rewrite map_app. by destruct is0. }
  cbn beta iota. rewrite IH. by rewrite <- (assoc_L (++)).
Qed.
Lemma file_items q is : list_of FItems (T q KAST (file_fields is) : ast) = map Some is.
Proof. by destruct is. Qed.

Section items.
Context (eof : pos).
Notation P := (parser eof).

Inductive chain : list token → list ast → Prop :=
| chain_nil : chain [] []
| chain_cons ts i ts' is : P KRootItem ts = PNode i ts' → chain ts' is → chain ts (i :: is).

Lemma item_shorter ts i ts' : P KRootItem ts = PNode i ts' → length ts' < length ts.
Proof.
  intros E. pose proof (parser_moves eof KRootItem ts) as H. rewrite E in H. destruct H as (us & -> & H).
  rewrite app_length. specialize (H eq_refl). destruct us; [done|]. cbn. lia.
Qed.
Lemma item_none : ∀ t ts', P KRootItem [] ≠ PNode t ts'.
Proof. intros t ts' E. apply item_shorter in E. cbn in E. lia. Qed.
Lemma many_items n : ∀ acc ts w l y,
  run_many (eval P (GSub FItems KRootItem)) false n acc (Ctx ts [] w) = Ret (Some l) y → todo y = [] →
  ∃ is, chain ts is ∧ assigned y = [] ∧ waiting y = w ++ item_captures is.
Proof.
  induction n as [|n IH]; intros acc ts w l y E Hy; [done|]. cbn [run_many eval branch todo assigned waiting] in E.
  destruct (P KRootItem ts) as [i ts'| |ts'| |] eqn:Ei; try done.
  - cbn [app] in E. unfold accept in E. cbn [todo assigned waiting] in E. apply IH in E as (is & H1 & H2 & H3); [|done].
    exists (i :: is). split_and!; [by econstructor|done|]. rewrite H3, <- (assoc_L (++)). done.
  - injection E as <- <-. cbn in Hy. subst ts. exists []. cbn. rewrite !app_nil_r. split; [constructor|done].
  - destruct (stop _ _); [done|]. injection E as <- <-. cbn in Hy. subst ts. exists []. cbn. rewrite !app_nil_r. split; [constructor|done].
Qed.
Lemma items_many ts is : chain ts is → ∀ n acc w, length ts < n →
  ∃ l, run_many (eval P (GSub FItems KRootItem)) false n acc (Ctx ts [] w) = Ret (Some l) (Ctx [] [] (w ++ item_captures is)).
Proof.
  induction 1 as [|ts i ts' is E H IH]; intros n acc w Hn; (destruct n as [|n]; [lia|]); cbn [run_many eval branch todo assigned waiting].
  - pose proof item_none as Hno. pose proof (parser_moves eof KRootItem []) as Hm.
    pose proof (EtxParseTotal.parser_no_crash eof KRootItem [] ltac:(by intros t Ht%elem_of_nil)) as Hc.
    pose proof (parser_not_out_of_fuel eof KRootItem []) as Hf.
    destruct (P KRootItem []) as [i ts'| |ts'| |] eqn:Ei; try done; cbn; rewrite !app_nil_r; by eexists.
  - rewrite E. cbn [app]. unfold accept. cbn [todo assigned waiting]. apply item_shorter in E.
    destruct (IH n (acc ++ [[]]) (w ++ [(FItems, Struct i)]) ltac:(lia)) as [l El]. exists l. etransitivity; [exact El|]. by rewrite <- (assoc_L (++)).
Qed.
Lemma file_chain ts r : P KAST ts = PNode r [] → ∃ is, chain ts is ∧ list_of FItems r = map Some is ∧ kind_of r = KAST.
Proof.
  rewrite parser_unfold. change (eval P (grammar KAST) (Ctx ts [] [])) with (run_many (eval P (GSub FItems KRootItem)) false (S (length ts)) [] (Ctx ts [] [])).
  destruct (run_many _ _ _ _ _) as [[l|] y| | |] eqn:E; try done. cbn [finish_struct]. intros H.
  assert (todo y = []) as Hy by (destruct (store_all _ _ _); [by injection H|done..]).
  apply many_items in E as (is & Hc & Ha & Hw); [|done]. rewrite Ha, Hw in H. cbn [app] in H.
  change (fields (zero no_pos KAST)) with (file_fields []) in H. rewrite store_items in H. injection H as <- _.
  exists is. split_and!; [done|apply file_items|done].
Qed.
Lemma chain_file ts is : chain ts is → ∃ r, P KAST ts = PNode r [] ∧ list_of FItems r = map Some is.
Proof.
  intros H. rewrite parser_unfold.
  destruct (items_many ts is H (S (length ts)) [] [] ltac:(lia)) as [l E].
  change (eval P (grammar KAST) (Ctx ts [] [])) with (run_many (eval P (GSub FItems KRootItem)) false (S (length ts)) [] (Ctx ts [] [])). rewrite E. cbn [finish_struct assigned waiting app todo].
  change (fields (zero no_pos KAST)) with (file_fields []). rewrite store_items. eexists. split; [done|]. apply file_items.
Qed.

(** ** One item *)
Lemma lf_opt ts a w : ∃ l, eval P g_lf (Ctx ts a w) = Ret (Some l) (Ctx (drop_lf ts) a w).
Proof.
  unfold g_lf. destruct ts as [|c ts]; [eexists; by apply opt_no|]. cbn [drop_lf]. destruct (decide (kind_of_token c = TLF)) as [Hc|Hc].
  - eexists. erewrite opt_yes by (by eapply tok_yes). unfold accept. cbn. by rewrite app_nil_r.
  - eexists. by apply opt_no, tok_no.
Qed.
Lemma many_feeds us rest : Forall (λ t, kind_of_token t = TLF) us → no_feed rest → ∀ some n acc w, length us < n → (some = true → us ≠ []) →
  ∃ l, run_many (eval P (GCap FEmptyLine (GTok TLF))) some n acc (Ctx (us ++ rest) [] w) = Ret (Some l) (Ctx rest [] (w ++ line_captures us)).
Proof.
  intros Hu Hr. induction Hu as [|t us Ht _ IH]; intros some n acc w Hn Hs; (destruct n as [|n]; [cbn in Hn; lia|]); cbn [run_many branch todo assigned waiting].
  - cbn [app]. rewrite (cap_no _ _ _ _ _ (tok_no _ _ (Ctx rest [] []) Hr)). destruct some; [by destruct (Hs eq_refl)|]. eexists. unfold accept. cbn. done.
  - cbn [app]. erewrite cap_yes by (by eapply tok_yes). unfold accept. cbn [todo assigned waiting app]. cbn [length] in Hn.
    destruct (IH false n (acc ++ [[]]) (w ++ [(FEmptyLine, Texts [value t])]) ltac:(lia) ltac:(done)) as [l El].
    exists l. etransitivity; [exact El|]. by rewrite <- (assoc_L (++)).
Qed.
Lemma blank_item us rest : Forall (λ t, kind_of_token t = TLF) us → us ≠ [] → no_feed rest →
  ∃ i, P KRootItem (us ++ rest) = PNode i rest ∧ ptr_of FDecl i = None ∧ str_of FEmptyLine i = text_of us ∧ (text_of us ≠ [] → format i = Ok (text_of us)).
Proof.
  intros Hu Hn Hr. rewrite parser_unfold. cbn [grammar eval].
  destruct (many_feeds us rest Hu Hr true (S (length (us ++ rest))) [] [] ltac:(rewrite app_length; lia) ltac:(done)) as [l E].
  rewrite (alt_yes _ _ _ _ _ l (Ctx rest [] (line_captures us))) by (exact E).
  cbn [finish_struct accept assigned waiting todo app]. change (fields (zero no_pos KRootItem)) with (blank_fields ""). rewrite store_lines.
  assert (∀ q, str_of FEmptyLine (T q KRootItem (blank_fields (str (text_of us))) : ast) = text_of us) as Hs by (intros q; apply chars_str).
  eexists. split_and!; [done|done|apply Hs|]. intros Ht. rewrite format_unfold. unfold format_node. cbn [kind_of].
  change (ptr_of _ _) with (None : option ast). cbn [first_set]. rewrite Hs. by rewrite decide_True.
Qed.
Lemma blank_err ts : no_feed ts → eval P g_empty_line (Ctx ts [] []) = Err (Ctx ts [] []).
Proof. intros H. unfold g_empty_line. by apply some_no, cap_no, tok_no. Qed.
Lemma decl_item ts d ts' : no_feed ts → P KDecl ts = PNode d ts' →
  ∃ i, P KRootItem ts = PNode i (drop_lf ts') ∧ ptr_of FDecl i = Some d ∧ str_of FEmptyLine i = [] ∧ format i = format d.
Proof.
  intros Hn E. rewrite parser_unfold. cbn [grammar].
  change (eval P (GAlt ?gs) ?x) with (run_alt (eval P) false gs x).
  rewrite (alt_err _ _ _ _ _ (Ctx ts [] [])); [|by apply blank_err|cbn; lia|done].
  destruct (lf_opt ts' [] [(FDecl, Struct d)]) as [l El].
  erewrite alt_yes.
  2:{ erewrite seq_yes by (by apply sub_yes). cbn [todo assigned waiting app branch]. erewrite seq_next by exact El. reflexivity. }
  cbn. eexists. split; [done|]. split_and!; [done|done|]. rewrite format_unfold. done.
Qed.
Lemma alt_failed gs l y : ∀ b b' x, run_alt (eval P) b gs x = Ret (Some l) y → run_alt (eval P) b' gs x = Ret (Some l) y.
Proof.
  induction gs as [|g gs IH]; intros b b' x; cbn [run_alt]; [by destruct b|].
  destruct (eval P g (branch x)) as [[l'|] z|z| |]; [done|apply IH| |done..]. destruct (stop x z); [done|]. apply IH.
Qed.
Lemma other_item ts i ts' : no_feed ts → (∀ d us, P KDecl ts ≠ PNode d us) → P KRootItem ts = PNode i ts' →
  ptr_of FDecl i = None ∧ str_of FEmptyLine i = [].
Proof.
  intros Hn Hd. rewrite parser_unfold. cbn [grammar].
  change (eval P (GAlt ?gs) ?x) with (run_alt (eval P) false gs x).
  rewrite (alt_err _ _ _ _ _ (Ctx ts [] [])); [|by apply blank_err|cbn; lia|done].
  set (later := [GSeq [GSub FFunc KFunc; g_lf]; GSeq [GSub FType KType; g_lf]; GSeq [GSub FBlock KBlock; g_lf]; GSeq [GSub FAttribute KAttribute; g_lf]; GSub FComment KComment]).
  intros E. assert (∃ failed l y, run_alt (eval P) failed later (Ctx ts [] []) = Ret (Some l) y ∧ finish_struct eof KRootItem ts (Ret (Some l) y) = PNode i ts') as (failed & l & y & Hr & Hf).
  { cbn [run_alt] in E. change (eval P (GSeq [GSub FDecl KDecl; g_lf])) with (run_seq (eval P) true [GSub FDecl KDecl; g_lf] []) in E.
    cbn [run_seq] in E. change (eval P (GSub FDecl KDecl) (branch (Ctx ts [] []))) with (match P KDecl ts with
      | PNode t us => Ret (Some [[]]) (Ctx us [] [(FDecl, Struct t)]) | PNone => Ret None (Ctx ts [] []) | PErr us => Err (Ctx us [] []) | PCrash => Crash | PNoFuel => NoFuel end) in E.
    destruct (P KDecl ts) as [d us| |us| |] eqn:Ed; try done; [by destruct (Hd d us)| |].
    - change (drop_branch (Ctx ts [] []) (Ctx ts [] [])) with (Ctx ts [] []) in E. exists true. fold later in E.
      destruct (run_alt (eval P) true later (Ctx ts [] [])) as [[l|] y| | |]; try done. by exists l, y.
    - destruct (stop _ _); [done|]. change (drop_branch (Ctx ts [] []) (Ctx us [] [])) with (Ctx ts [] []) in E. exists true. fold later in E.
      destruct (run_alt (eval P) true later (Ctx ts [] [])) as [[l|] y| | |]; try done. by exists l, y. }
  clear E. assert (∀ c, EtxParseTotal.captures ts (GAlt later) c → c.1 ≠ FDecl ∧ c.1 ≠ FEmptyLine) as Hc.
  { intros c Hc. cbn in Hc. repeat (destruct Hc as [Hc|Hc]); try done; destruct Hc as [? ->]; done. }
  assert (Forall (λ c, c.1 ≠ FDecl ∧ c.1 ≠ FEmptyLine) (assigned y) ∧ Forall (λ c, c.1 ≠ FDecl ∧ c.1 ≠ FEmptyLine) (waiting y)) as [Ha Hw].
  { apply (alt_failed _ _ _ _ false) in Hr.
    pose proof (EtxParseTotal.eval_from P ts (parser_moves eof) (λ c, c.1 ≠ FDecl ∧ c.1 ≠ FEmptyLine) (GAlt later) Hc (Ctx ts [] [])) as H.
    cbn [eval] in H. change (run_alt _ false later (Ctx ts [] [])) with (run_alt (eval P) false later (Ctx ts [] [])) in H. rewrite Hr in H.
    destruct H as (_ & H1 & H2); [split_and!; [done|constructor..]|]. done. }
  cbn [finish_struct] in Hf. destruct (store_all _ _ _) as [fs| |] eqn:Es; try done. injection Hf as <- _.
  pose proof (filled_plain KRootItem _ _ fs eq_refl (λ f, eq_refl) Es) as Hfill.
  assert (∀ f, f ∈ [FDecl; FEmptyLine] → captures_of f (assigned y ++ waiting y) = []) as Hno.
  { intros f Hf. unfold captures_of. match goal with |- map _ ?l = _ => destruct l as [|c l'] eqn:El; [done|] end.
    assert (c ∈ c :: l') as Hin by by left. rewrite <- El in Hin. apply elem_of_list_filter in Hin as [Hc1 Hc2].
    apply elem_of_app in Hc2. rewrite Forall_forall in Ha, Hw. rewrite !elem_of_cons, elem_of_nil in Hf. exfalso.
    destruct Hc2 as [H|H]; [specialize (Ha _ H)|specialize (Hw _ H)]; destruct Hf as [->|[->|[]]]; naive_solver. }
  split.
  - eapply (ptr_of_field KRootItem _ fs _ FDecl KDecl None eq_refl Hfill); [in_schema|]. rewrite Hno; [done|by left].
  - eapply (str_of_field KRootItem _ fs _ FEmptyLine [] eq_refl Hfill); [in_schema|]. rewrite Hno; [done|by right; left].
Qed.
Lemma feeds_split ts : ∃ us rest, ts = us ++ rest ∧ Forall (λ t, kind_of_token t = TLF) us ∧ no_feed rest.
Proof.
  induction ts as [|t ts (us & rest & -> & Hu & Hr)]; [by exists [], []|]. destruct (decide (kind_of_token t = TLF)) as [Ht|Ht].
  - exists (t :: us), rest. split_and!; [done|by constructor|done].
  - by exists [], (t :: us ++ rest).
Qed.
Lemma item_cases ts i ts' : P KRootItem ts = PNode i ts' →
  (∃ us, ts = us ++ ts' ∧ us ≠ [] ∧ Forall (λ t, kind_of_token t = TLF) us ∧ no_feed ts' ∧
    ptr_of FDecl i = None ∧ str_of FEmptyLine i = text_of us ∧ (text_of us ≠ [] → format i = Ok (text_of us))) ∨
  no_feed ts ∧ (∃ d ts2, P KDecl ts = PNode d ts2 ∧ ts' = drop_lf ts2 ∧ ptr_of FDecl i = Some d ∧ format i = format d) ∨
  no_feed ts ∧ ptr_of FDecl i = None ∧ str_of FEmptyLine i = [].
Proof.
  intros E. destruct (feeds_split ts) as (us & rest & -> & Hu & Hr). destruct us as [|c us].
  - right. cbn [app] in *. assert ((∃ d us, P KDecl rest = PNode d us) ∨ (∀ d us, P KDecl rest ≠ PNode d us)) as [(d & ts2 & Ed)|Hno].
    { destruct (P KDecl rest) eqn:?; [by left; eexists _, _|right; by intros ? ?..]. }
    + left. destruct (decl_item _ _ _ Hr Ed) as (j & Hj & H1 & H2 & H3). rewrite Hj in E. injection E as -> <-. split; [done|]. by exists d, ts2.
    + right. split; [done|]. by eapply other_item.
  - left. destruct (blank_item (c :: us) rest Hu ltac:(done) Hr) as (j & Hj & H1 & H2 & H3). rewrite Hj in E. injection E as -> <-.
    by exists (c :: us).
Qed.
End items.
