(** * Ordinary files can be written down *)
From stdpp Require Import base list option strings.
From Coq Require Import Ascii Lia.
From Verif Require EtxOrder.
From Verif Require Import GoBase EtxAst EtxHeap EtxHeapSpec EtxText EtxTextFacts EtxLex EtxLexSpec EtxLexString EtxUtil EtxNumProofs EtxGram EtxParse EtxParseBase
  EtxParseSpec EtxParseStore EtxParseTyped EtxParseFirst EtxParseParts EtxFormat EtxShape EtxPrec EtxFormatTotal EtxFormatPanic EtxReprintSpec EtxRelex EtxReprint
  EtxParsePropProofs EtxWriteSpec EtxOrdinarySpec EtxOrdinaryLex EtxOrdinaryCaps EtxWriteFile.

(** ** Tokens *)
Definition good_tokens (us : list token) : Prop := Forall plain_token us ∧ no_chars us.
Lemma good_part a b c : good_tokens (a ++ b ++ c) → good_tokens b.
Proof.
  intros [H1 H2]. split; [by apply Forall_app in H1 as [_ [? _]%Forall_app]|]. intros i x y Hx Hy. apply (H2 (length a + i)).
  - rewrite lookup_app_r by lia. replace (length a + i - length a) with i by lia. rewrite lookup_app_l; [done|]. by eapply lookup_lt_Some.
  - rewrite lookup_app_r by lia. replace (S (length a + i) - length a) with (S i) by lia. rewrite lookup_app_l; [done|]. by eapply lookup_lt_Some.
Qed.
Lemma good_values us : good_tokens us → Forall (λ u, value u ≠ []) us.
Proof. intros [H _]. eapply Forall_impl; [exact H|]. by intros u [? _]. Qed.
Lemma fits_tok u k : fits u [ATok k] → kind_of_token u = k.
Proof. intros (a & ->%elem_of_list_singleton & H). by apply bool_decide_eq_true in H. Qed.
Definition op_text (a : atom) : option text :=
  match a with ALit s => Some (chars s) | ATok k => chars <$> text_of_op k end.
Lemma fits_ops u l m : plain_token u → fits u l → map op_text l = map Some m → value u ∈ m.
Proof.
  intros (_ & Hu & _) (a & Ha & H) E. assert (op_text a ∈ map Some m) as (v & Ev & Hv)%elem_of_list_fmap.
  { rewrite <- E. apply elem_of_list_fmap. by exists a. }
  destruct a as [s|k]; cbn in H, Ev; apply bool_decide_eq_true in H.
  - injection Ev as <-. by rewrite H.
  - destruct (text_of_op k) as [o|] eqn:Eo; [|done]. injection Ev as <-. subst k. by rewrite (Hu o Eo).
Qed.

(** ** Fields of nodes *)
Lemma token_name p k us m f :
  builds p k us m → Forall plain_token us → special_kind k = false → (f, TStr) ∈ schema k →
  sources f (grammar k) = Some [ATok TIdent] → most f (grammar k) <= 1 → str_of f m ≠ [] → name (str_of f m).
Proof.
  intros Hb Hu Hs Hsc Hso Hm Hne. destruct (str_token _ _ _ _ _ _ Hb Hs Hsc Hso Hm) as [?|(u & Hin & -> & Hf)]; [done|].
  rewrite Forall_forall in Hu. destruct (Hu u Hin) as (_ & _ & H). by rewrite (fits_tok _ _ Hf) in H.
Qed.
Lemma token_one p k us m f l vs :
  builds p k us m → Forall plain_token us → special_kind k = false → (f, TStr) ∈ schema k →
  sources f (grammar k) = Some l → map op_text l = map Some vs → most f (grammar k) <= 1 → str_of f m ∈ [] :: vs.
Proof.
  intros Hb Hu Hs Hsc Hso E Hm. destruct (str_token _ _ _ _ _ _ Hb Hs Hsc Hso Hm) as [->|(u & Hin & -> & Hf)]; [by left|]. right.
  rewrite Forall_forall in Hu. by eapply fits_ops; [apply Hu|..].
Qed.
Lemma token_feeds p k us m :
  builds p k us m → Forall plain_token us → special_kind k = false → (FEmptyLine, TStr) ∈ schema k →
  sources FEmptyLine (grammar k) = Some [ATok TLF] → cr ∉ str_of FEmptyLine m → str_of FEmptyLine m ≠ [] → feeds (str_of FEmptyLine m).
Proof.
  intros Hb Hu Hs Hsc Hso Hc Hne. split; [done|]. rewrite Forall_forall in Hu. apply Forall_forall. intros c H.
  destruct (str_tokens _ _ _ _ _ _ c Hb Hs Hsc Hso H) as (u & Hin & Hcu & Hf). destruct (Hu u Hin) as (_ & _ & Hk).
  rewrite (fits_tok _ _ Hf) in Hk. destruct Hk as [E|E]; rewrite E in Hcu; apply elem_of_list_singleton in Hcu as ->; [done|].
  done.
Qed.
Lemma shaped_field t f v : shaped t → (f, v) ∈ fields t → ∃ F ty, F ∈ profiles (kind_of t) ∧ (f, ty) ∈ schema (kind_of t) ∧ shaped_val f ty (mem f F) v.
Proof.
  intros (F & HF & H) Hv. exists F. revert H Hv. generalize (schema (kind_of t)) (fields t). intros sc fs. revert sc.
  induction fs as [|[f' w] fs IH]; intros [|[f1 ty] sc] H Hv; try done; try (by apply elem_of_nil in Hv).
  destruct H as (-> & H1 & H2). apply elem_of_cons in Hv as [[= -> ->]|Hv].
  - exists ty. split_and!; [done|by left|done].
  - destruct (IH _ H2 Hv) as (ty' & ? & ? & ?). exists ty'. split_and!; [done|by right|done].
Qed.
Lemma get_held (t : ast) f v : get f t = Some v → (f, v) ∈ fields t.
Proof.
  unfold get. generalize (fields t). intros fs. induction fs as [|[g w] fs IH]; [done|]. cbn. destruct (decide (f = g)) as [->|].
  - intros [= ->]. by left.
  - intros H. right. by apply IH.
Qed.
Lemma shaped_lists t f : shaped t → None ∉ list_of f t.
Proof.
  intros Hs. unfold list_of. destruct (get f t) as [[| | | | | |[[u l]|]]|] eqn:E; try apply not_elem_of_nil.
  destruct (shaped_field _ _ _ Hs (get_held _ _ _ E)) as (F & ty & _ & _ & H). destruct ty; cbn in H; try done.
  - by destruct H as (? & ? & _).
  - destruct (bool_decide _); [destruct H|]; done.
  - by destruct H.
  - destruct (mem f F); [destruct H as (? & ? & _)|]; done.
  - by destruct H as (? & ? & _).
  - destruct (mem f F); [|done]. destruct H as (l' & [= -> ->] & _ & _). intros (? & ? & _)%elem_of_list_fmap. done.
Qed.
(** The cases of a shaped node. *)
Ltac shapes m Hk Hs :=
  let a := fresh "a" in let k := fresh "k" in let fs := fresh "fs" in let F := fresh "F" in let HF := fresh "HF" in let Hfs := fresh "Hfs" in
  destruct Hs as (F & HF & Hfs); destruct m as [a k fs]; cbn [kind_of fields] in *; subst k;
  lazymatch type of HF with _ ∈ ?l => let x := eval vm_compute in l in change l with x in HF end;
  repeat (apply elem_of_cons in HF as [->|HF]; [|]); try (by apply elem_of_nil in HF);
  cbn [schema] in Hfs; try unfold binary in Hfs; shape_fields Hfs.
Ltac counted := split_and?; first [assumption|vm_compute; reflexivity].

Lemma shaped_kind_facts m :
  shaped m →
  match kind_of m with
  | KRootItem => ((str_of FEmptyLine m = [] ∧ just_one [FDecl; FFunc; FType; FComment; FBlock; FAttribute] m) ∨
      (str_of FEmptyLine m ≠ [] ∧ none_of [FDecl; FFunc; FType; FComment; FBlock; FAttribute] m))
  | KFuncStatement => ((str_of FEmptyLine m = [] ∧ just_one [FComment; FDecl; FExpr] m) ∨
      (str_of FEmptyLine m ≠ [] ∧ none_of [FComment; FDecl; FExpr] m))
  | KListItem => ((str_of FEmptyLine m = [] ∧ just_one [FValue; FComment] m) ∨
      (str_of FEmptyLine m ≠ [] ∧ none_of [FValue; FComment] m))
  | KParameterType => just_one [FIdent; FFunc] m
  | KDecl | KFuncDecl => str_of FDeclType m ≠ [] ∧ str_of FLabel m ≠ []
  | KFunc | KFuncParameter => str_of FLabel m ≠ []
  | KType => str_of FLabel m ≠ [] ∧ just_one [FEnum; FObject] m
  | KTypeEnumItem | KTypeObjectItem => str_of FLabel m ≠ [] → none_of [FComment] m ∧ str_of FEmptyLine m = []
  | KValue =>
      if bool_of FNull m then none_of [FBool; FNumber; FStr; FList; FHeredoc; FMap] m else just_one [FBool; FNumber; FStr; FList; FHeredoc; FMap] m
  | KExpr => just_one [FLeft; FIf; FSwitch] m
  | KExprCase =>
      has FExpr m = true ∧ (if bool_of FDefault m then nil_list FConditions m = true else list_of FConditions m ≠ [])
  | KExprConditional =>
      has FTrueExpr m = bool_of FConditionOp m ∧ has FFalseExpr m = bool_of FConditionOp m
  | KExprPrimary =>
      just_one [FValue; FIdent; FSubExpression] m ∧ (has FValue m = true → list_of FMonads m = [] ∧ has FPost m = false)
  | KExprLogicalOr | KExprLogicalAnd | KExprBitwiseOr | KExprBitwiseXor | KExprBitwiseAnd | KExprEquality
  | KExprRelational | KExprShift | KExprAdditive | KExprMultiplicative =>
      if has FRight m then str_of FOp m ≠ [] else str_of FOp m = []
  | _ => True
  end.
Proof.
  intros Hs. destruct (kind_of m) eqn:Hk; try exact I; shapes m Hk Hs.
  all: try (first [left; counted|right; counted|counted]).
  all: try match goal with |- _ → _ => let H := fresh in intros H; try done; try (exfalso; by apply H) end.
  all: try counted.
  all: split; [vm_compute; reflexivity|].
  all: try (intros H; split; vm_compute; reflexivity).
  all: try (intros H; vm_compute in H; done).
  change (map Some x ≠ []). destruct Hx as [Hx _]. by destruct x.
Qed.

(** ** Nodes *)
Lemma set_in_app l k m : set_in (l ++ k) m = set_in l m ++ set_in k m.
Proof. unfold set_in. apply filter_app. Qed.
Lemma has_unset f m : has f m = false → set_in [f] m = [].
Proof. unfold has, set_in. intros H. rewrite filter_cons. rewrite decide_False; [done|]. by destruct (is_nil (ptr_of f m)). Qed.
Lemma one_less l k m : just_one (l ++ k) m → (∀ f, f ∈ k → has f m = false) → just_one l m.
Proof.
  unfold just_one. rewrite set_in_app, app_length. intros H Hk. assert (set_in k m = []) as E; [|rewrite E in H; cbn in H; lia].
  induction k as [|f k IH]; [done|]. change (f :: k) with ([f] ++ k). rewrite set_in_app, has_unset by (apply Hk; by left).
  cbn. apply IH; [|intros f' Hf'; apply Hk; by right]. revert H. change (f :: k) with ([f] ++ k). rewrite set_in_app, has_unset by (apply Hk; by left). done.
Qed.
Lemma none_less l k m : none_of (l ++ k) m → none_of l m.
Proof. unfold none_of. rewrite set_in_app. by intros [? _]%app_nil. Qed.
Lemma none_from k m : (∀ f, f ∈ k → has f m = false) → none_of k m.
Proof.
  unfold none_of. induction k as [|f k IH]; intros Hk; [done|]. change (f :: k) with ([f] ++ k). rewrite set_in_app, has_unset by (apply Hk; by left).
  apply IH. intros f' Hf'. apply Hk. by right.
Qed.
(** A child of a kind that is excluded is missing. *)
Lemma kid_in_nodes (m : ast) f c : ptr_of f m = Some c → c ∈ nodes m.
Proof.
  unfold ptr_of. destruct (get f m) as [[| | | |o| |]|] eqn:E; try done. intros ->. eapply EtxOrder.sub_node; [by apply get_held|by apply elem_of_list_singleton].
Qed.
Lemma kid_kind m f c k : typed m = true → ptr_of f m = Some c → (f, TPtr k) ∈ schema (kind_of m) → kind_of c = k.
Proof.
  unfold ptr_of. destruct (get f m) as [[| | | |o| |]|] eqn:E; try done. intros Hty -> Hs.
  destruct (typed_fields _ _ _ Hty (get_held _ _ _ E)) as (ty & H1 & H2).
  assert (ty = TPtr k) as ->.
  { pose proof (schema_nodup (kind_of m)) as Hn. clear -H1 Hs Hn. induction (schema (kind_of m)) as [|[g ty'] sc IH]; [by apply elem_of_nil in H1|].
    cbn [map fst] in Hn. apply NoDup_cons in Hn as [Hn Hnd]. apply elem_of_cons in H1 as [H1|H1]; apply elem_of_cons in Hs as [Hs|Hs]; try congruence.
    - injection H1 as -> ->. destruct Hn. apply elem_of_list_fmap. by exists (g, TPtr k).
    - injection Hs as -> <-. destruct Hn. apply elem_of_list_fmap. by exists (g, ty).
    - by apply IH. }
  cbn in H2. apply andb_true_iff in H2 as [H2 _]. by apply bool_decide_eq_true in H2.
Qed.
Definition excluded (k : kind) : bool :=
  match k with
  | KBlock | KBlockItem | KAttribute | KLambda | KLambdaParameter | KHeredoc | KHeredocFragment | KValueMap | KMapItem | KMapKey => true
  | _ => false
  end.
Lemma no_kid m f k : typed m = true → ordinary m → (f, TPtr k) ∈ schema (kind_of m) → excluded k = true → has f m = false.
Proof.
  intros Hty Ho Hs Hk. unfold has. destruct (ptr_of f m) as [c|] eqn:E; [|done]. exfalso.
  destruct (Ho c (kid_in_nodes _ _ _ E)) as [_ H]. rewrite (kid_kind _ _ _ _ Hty E Hs) in H. by destruct k.
Qed.
Lemma run_token u : plain_token u → kind_of_token u = TChar → lf ∉ value u → run (value u).
Proof.
  intros (Hne & _ & H) Hk Hl. rewrite Hk in H. split; [done|]. apply Forall_forall. intros c Hc. rewrite Forall_forall in H. specialize (H c Hc).
  assert (∀ c, implb (outside EtxLexString.special c && negb (Ascii.eqb c lf)) (no_special c) = true) as Hs by (apply for_all_ascii; vm_compute; reflexivity).
  specialize (Hs c). rewrite H in Hs. assert (Ascii.eqb c lf = false) as E by (apply Ascii.eqb_neq; by intros ->). rewrite E in Hs. exact Hs.
Qed.
Lemma no_run_quote : ¬ run [quote] ∧ ¬ run [apostrophe] ∧ ¬ run (chars "$${") ∧ ¬ run (chars "%%{").
Proof. split_and!; (intros [_ H]; apply Forall_cons in H as [H _]; by vm_compute in H). Qed.
Lemma run_kind u : plain_token u → frag_kind (kind_of_token u) → run (value u) → kind_of_token u = TChar.
Proof.
  intros (_ & _ & H) Hk Hr. unfold frag_kind in Hk. rewrite !elem_of_cons, elem_of_nil in Hk. pose proof no_run_quote as (N1 & N2 & N3 & N4).
  destruct Hk as [Hk|[Hk|[Hk|[]]]]; [done|..]; rewrite Hk in H; destruct H as [H|H]; rewrite H in Hr; done.
Qed.
Lemma runs_apart us (ms : list ast) frs o c :
  us = o :: frs ++ [c] → good_tokens us → Forall (λ x, frag_kind (kind_of_token x)) frs →
  Forall2 (λ x m, kind_of m = KStringFragment ∧ format m = Ok (value x) ∧ str_of FText m = value x) frs ms →
  no_runs (map (λ o, match o with Some c => str_of FText c | None => [] end) (map Some ms)).
Proof.
  intros -> Hg Hk H. assert (good_tokens frs) as Hg' by (eapply (good_part [o] frs [c]); exact Hg). clear Hg. revert Hg' Hk.
  induction H as [|x m frs ms (_ & _ & Hm) H IH]; intros Hg Hk; [done|]. apply Forall_cons in Hk as [Hx Hk].
  destruct H as [|y m2 frs ms (_ & _ & Hm2) H]; [done|]. cbn [map no_runs]. split.
  - rewrite Hm, Hm2. intros [R1 R2]. destruct Hg as [Hp Hn]. apply Forall_cons in Hp as [Hpx [Hpy _]%Forall_cons]. apply Forall_cons in Hk as [Hy _].
    apply (Hn 0 x y); [done|done|]. split; by apply run_kind.
  - apply IH; [|done]. rewrite <- (app_nil_r (y :: frs)) in Hg. by apply (good_part [x]) in Hg.
Qed.
Lemma ordinary_sub (t m : ast) : ordinary t → m ∈ nodes t → ordinary m.
Proof. intros H Hm x Hx. apply H. by eapply EtxOrder.nodes_trans. Qed.
Lemma comment_lines p us m :
  builds p KComment us m → Forall (λ u, value u ≠ []) us → str_of FMultiline m = [] → strs_of FSingleLine m ≠ [].
Proof.
  intros Hb Hv. remember KComment as k eqn:Ek. destruct Hb as [p k us cs l fs H Hf]. subst k. cbn [grammar] in H.
  apply derives_alt_inv in H as (g & Hg & H). rewrite !elem_of_cons, elem_of_nil in Hg. destruct Hg as [->|[->|[]]]; intros Ht.
  - assert (∃ u1 u2 c1 c2 l1 l2, derives (first_pos p u2) (GSeq [GCap FSingleLine (GTok TSingleLineComment); g_lf]) u1 c1 l1 ∧
      us = u1 ++ u2 ∧ cs = c1 ++ c2 ∧ l = l1 ++ l2) as (u1 & u2 & c1 & c2 & l1 & l2 & H1 & -> & -> & ->) by (inversion H; subst; eauto 12).
    seq H1 as H2 u3 u4 c3 c4. apply derives_cap_inv in H2 as (c' & l' & H2 & ->). apply derives_tok_inv in H2 as (x & -> & -> & -> & Hx).
    erewrite (strs_of_field KComment _ fs _ FSingleLine _ eq_refl Hf); [|apply elem_of_list_In; cbn; tauto| |reflexivity].
    + rewrite !captures_of_app. cbn. done.
    + rewrite !captures_of_app. cbn. done.
  - exfalso. apply derives_cap_inv in H as (c' & l' & H & ->). seq H as H1 u1 u2 c1 c2. apply derives_tok_inv in H1 as (x & -> & -> & -> & Hx).
    erewrite (str_of_field KComment _ fs _ FMultiline _ eq_refl Hf) in Ht; [|apply elem_of_list_In; cbn; tauto|reflexivity].
    rewrite !captures_of_app in Ht. apply Forall_cons in Hv as [Hv _]. unfold texts_of in Ht. rewrite flat_map_app, concat_app in Ht.
    apply app_nil in Ht as [_ Ht]. cbn in Ht. apply app_nil in Ht as [Ht _]. done.
Qed.
Ltac in_sc := apply elem_of_list_In; cbn; tauto.
Ltac op_node k Hb Hp Hf := destruct (has FRight _); [|exact Hf];
  let H := fresh in pose proof (token_one _ _ _ _ FOp _ (map chars (operators_of k)) Hb Hp eq_refl ltac:(in_sc) eq_refl ltac:(vm_compute; reflexivity) ltac:(vm_compute; lia)) as H;
  apply elem_of_cons in H as [H|H]; [done|exact H].
Lemma node_writable p us m :
  builds p (kind_of m) us m → good_tokens us → ordinary m → writable_node m.
Proof.
  intros Hb Hg Ho. pose proof (builds_shaped _ _ _ _ Hb (good_values _ Hg)) as Hs. split; [intros f; by apply shaped_lists|].
  pose proof (shaped_kind_facts _ Hs) as Hf. pose proof Hg as [Hp Hn]. pose proof (builds_good _ _ _ _ Hb) as [_ [Hty _]].
  assert (Hom : ordinary_node m) by (apply Ho; destruct m; by left). destruct Hom as [Hcr Hom].
  destruct (kind_of m) eqn:Hk; try exact I; try done.
  - (* root items *)
    assert (∀ f, f ∈ [FBlock; FAttribute] → has f m = false) as Hno.
    { intros f. rewrite !elem_of_cons, elem_of_nil. intros [->|[->|[]]].
      - apply (no_kid m _ KBlock); [done..|rewrite Hk; in_sc|done].
      - apply (no_kid m _ KAttribute); [done..|rewrite Hk; in_sc|done]. }
    split; [|by apply none_from]. destruct Hf as [[He Hf]|[He Hf]].
    + left. split; [done|]. by apply (one_less [FDecl; FFunc; FType; FComment] [FBlock; FAttribute]).
    + right. split; [|by apply (none_less [FDecl; FFunc; FType; FComment] [FBlock; FAttribute])].
      by apply (token_feeds p KRootItem us); [..|in_sc| | |].
  - destruct Hf as [H1 H2]. split; [|by apply (token_name p KDecl us); [..|in_sc|reflexivity|vm_compute; lia|]].
    pose proof (token_one _ _ _ _ FDeclType _ (map chars ["input"; "output"; "const"; "val"]) Hb Hp eq_refl ltac:(in_sc) eq_refl ltac:(vm_compute; reflexivity) ltac:(vm_compute; lia)) as H.
    apply elem_of_cons in H as [H|H]; [done|exact H].
  - split; [|done]. by apply (token_name p KFunc us); [..|in_sc|reflexivity|vm_compute; lia|].
  - by apply (token_name p KFuncParameter us); [..|in_sc|reflexivity|vm_compute; lia|].
  - destruct Hf as [[He Hf]|[He Hf]]; [by left|]. right. split; [|done]. by apply (token_feeds p KFuncStatement us); [..|in_sc| | |].
  - destruct Hf as [H1 H2]. split; [|by apply (token_name p KFuncDecl us); [..|in_sc|reflexivity|vm_compute; lia|]].
    pose proof (token_one _ _ _ _ FDeclType _ (map chars ["const"; "val"]) Hb Hp eq_refl ltac:(in_sc) eq_refl ltac:(vm_compute; reflexivity) ltac:(vm_compute; lia)) as H.
    apply elem_of_cons in H as [H|H]; [done|exact H].
  - destruct Hf as [H1 H2]. split; [|done]. by apply (token_name p KType us); [..|in_sc|reflexivity|vm_compute; lia|].
  - split; [|by apply Hf]. by apply (token_name p KTypeEnumItem us); [..|in_sc|reflexivity|vm_compute; lia|].
  - split; [|by apply Hf]. by apply (token_name p KTypeObjectItem us); [..|in_sc|reflexivity|vm_compute; lia|].
  - (* comments *)
    split; [done|]. split; [eapply comment_lines; [exact Hb|by apply good_values|done]|]. apply Forall_forall. intros v Hv.
    destruct (strs_tokens p KComment us m FSingleLine _ v Hb eq_refl ltac:(in_sc) eq_refl Hv) as (u & Hu & -> & Hfit%fits_tok).
    rewrite Forall_forall in Hp. destruct (Hp u Hu) as (_ & _ & H). by rewrite Hfit in H.
  - (* names *)
    split_and!.
    + destruct (ident_builds _ _ _ Hb) as (u & ds & _ & _ & _ & ->). done.
    + apply Forall_forall. intros v Hv.
      destruct (strs_tokens p KIdent us m FParts [ATok TIdent; ATok TIdent] v Hb eq_refl ltac:(in_sc) eq_refl Hv) as (u & Hu & -> & (a & Ha & Hfit)).
      assert (kind_of_token u = TIdent) as Hfit'.
      { rewrite !elem_of_cons, elem_of_nil in Ha. destruct Ha as [->|[->|[]]]; by apply bool_decide_eq_true in Hfit. }
      rewrite Forall_forall in Hp. destruct (Hp u Hu) as (_ & _ & H). by rewrite Hfit' in H.
    + exact Hom.
  - (* values *)
    assert (∀ f, f ∈ [FHeredoc; FMap] → has f m = false) as Hno.
    { intros f. rewrite !elem_of_cons, elem_of_nil. intros [->|[->|[]]].
      - apply (no_kid m _ KHeredoc); [done..|rewrite Hk; in_sc|done].
      - apply (no_kid m _ KValueMap); [done..|rewrite Hk; in_sc|done]. }
    split; [by apply none_from|]. destruct (bool_of FNull m).
    + by apply (none_less [FBool; FNumber; FStr; FList] [FHeredoc; FMap]).
    + by apply (one_less [FBool; FNumber; FStr; FList] [FHeredoc; FMap]).
  - (* numbers *)
    exfalso. remember KValueNumber as k eqn:Ek. destruct Hb as [p k us cs l fs H Hfi]. subst k. cbn [grammar] in H.
    apply derives_alt_inv in H as (g & Hg2 & _). by apply elem_of_nil in Hg2.
  - (* strings *)
    destruct (string_builds _ _ _ Hb) as (o & frs & c & ms & -> & H1 & H2 & H3 & -> & H5).
    { intros c Hc Hkc. destruct (Ho c) as [_ Hoc]; [|rewrite Hkc in Hoc; by destruct Hoc]. unfold list_of in Hc.
      destruct (get FFragment m) as [[| | | | | |[[u l]|]]|] eqn:E; try (by apply elem_of_nil in Hc).
      eapply EtxOrder.sub_node; [by apply get_held|]. cbn [val_subs]. apply elem_of_list_omap. by exists (Some c). }
    by eapply runs_apart.
  - (* fragments *)
    destruct Hom as (Hne & Hq & Hl). destruct (fragment_builds _ _ _ Hb Hne) as (x & -> & Hx & E1 & E2 & E3 & E4 & E5).
    split_and!; [done|done|apply none_from; intros f; rewrite !elem_of_cons, elem_of_nil; unfold has; intros [->|[->|[]]]; [by rewrite E4|by rewrite E5]|].
    rewrite E1 in Hq, Hl |- *. apply Forall_cons in Hp as [Hpx _]. pose proof Hpx as (_ & _ & Hpk).
    unfold frag_kind in Hx. rewrite !elem_of_cons, elem_of_nil in Hx. destruct Hx as [Hx|[Hx|[Hx|[]]]]; rewrite Hx in Hpk.
    + left. by apply run_token.
    + right. left. destruct Hpk as [Hpk|Hpk]; [|by rewrite Hpk]. rewrite Hpk in Hq. destruct Hq. by left.
    + right. right. done.
  - (* list items *)
    assert (∀ f, f ∈ [FComment] → has f m = false) as Hno by (by intros f ->%elem_of_list_singleton).
    split; [|by apply none_from]. destruct Hf as [[He Hf]|[He Hf]].
    + left. split; [done|]. by apply (one_less [FValue] [FComment]).
    + right. split; [|by apply (none_less [FValue] [FComment])]. by apply (token_feeds p KListItem us); [..|in_sc| | |].
  - intros H. destruct Hom as [Hom|Hom]; [by rewrite Hom in H|done].
  - op_node KExprLogicalOr Hb Hp Hf.
  - op_node KExprLogicalAnd Hb Hp Hf.
  - op_node KExprBitwiseOr Hb Hp Hf.
  - op_node KExprBitwiseXor Hb Hp Hf.
  - op_node KExprBitwiseAnd Hb Hp Hf.
  - op_node KExprEquality Hb Hp Hf.
  - op_node KExprRelational Hb Hp Hf.
  - op_node KExprShift Hb Hp Hf.
  - op_node KExprAdditive Hb Hp Hf.
  - op_node KExprMultiplicative Hb Hp Hf.
  - exact (token_one _ _ _ _ FOp _ (map chars (operators_of KExprUnary)) Hb Hp eq_refl ltac:(in_sc) eq_refl ltac:(vm_compute; reflexivity) ltac:(vm_compute; lia)).
  - (* primaries *)
    destruct Hom as [H1 H2]. destruct Hf as [Hf1 Hf2]. split_and!; [|apply none_from; by intros f ->%elem_of_list_singleton|done|done].
    apply (one_less [FValue; FIdent] [FSubExpression]); [done|]. by intros f ->%elem_of_list_singleton.
Qed.

(** ** Nodes that are no stretch of tokens *)
Lemma parent (t m : ast) : m ∈ nodes t → m = t ∨ ∃ q f v, q ∈ nodes t ∧ (f, v) ∈ fields q ∧ m ∈ val_subs v.
Proof.
  assert (∃ n, size t < n) as [n Hn] by (exists (S (size t)); lia). revert t Hn. induction n as [|n IH]; intros t Hn; [lia|].
  intros [->|(f & v & c & H1 & H2 & H3)]%nodes_inv; [by left|]. right. pose proof (size_sub _ _ _ _ H1 H2) as Hs.
  destruct (IH c ltac:(lia) H3) as [->|(q & f' & v' & Hq & ?)].
  - exists t, f, v. split; [|done]. destruct t. by left.
  - exists q, f', v'. split; [|done]. eapply EtxOrder.nodes_trans; [|exact Hq]. by eapply EtxOrder.sub_node.
Qed.
Lemma item_profiles :
  forallb (λ k, forallb (λ F, forallb (λ q : fld * ftype, match q.2 with
    | TEmb _ => mem q.1 F || bool_decide (k ∈ [KTypeEnumItem; KTypeObjectItem])
    | _ => true end) (schema k)) (profiles k)) all_kinds = true.
Proof. vm_compute. reflexivity. Qed.
Lemma sub_sound q f v c : shaped q → ordinary_node q → (f, v) ∈ fields q → c ∈ val_subs v → sound c.
Proof.
  intros Hs Ho Hf Hc. destruct (bool_decide (kind_of q ∈ [KTypeEnumItem; KTypeObjectItem])) eqn:E.
  - apply bool_decide_eq_true in E. rewrite !elem_of_cons, elem_of_nil in E. destruct Ho as [_ Ho].
    destruct E as [E|[E|[]]]; rewrite E in Ho; shapes q E Hs; try (by destruct Ho).
    all: repeat (apply elem_of_cons in Hf as [[= -> ->]|Hf]; [try (by apply elem_of_nil in Hc); try (by apply elem_of_list_singleton in Hc as ->)|]);
      by apply elem_of_nil in Hf.
  - destruct (shaped_field _ _ _ Hs Hf) as (F & ty & HF & Hty & H).
    pose proof (for_all_kinds _ item_profiles (kind_of q)) as Hz. cbn beta in Hz. rewrite forallb_forall in Hz.
    apply elem_of_list_In, Hz in HF. rewrite forallb_forall in HF. apply elem_of_list_In, HF in Hty. cbn [fst snd] in Hty.
    destruct ty; cbn [shaped_val] in H.
    + destruct H as (s & -> & _). by apply elem_of_nil in Hc.
    + destruct (bool_decide (f = FLeadingTabs)); [destruct H as (b & ->)|rewrite H in Hc]; by apply elem_of_nil in Hc.
    + destruct H as (s & ->). by apply elem_of_nil in Hc.
    + done.
    + destruct (mem f F); [destruct H as (x & -> & Hx); by apply elem_of_list_singleton in Hc as ->|subst v; by apply elem_of_nil in Hc].
    + rewrite E, orb_false_r in Hty. rewrite Hty in H. destruct H as (x & -> & Hx). by apply elem_of_list_singleton in Hc as ->.
    + destruct (mem f F); [|subst v; by apply elem_of_nil in Hc]. destruct H as (l & -> & _ & Hl). cbn [val_subs] in Hc.
      apply elem_of_list_omap in Hc as (o & Ho' & E'). unfold id in E'. subst o. apply elem_of_list_fmap in Ho' as (x & [= ->] & Hx).
      rewrite Forall_forall in Hl. by apply Hl.
Qed.
Lemma zero_unsound m : m = zero no_pos KExpr ∨ m = zero no_pos KParameterType → ¬ sound m.
Proof.
  intros Hm [(p & us & Hb & Hv)|[Hk|[Hk _]]]; [|by destruct Hm as [->| ->]..].
  pose proof (shaped_kind_facts _ (builds_shaped _ _ _ _ Hb Hv)) as H. by destruct Hm as [->| ->].
Qed.
(** Numbers are held in one place. *)
Lemma number_field :
  forallb (λ k, forallb (λ q : fld * ftype, match q.2 with
    | TPtr KValueNumber => bool_decide (k = KValue ∧ q.1 = FNumber)
    | TEmb KValueNumber | TList KValueNumber => false
    | _ => true end) (schema k)) all_kinds = true.
Proof. vm_compute. reflexivity. Qed.
Lemma number_parent (q : ast) f v c : typed q = true → (f, v) ∈ fields q → c ∈ val_subs v → kind_of c = KValueNumber →
  kind_of q = KValue ∧ f = FNumber ∧ v = VPtr (Some c).
Proof.
  intros Hty Hf Hc Hk. destruct (typed_fields _ _ _ Hty Hf) as (ty & Hsc & Hv).
  pose proof (for_all_kinds _ number_field (kind_of q)) as Hz. cbn beta in Hz. rewrite forallb_forall in Hz.
  apply elem_of_list_In, Hz in Hsc. cbn [fst snd] in Hsc.
  destruct v as [| | | |[x|]|x|[[b xs]|]]; try (by apply elem_of_nil in Hc); destruct ty; try done; cbn in Hv.
  - apply elem_of_list_singleton in Hc as <-. apply andb_true_iff in Hv as [Hv%bool_decide_eq_true _].
    rewrite Hk in Hv. subst k. apply bool_decide_eq_true in Hsc as [? ->]. done.
  - apply elem_of_list_singleton in Hc as <-. apply andb_true_iff in Hv as [Hv%bool_decide_eq_true _].
    rewrite Hk in Hv. by subst k.
  - exfalso. cbn [val_subs] in Hc. apply elem_of_list_omap in Hc as (o & Ho' & E'). unfold id in E'. subst o. rewrite forallb_forall in Hv.
    apply elem_of_list_In, Hv in Ho'. apply andb_true_iff in Ho' as [Ho'%bool_decide_eq_true _]. rewrite Hk in Ho'. by subst k.
Qed.
Lemma number_writable p us q m :
  builds p KValue us q → Forall plain_token us → (FNumber, VPtr (Some m)) ∈ fields q → writable_node m.
Proof.
  intros Hb Hp Hf. remember KValue as k eqn:Ek. pose proof (builds_good _ _ _ _ Hb) as [_ [Hty _]]. destruct Hb as [p k us cs l fs H [Hf1 Hf2]]. subst k.
  destruct (Hf2 FNumber (TPtr KValueNumber)) as [_ Ha]; [apply elem_of_list_In; cbn; tauto|].
  assert (assoc FNumber fs = Some (VPtr (Some m))) as Ha'.
  { cbn [fields] in Hf. clear -Hf Hf1. pose proof (schema_nodup KValue) as Hnd. rewrite <- Hf1 in Hnd. clear Hf1.
    induction fs as [|[f' w] fs IH]; [by apply elem_of_nil in Hf|].
    cbn [map fst] in Hnd. apply NoDup_cons in Hnd as [Hn1 Hn2]. cbn. apply elem_of_cons in Hf as [[= <- <-]|H1].
    - by rewrite decide_True.
    - rewrite decide_False; [by apply IH|]. intros <-. destruct Hn1. apply elem_of_list_fmap. by exists (FNumber, VPtr (Some m)). }
  rewrite Ha' in Ha. cbn [field_value] in Ha. destruct (captures_of FNumber cs) as [|[[|w [|? ?]]|t] [|? ?]] eqn:E; try done.
  destruct (capture_number w) as [[src n]|] eqn:Ec; [|done]. cbn in Ha. injection Ha as ->.
  assert ((FNumber, Texts [w]) ∈ cs) as Hin by (apply captures_of_elem; rewrite E; by left).
  destruct (captured_text _ _ _ _ _ FNumber _ [ATok TNumber] H eq_refl Hin) as (u & Hu & [= ->] & Hk%fits_tok).
  rewrite Forall_forall in Hp. destruct (Hp u Hu) as (_ & _ & Hn). rewrite Hk in Hn.
  split; [intros f; unfold list_of; cbn; destruct f; apply not_elem_of_nil|]. cbn [kind_of].
  change (normal_number (chars (str src)) ∧ Some (VFloat (Some (tt, str src)) : aval) = Some (VFloat (Some (tt, str (chars (str src)))))). rewrite chars_str.
  split; [|done]. split; [by eapply capture_text|]. exists n.
  assert (src = normalise (value u)) as ->. { unfold capture_number in Ec. destruct (parse_number _); [|done]. by injection Ec as <- <-. }
  revert Ec. unfold capture_number. by rewrite (proj2 (proj2 (p34 (value u)))).
Qed.
Lemma bool_writable m : typed m = true → kind_of m = KValueBool → writable_node m.
Proof.
  intros Hty Hk. split; [|by rewrite Hk]. intros f. unfold list_of. destruct (get f m) as [[| | | | | |[[u l]|]]|] eqn:E; try apply not_elem_of_nil.
  destruct (typed_fields _ _ _ Hty (get_held _ _ _ E)) as (ty & Hsc & Hv). rewrite Hk in Hsc. cbn [schema] in Hsc.
  apply elem_of_list_singleton in Hsc as [= -> ->]. done.
Qed.

(** ** Files *)
Lemma ordinary_writable p us t : builds p KAST us t → good_tokens us → ordinary t → writable t.
Proof.
  intros Hb Hg Ho. pose proof (builds_good _ _ _ _ Hb) as [Hk [Hty _]]. split; [done|]. intros m Hm.
  assert (Hw : ∀ m, m ∈ nodes t → within_tokens p us m → ∃ q vs, builds q (kind_of m) vs m ∧ good_tokens vs ∧ writable_node m).
  { intros x Hx (pre & vs & post & -> & Hbx). exists (first_pos p post), vs. pose proof (good_part _ _ _ Hg) as Hgv. split_and!; [done|done|].
    eapply node_writable; [done|done|]. by eapply ordinary_sub. }
  destruct (nodes_within _ _ _ _ _ Hb Hm) as [H|H]; [by destruct (Hw m Hm H) as (? & ? & _ & _ & ?)|].
  destruct (parent _ _ Hm) as [->|(q & f & v & Hq & Hf & Hc)].
  { exfalso. destruct H as [H|[H|[H|H]]]; try (by rewrite Hk in H); by rewrite H in Hk. }
  assert (typed q = true) as Htq by (by eapply (proj1 EtxOrder.typed_node)).
  destruct (nodes_within _ _ _ _ _ Hb Hq) as [Hqw|Hql]; [|by destruct (loose_subs _ _ _ _ Hql Htq Hf Hc)].
  destruct (Hw q Hq Hqw) as (pq & vs & Hbq & Hgq & _).
  pose proof (sub_sound _ _ _ _ (builds_shaped _ _ _ _ Hbq (good_values _ Hgq)) (Ho _ Hq) Hf Hc) as Hs.
  destruct H as [H|[H|H]].
  - apply bool_writable; [by eapply (proj1 EtxOrder.typed_node)|done].
  - destruct (number_parent _ _ _ _ Htq Hf Hc H) as (Hkq & -> & ->). rewrite Hkq in Hbq. destruct Hgq. by eapply number_writable.
  - by destruct (zero_unsound _ H).
Qed.
Lemma parse_good s r : parse s = Ok (Some r) → ∃ p us, builds p KAST us r ∧ good_tokens us.
Proof.
  intros H. destruct (parse_built _ _ H) as (ts & st & Hl & Hb). eexists _, _. split; [exact Hb|]. unfold lex in Hl.
  destruct (lex_chained _ _ _ _ _ _ Hl) as (H1 & H2 & _). split; [|by apply chained_elide].
  apply Forall_forall. unfold elide. intros u [_ Hu]%elem_of_list_filter. rewrite Forall_forall in H1. by apply H1.
Qed.

(*P C76_ordinary_writable *)
(** A file that was parsed and is ordinary can be written down. *)
Lemma parsed_writable s r :
  parse s = Ok (Some r) → ordinary r → writable r.
Proof. intros H Ho. destruct (parse_good _ _ H) as (p & us & Hb & Hg). by eapply ordinary_writable. Qed.
(*P C76_ordinary_survives *)
(** Every accepted ordinary file is formatted to a file that is accepted and says the same. *)
Lemma ordinary_survives s r :
  parse s = Ok (Some r) → ordinary r → ∃ u r', format r = Ok u ∧ parse u = Ok (Some r') ∧ gist r' = gist r.
Proof.
  intros H Ho. apply writable_survives; [by eapply parsed_writable|]. destruct (parse_good _ _ H) as (p & us & Hb & _). by eapply builds_kind.
Qed.
