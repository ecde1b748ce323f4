(** * Declarations that are printed as they were written *)
From stdpp Require Import base list option strings.
From Coq Require Import Ascii Lia.
From Verif Require Import GoBase EtxAst EtxHeap EtxHeapSpec EtxText EtxLex EtxLexSpec EtxLexFacts EtxLexNest EtxLexOps EtxLexIdent EtxLexString EtxUtil EtxUtilProofs EtxNumProofs EtxGram
  EtxParse EtxParseBase EtxParseSpec EtxParseStore EtxParseFirst EtxParseClean EtxParseLevel EtxParseLexed EtxParseTyped EtxParseParts EtxPrecSpec EtxPrec
  EtxShape EtxFormat EtxFormatSpec EtxFormatTotal EtxReprintSpec EtxOrder EtxLayout EtxRelex.

(** ** What a node is made of *)
Lemma derives_lit p s us cs l : derives p (GLit s) us cs l → ∃ t, us = [t] ∧ cs = [] ∧ l = [value t] ∧ value t = chars s.
Proof. inversion 1; subst. eauto 6. Qed.
Lemma derives_many_inv p g us cs l :
  derives p (GMany g) us cs l → (us = [] ∧ cs = [] ∧ l = []) ∨
  ∃ us1 us2 cs1 cs2 l1 l2, derives (first_pos p us2) g us1 cs1 l1 ∧ derives p (GMany g) us2 cs2 l2 ∧
    us = us1 ++ us2 ∧ cs = cs1 ++ cs2 ∧ l = l1 ++ l2.
Proof. inversion 1; subst; [by left|right; eauto 14]. Qed.
Lemma derives_some_inv p g us cs l :
  derives p (GSome g) us cs l → derives p (GMany g) us cs l.
Proof. inversion 1; subst. by constructor. Qed.

Tactic Notation "seq" hyp(H) "as" ident(H1) ident(u1) ident(u2) ident(c1) ident(c2) :=
  let l1 := fresh "l" in let l2 := fresh "l" in
  apply derives_cons_inv in H as (u1 & u2 & c1 & c2 & l1 & l2 & H1 & H & -> & -> & ->).
Ltac seq_nil H := apply derives_nil_inv in H as (-> & -> & ->).
(** A field of a node in the goal. *)
Ltac field_is Hf :=
  match goal with
  | |- context [get ?f (T ?q ?k ?fs)] =>
      let o := eval cbv in (assoc f (schema k)) in
      match o with Some ?ty =>
        rewrite (filled_get k _ fs f ty q eq_refl Hf) by (by apply elem_of_list_In; cbn; tauto)
      end
  end.

(** [lit] and a struct. *)
Lemma lit_sub p lit f k us cs l :
  derives p (GSeq [GLit lit; GSub f k]) us cs l →
  ∃ c vs t, us = c :: vs ∧ value c = chars lit ∧ builds p k vs t ∧ cs = [(f, Struct t)].
Proof.
  intros H. seq H as H1 u1 u2 c1 c2. seq H as H2 u3 u4 c3 c4. seq_nil H. apply derives_lit in H1 as (c & -> & -> & -> & Hc).
  apply derives_sub_inv in H2 as (t & Ht & ->). exists c, u3, t. by rewrite app_nil_r.
Qed.
Lemma opt_sub p lit f k us cs l :
  derives p (GOpt (GSeq [GLit lit; GSub f k])) us cs l →
  (us = [] ∧ cs = []) ∨ ∃ c vs t, us = c :: vs ∧ value c = chars lit ∧ builds p k vs t ∧ cs = [(f, Struct t)].
Proof. intros [(-> & -> & _)|H]%derives_opt_inv; [by left|right]. by eapply lit_sub. Qed.
(** Structs with commas between them. *)
Inductive listed (k : kind) : list token → list ast → Prop :=
| listed_one p us t : builds p k us t → listed k us [t]
| listed_more p us t c vs ts : builds p k us t → value c = chars "," → listed k vs ts → listed k (us ++ c :: vs) (t :: ts).
Lemma listed_tail f k n p us cs l :
  (length us <= n)%nat → derives p (GMany (GSeq [GLit ","; GSub f k])) us cs l →
  ∃ ts, cs = map (λ t, (f, Struct t)) ts ∧ ∀ p' vs t, builds p' k vs t → listed k (vs ++ us) (t :: ts).
Proof.
  revert p us cs l. induction n as [|n IH]; intros p us cs l Hn H;
    apply derives_many_inv in H as [(-> & -> & ->)|(us1 & us3 & cs2 & cs3 & l2 & l3 & H1 & H2 & -> & -> & ->)].
  - exists []. split; [done|]. intros. rewrite app_nil_r. by econstructor.
  - exfalso. apply lit_sub in H1 as (c & vs & t & -> & _). cbn in Hn. lia.
  - exists []. split; [done|]. intros. rewrite app_nil_r. by econstructor.
  - apply lit_sub in H1 as (c & vs & t & -> & Hc & Ht & ->).
    destruct (IH p us3 cs3 l3) as (ts & -> & H); [|done|]. { rewrite app_length in Hn. cbn in Hn. lia. }
    exists (t :: ts). split; [done|]. intros p' us t' Ht'. cbn. eapply listed_more; [done|done|]. by eapply H.
Qed.
Lemma listed_intro f k us cs l p :
  derives p (GSeq (g_list f k)) us cs l → ∃ ts, listed k us ts ∧ cs = map (λ t, (f, Struct t)) ts ∧ ts ≠ [].
Proof.
  unfold g_list. intros H. seq H as H1 us1 us3 cs0 cs2. seq H as H2 us2 us4 cs1 cs3. seq_nil H.
  apply derives_sub_inv in H1 as (t & Ht & ->). rewrite !app_nil_r in *.
  destruct (listed_tail _ _ _ _ _ _ _ (le_n _) H2) as (ts & -> & H). exists (t :: ts). split_and!; [by eapply H|done|done].
Qed.
Lemma captures_of_map f (ts : list ast) : captures_of f (map (λ t, (f, Struct t)) ts) = map Struct ts.
Proof.
  unfold captures_of. induction ts as [|t ts IH]; [done|]. cbn [map]. rewrite filter_cons, decide_True by done. cbn [map snd]. by f_equal.
Qed.
Lemma captures_of_map_ne f f' (ts : list ast) : f ≠ f' → captures_of f (map (λ t, (f', Struct t)) ts) = [].
Proof.
  intros Hf. unfold captures_of. induction ts as [|t ts IH]; [done|]. cbn [map]. rewrite filter_cons, decide_False; [done|]. cbn. by apply not_eq_sym.
Qed.
Lemma trees_of_map (ts : list ast) : trees_of (map Struct ts) = ts.
Proof. unfold trees_of. induction ts as [|t ts IH]; [done|]. cbn in *. by f_equal. Qed.
Lemma list_value_of k f k' ts :
  plain_value k f (TList k') (map Struct ts) = Some (VList (if decide (map Struct ts = []) then None else Some (tt, map Some ts))).
Proof. cbn [plain_value]. by rewrite trees_of_map. Qed.
Lemma list_value_is (ts : list ast) :
  (match VList (if decide (map Struct ts = []) then None else Some (tt, map Some ts)) : aval with
   | VList (Some (_, l)) => l | _ => [] end) = map Some ts.
Proof. by destruct ts. Qed.
Definition listed0 (k : kind) (us : list token) (ts : list ast) : Prop := (us = [] ∧ ts = []) ∨ listed k us ts.
Lemma opt_list p f k us cs l :
  derives p (GOpt (GSeq (g_list f k))) us cs l → ∃ ts, listed0 k us ts ∧ cs = map (λ t, (f, Struct t)) ts.
Proof.
  intros [(-> & -> & _)|H]%derives_opt_inv; [exists []; split; [by left|done]|].
  apply listed_intro in H as (ts & H & -> & _). exists ts. split; [by right|done].
Qed.
(** Structs in parentheses. *)
Inductive called (k : kind) : list token → list ast → Prop :=
| called_nil : called k [] []
| called_cons p o us t c vs ts :
    value o = chars "(" → builds p k us t → value c = chars ")" → called k vs ts → called k (o :: us ++ c :: vs) (t :: ts).
Lemma called_intro f k n p us cs l :
  (length us <= n)%nat → derives p (GMany (GSeq [GLit "("; GSub f k; GLit ")"])) us cs l →
  ∃ ts, cs = map (λ t, (f, Struct t)) ts ∧ called k us ts.
Proof.
  revert p us cs l. induction n as [|n IH]; intros p us cs l Hn H;
    apply derives_many_inv in H as [(-> & -> & ->)|(us1 & us3 & cs2 & cs3 & l2 & l3 & H1 & H2 & -> & -> & ->)];
    try (exists []; split; [done|constructor]).
  - exfalso. seq H1 as H3 u1 u2 c1 c2. apply derives_lit in H3 as (o & -> & _). cbn in Hn. lia.
  - seq H1 as H3 u1 u2 c1 c2. seq H1 as H4 u3 u4 c3 c4. seq H1 as H5 u5 u6 c5 c6. seq_nil H1.
    apply derives_lit in H3 as (o & -> & -> & _ & Ho). apply derives_sub_inv in H4 as (t & Ht & ->).
    apply derives_lit in H5 as (c & -> & -> & _ & Hc).
    destruct (IH p us3 cs3 l3) as (ts & -> & H); [|done|]. { rewrite !app_length in Hn. cbn in Hn. lia. }
    exists (t :: ts). split; [done|]. cbn. rewrite <- !(assoc_L (++)). cbn. by econstructor.
Qed.
Lemma opt_called p f k us cs l :
  derives p (GOpt (GSome (GSeq [GLit "("; GSub f k; GLit ")"]))) us cs l → ∃ ts, called k us ts ∧ cs = map (λ t, (f, Struct t)) ts.
Proof.
  intros [(-> & -> & _)|H]%derives_opt_inv; [exists []; split; [constructor|done]|].
  apply derives_some_inv in H. apply (called_intro _ _ _ _ _ _ _ (le_n _)) in H as (ts & -> & H). by exists ts.
Qed.

Lemma list_of_field k cs fs q f k' ts :
  special_kind k = false → filled k cs fs → (f, TList k') ∈ schema k → captures_of f cs = map Struct ts →
  list_of f (T q k fs : ast) = map Some ts.
Proof. intros Hk Hf Hs Hc. unfold list_of. rewrite (filled_get k _ fs f _ q Hk Hf Hs), Hc, list_value_of. by destruct ts. Qed.
Lemma ptr_of_field k cs fs q f k' o :
  special_kind k = false → filled k cs fs → (f, TPtr k') ∈ schema k → last (trees_of (captures_of f cs)) = o →
  ptr_of f (T q k fs : ast) = o.
Proof. intros Hk Hf Hs Hc. unfold ptr_of. by rewrite (filled_get k _ fs f _ q Hk Hf Hs); cbn. Qed.
Lemma emb_of_field k cs fs q f k' t :
  special_kind k = false → filled k cs fs → (f, TEmb k') ∈ schema k → last (trees_of (captures_of f cs)) = Some t →
  emb_of f (T q k fs : ast) = Some t.
Proof. intros Hk Hf Hs Hc. unfold emb_of. rewrite (filled_get k _ fs f _ q Hk Hf Hs); cbn. by rewrite Hc. Qed.
Lemma str_of_field k cs fs q f s :
  special_kind k = false → filled k cs fs → (f, TStr) ∈ schema k → concat (texts_of (captures_of f cs)) = s →
  str_of f (T q k fs : ast) = s.
Proof. intros Hk Hf Hs Hc. unfold str_of. rewrite (filled_get k _ fs f _ q Hk Hf Hs); cbn. by rewrite chars_str. Qed.
Lemma bool_of_field k cs fs q f b :
  special_kind k = false → filled k cs fs → (f, TBool) ∈ schema k → bool_decide (captures_of f cs ≠ []) = b →
  bool_of f (T q k fs : ast) = b.
Proof. intros Hk Hf Hs Hc. unfold bool_of. by rewrite (filled_get k _ fs f _ q Hk Hf Hs); cbn. Qed.
Lemma map_chars_str (l : list text) : map chars (map str l) = l.
Proof. induction l as [|s l IH]; [done|]. cbn [map]. by rewrite chars_str, IH. Qed.
Lemma strs_of_field k cs fs q f l :
  special_kind k = false → filled k cs fs → (f, TStrs) ∈ schema k → captures_of f cs ≠ [] → texts_of (captures_of f cs) = l →
  strs_of f (T q k fs : ast) = l.
Proof.
  intros Hk Hf Hs Hn Hc. unfold strs_of. rewrite (filled_get k _ fs f _ q Hk Hf Hs); cbn [plain_value].
  rewrite decide_False, Hc by done. apply map_chars_str.
Qed.
Ltac in_schema := apply elem_of_list_In; cbn; tauto.
Ltac one_text := match goal with |- _ = ?v => exact (app_nil_r v) end.
Ltac field lem Hf := eapply lem; [reflexivity|exact Hf|in_schema|try reflexivity].

Lemma decl_builds p us t :
  builds p KDecl us t →
  ∃ d u uty uv, us = d :: u :: uty ++ uv ∧ value d ∈ map chars ["input"; "output"; "const"; "val"] ∧ kind_of_token u = TIdent ∧
    str_of FDeclType t = value d ∧ str_of FLabel t = value u ∧
    ((uty = [] ∧ ptr_of FType t = None) ∨
     ∃ q c vs ty, uty = c :: vs ∧ value c = chars ":" ∧ builds q KParameterType vs ty ∧ ptr_of FType t = Some ty) ∧
    ((uv = [] ∧ ptr_of FValue t = None) ∨
     ∃ q c vs e, uv = c :: vs ∧ value c = chars "=" ∧ builds q KExpr vs e ∧ ptr_of FValue t = Some e).
Proof.
  intros Hb. remember KDecl as k eqn:Ek. destruct Hb as [p k us cs l fs H Hf]. subst k. cbn [grammar g_decl] in H.
  seq H as H1 u1 u2 c1 c2. seq H as H2 u3 u4 c3 c4. seq H as H3 u5 u6 c5 c6. seq H as H4 u7 u8 c7 c8. seq_nil H.
  apply derives_cap_inv in H1 as (c' & l' & H1 & ->). apply derives_alt_inv in H1 as (g & Hg & H1).
  apply elem_of_list_fmap in Hg as (w & -> & Hw). apply derives_lit in H1 as (d & -> & -> & -> & Hd).
  apply derives_cap_inv in H2 as (c' & l'' & H2 & ->). apply derives_tok_inv in H2 as (u & -> & -> & -> & Hu).
  exists d, u, u5, u7. rewrite !app_nil_r in *. cbn [app] in *.
  split; [done|]. split; [rewrite Hd; by apply elem_of_list_fmap; exists w|]. split; [done|].
  apply opt_sub in H3 as [[-> ->]|(ct & vt & ty & -> & Hct & Hty & ->)]; apply opt_sub in H4 as [[-> ->]|(cv & vv & e & -> & Hcv & He & ->)].
  all: split; [field str_of_field Hf; one_text|]; split; [field str_of_field Hf; one_text|].
  - split; [left|left]; (split; [done|]); field ptr_of_field Hf.
  - split; [left; split; [done|]; field ptr_of_field Hf|]. right. eexists _, cv, vv, e. split_and!; try done. field ptr_of_field Hf.
  - split; [|left; split; [done|]; field ptr_of_field Hf]. right. eexists _, ct, vt, ty. split_and!; try done. field ptr_of_field Hf.
  - split; right; [eexists _, ct, vt, ty|eexists _, cv, vv, e]; split_and!; try done; field ptr_of_field Hf.
Qed.
Lemma type_builds p us t :
  builds p KParameterType us t →
  (∃ q i, builds q KIdent us i ∧ ptr_of FIdent t = Some i) ∨
  (∃ q s, builds q KFuncSignature us s ∧ ptr_of FIdent t = None ∧ ptr_of FFunc t = Some s).
Proof.
  intros Hb. remember KParameterType as k eqn:Ek. destruct Hb as [p k us cs l fs H Hf]. subst k. cbn [grammar] in H.
  apply derives_alt_inv in H as (g & Hg & H). rewrite !elem_of_cons, elem_of_nil in Hg. destruct Hg as [->|[->|[]]];
    apply derives_sub_inv in H as (x & Hx & ->); [left|right]; exists p, x; split_and!; try done; field ptr_of_field Hf.
Qed.
Lemma signature_builds p us t :
  builds p KFuncSignature us t →
  ∃ o ups c a ur ps q r, us = o :: ups ++ c :: a :: ur ∧ value o = chars "(" ∧ listed0 KParameterType ups ps ∧ value c = chars ")" ∧
    kind_of_token a = TOpLambdaDef ∧ builds q KParameterType ur r ∧
    list_of FParameters t = map Some ps ∧ emb_of FReturn t = Some r.
Proof.
  intros Hb. remember KFuncSignature as k eqn:Ek. destruct Hb as [p k us cs l fs H Hf]. subst k. cbn [grammar] in H.
  seq H as H1 u1 u2 c1 c2. seq H as H2 u3 u4 c3 c4. seq H as H3 u5 u6 c5 c6. seq H as H4 u7 u8 c7 c8. seq H as H5 u9 u10 c9 c10. seq_nil H.
  apply derives_lit in H1 as (o & -> & -> & -> & Ho). apply opt_list in H2 as (ps & Hps & ->).
  apply derives_lit in H3 as (c & -> & -> & -> & Hc). apply derives_tok_inv in H4 as (a & -> & -> & -> & Ha).
  apply derives_sub_inv in H5 as (r & Hr & ->). rewrite !app_nil_r in *. cbn [app] in *.
  eexists o, u3, c, a, u9, ps, _, r. split_and!; try done.
  - field list_of_field Hf. rewrite captures_of_app, captures_of_map. cbn. by rewrite app_nil_r.
  - field emb_of_field Hf. rewrite captures_of_app, captures_of_map_ne by done. done.
Qed.
Lemma parts_intro n p us cs l :
  (length us <= n)%nat → derives p (GMany (GSeq [GLit "."; GCap FParts (GTok TIdent)])) us cs l →
  ∃ ds, us = flat_map (λ d : token * token, [d.1; d.2]) ds ∧
    Forall (λ d, value d.1 = chars "." ∧ kind_of_token d.2 = TIdent) ds ∧ cs = map (λ d, (FParts, Texts [value d.2])) ds.
Proof.
  revert p us cs l. induction n as [|n IH]; intros p us cs l Hn H;
    apply derives_many_inv in H as [(-> & -> & ->)|(us1 & us3 & cs2 & cs3 & l2 & l3 & H1 & H2 & -> & -> & ->)];
    try (exists []; split; [done|split; [constructor|done]]);
    seq H1 as H3 u1 u2 c1 c2; seq H1 as H4 u3 u4 c3 c4; seq_nil H1; apply derives_lit in H3 as (o & -> & -> & _ & Ho);
    apply derives_cap_inv in H4 as (c' & l' & H4 & ->); apply derives_tok_inv in H4 as (a & -> & -> & -> & Ha); cbn in Hn; [lia|].
  destruct (IH p us3 cs3 l3) as (ds & -> & Hds & ->); [lia|done|]. exists ((o, a) :: ds). split; [done|]. split; [by constructor|done].
Qed.
Lemma ident_builds p us t :
  builds p KIdent us t →
  ∃ u ds, us = u :: flat_map (λ d : token * token, [d.1; d.2]) ds ∧ kind_of_token u = TIdent ∧
    Forall (λ d, value d.1 = chars "." ∧ kind_of_token d.2 = TIdent) ds ∧
    strs_of FParts t = value u :: map (λ d, value d.2) ds.
Proof.
  intros Hb. remember KIdent as k eqn:Ek. destruct Hb as [p k us cs l fs H Hf]. subst k. cbn [grammar] in H.
  seq H as H1 u1 u2 c1 c2. seq H as H2 u3 u4 c3 c4. seq_nil H.
  apply derives_cap_inv in H1 as (c' & l' & H1 & ->). apply derives_tok_inv in H1 as (u & -> & -> & -> & Hu).
  assert (∃ ds, u3 = flat_map (λ d : token * token, [d.1; d.2]) ds ∧
    Forall (λ d, value d.1 = chars "." ∧ kind_of_token d.2 = TIdent) ds ∧ c3 = map (λ d, (FParts, Texts [value d.2])) ds) as (ds & -> & Hds & ->).
  { apply derives_opt_inv in H2 as [(-> & -> & _)|H2]; [exists []; split_and!; constructor|].
    by eapply (parts_intro _ _ _ _ _ (le_n _)). }
  exists u, ds. rewrite !app_nil_r in *. split_and!; try done.
  assert (captures_of FParts (map (λ d : token * token, (FParts, Texts [value d.2])) ds) = map (λ d, Texts [value d.2]) ds) as Hc.
  { unfold captures_of. clear. induction ds as [|d ds IH]; [done|]. cbn [map]. rewrite filter_cons, decide_True by done. cbn [map snd]. by f_equal. }
  eapply strs_of_field; [reflexivity|exact Hf|in_schema|rewrite captures_of_app, Hc..]; [done|].
  change (value u :: texts_of (map (λ d : token * token, Texts [value d.2]) ds) = value u :: map (λ d, value d.2) ds).
  f_equal. clear. induction ds as [|d ds IH]; [done|]. cbn in *. by f_equal.
Qed.
Lemma expr_builds p us t c :
  builds p KExpr us t → ptr_of FLeft t = Some c → builds p KExprConditional us c.
Proof.
  intros Hb. remember KExpr as k eqn:Ek. destruct Hb as [p k us cs l fs H Hf]. subst k. cbn [grammar] in H.
  apply derives_alt_inv in H as (g & Hg & H). rewrite !elem_of_cons, elem_of_nil in Hg.
  destruct Hg as [->|[->|[->|[]]]]; apply derives_sub_inv in H as (x & Hx & ->);
    rewrite (ptr_of_field KExpr _ fs (first_pos p us) FLeft KExprConditional _ eq_refl Hf ltac:(in_schema) eq_refl); [|done..].
  by intros [= <-].
Qed.
Lemma expr_left p us t : builds p KExpr us t → ptr_of FIf t = None → ptr_of FSwitch t = None → ∃ c, ptr_of FLeft t = Some c.
Proof.
  intros Hb. remember KExpr as k eqn:Ek. destruct Hb as [p k us cs l fs H Hf]. subst k. cbn [grammar] in H.
  apply derives_alt_inv in H as (g & Hg & H). rewrite !elem_of_cons, elem_of_nil in Hg.
  destruct Hg as [->|[->|[->|[]]]]; apply derives_sub_inv in H as (x & Hx & ->); intros N1 N2.
  - exists x. field ptr_of_field Hf.
  - by rewrite (ptr_of_field KExpr _ fs (first_pos p us) FIf KExprIf _ eq_refl Hf ltac:(in_schema) eq_refl) in N1.
  - by rewrite (ptr_of_field KExpr _ fs (first_pos p us) FSwitch KExprSwitch _ eq_refl Hf ltac:(in_schema) eq_refl) in N2.
Qed.
Lemma conditional_builds p us t :
  builds p KExprConditional us t →
  ∃ q uc c, emb_of FCondition t = Some c ∧ builds q KExprLogicalOr uc c ∧
    ((us = uc ∧ bool_of FConditionOp t = false) ∨
     ∃ qa qb o ua s ub a b, us = uc ++ o :: ua ++ s :: ub ∧ value o = chars "?" ∧ value s = chars ":" ∧
       builds qa KExpr ua a ∧ builds qb KExpr ub b ∧
       bool_of FConditionOp t = true ∧ ptr_of FTrueExpr t = Some a ∧ ptr_of FFalseExpr t = Some b).
Proof.
  intros Hb. remember KExprConditional as k eqn:Ek. destruct Hb as [p k us cs l fs H Hf]. subst k. cbn [grammar] in H.
  seq H as H1 u1 u2 c1 c2. seq H as H2 u3 u4 c3 c4. seq_nil H. apply derives_sub_inv in H1 as (c & Hc & ->).
  apply derives_opt_inv in H2 as [(-> & -> & _)|H2].
  - eexists _, u1, c. split_and!; [field emb_of_field Hf|done|]. left. rewrite !app_nil_r. split; [done|]. field bool_of_field Hf.
  - seq H2 as H3 u5 u6 c5 c6. seq H2 as H4 u7 u8 c7 c8. seq H2 as H5 u9 u10 c9 c10. seq H2 as H6 u11 u12 c11 c12. seq_nil H2.
    apply derives_cap_inv in H3 as (c' & l' & H3 & ->). apply derives_lit in H3 as (o & -> & -> & -> & Ho).
    apply derives_sub_inv in H4 as (a & Ha & ->). apply derives_lit in H5 as (s & -> & -> & _ & Hs).
    apply derives_sub_inv in H6 as (b & Hb & ->). rewrite !app_nil_r in *. cbn [app] in *.
    eexists _, u1, c. split_and!; [field emb_of_field Hf|done|]. right. eexists _, _, o, u7, s, u11, a, b.
    split_and!; try done; [field bool_of_field Hf|field ptr_of_field Hf..].
Qed.
Lemma unary_builds p us t :
  builds p KExprUnary us t →
  ∃ q r, emb_of FRight t = Some r ∧
    ((str_of FOp t = [] ∧ builds q KExprPostfix us r) ∨
     ∃ o vs, us = o :: vs ∧ kind_of_token o ∈ [TOpBitwiseNot; TOpLogicalNot; TOpMinus; TOpPlus] ∧
       str_of FOp t = value o ∧ builds q KExprPostfix vs r).
Proof.
  intros Hb. remember KExprUnary as k eqn:Ek. destruct Hb as [p k us cs l fs H Hf]. subst k. cbn [grammar] in H.
  seq H as H1 u1 u2 c1 c2. seq H as H2 u3 u4 c3 c4. seq_nil H. apply derives_sub_inv in H2 as (r & Hr & ->).
  rewrite !app_nil_r in *. apply derives_opt_inv in H1 as [(-> & -> & _)|H1].
  - eexists _, r. split; [field emb_of_field Hf|]. left. split; [field str_of_field Hf|done].
  - apply derives_cap_inv in H1 as (c' & l' & H1 & ->).
    apply (derives_ops [TOpBitwiseNot; TOpLogicalNot; TOpMinus; TOpPlus]) in H1 as (o & -> & -> & -> & Ho).
    eexists _, r. split; [field emb_of_field Hf|]. right. exists o, u3. split_and!; try done. field str_of_field Hf; one_text.
Qed.
Lemma postfix_builds p us t :
  builds p KExprPostfix us t →
  ∃ q uv v ui up, us = uv ++ ui ++ up ∧ emb_of FValue t = Some v ∧ builds q KExprPrimary uv v ∧
    ((ui = [] ∧ ptr_of FIndex t = None) ∨
     ∃ qi o vs c i, ui = o :: vs ++ [c] ∧ value o = chars "[" ∧ value c = chars "]" ∧ builds qi KExpr vs i ∧ ptr_of FIndex t = Some i) ∧
    ((up = [] ∧ ptr_of FPost t = None) ∨
     ∃ qp d vs e, up = d :: vs ∧ value d = chars "." ∧ builds qp KExprPostfix vs e ∧ ptr_of FPost t = Some e).
Proof.
  intros Hb. remember KExprPostfix as k eqn:Ek. destruct Hb as [p k us cs l fs H Hf]. subst k. cbn [grammar] in H.
  seq H as H1 u1 u2 c1 c2. seq H as H2 u3 u4 c3 c4. seq H as H3 u5 u6 c5 c6. seq_nil H.
  apply derives_sub_inv in H1 as (v & Hv & ->). rewrite !app_nil_r in *.
  exists (first_pos p (u3 ++ u5)), u1, v, u3, u5. split; [done|].
  assert ((u3 = [] ∧ c3 = []) ∨ ∃ qi o vs c i, u3 = o :: vs ++ [c] ∧ value o = chars "[" ∧ value c = chars "]" ∧ builds qi KExpr vs i ∧ c3 = [(FIndex, Struct i)]) as Hi.
  { apply derives_opt_inv in H2 as [(-> & -> & _)|H2]; [by left|right].
    seq H2 as H4 w1 w2 d1 d2. seq H2 as H5 w3 w4 d3 d4. seq H2 as H6 w5 w6 d5 d6. seq_nil H2.
    apply derives_lit in H4 as (o & -> & -> & _ & Ho). apply derives_sub_inv in H5 as (i & Hi & ->).
    apply derives_lit in H6 as (c & -> & -> & _ & Hc). rewrite !app_nil_r. cbn. by eexists _, o, w3, c, i. }
  apply opt_sub in H3 as [[-> ->]|(d & vs & e & -> & Hd & He & ->)]; destruct Hi as [[-> ->]|(qi & o & vi & c & i & -> & Ho & Hc & Hi & ->)].
  all: split; [field emb_of_field Hf|]; split; [done|].
  - split; left; (split; [done|]); field ptr_of_field Hf.
  - split; [right|left; split; [done|]; field ptr_of_field Hf]. eexists _, o, vi, c, i. split_and!; try done. field ptr_of_field Hf.
  - split; [left; split; [done|]; field ptr_of_field Hf|right]. eexists _, d, vs, e. split_and!; try done. field ptr_of_field Hf.
  - split; right; [eexists _, o, vi, c, i|eexists _, d, vs, e]; split_and!; try done; field ptr_of_field Hf.
Qed.
Lemma primary_builds p us t :
  builds p KExprPrimary us t → ptr_of FSubExpression t = None →
  (∃ v, builds p KValue us v ∧ ptr_of FValue t = Some v ∧ ptr_of FPost t = None) ∨
  (∃ q ui i uc ms up, us = ui ++ uc ++ up ∧ builds q KIdent ui i ∧ ptr_of FValue t = None ∧ ptr_of FIdent t = Some i ∧
    called KExprInvocationParams uc ms ∧ list_of FMonads t = map Some ms ∧
    ((up = [] ∧ ptr_of FPost t = None) ∨
     ∃ qp d vs e, up = d :: vs ∧ value d = chars "." ∧ builds qp KExprPostfix vs e ∧ ptr_of FPost t = Some e)).
Proof.
  intros Hb. remember KExprPrimary as k eqn:Ek. destruct Hb as [p k us cs l fs H Hf]. subst k. cbn [grammar] in H.
  apply derives_alt_inv in H as (g & Hg & H). rewrite !elem_of_cons, elem_of_nil in Hg. destruct Hg as [->|[->|[->|[]]]]; intros Hsub.
  - exfalso. seq H as H1 u1 u2 c1 c2. seq H as H2 u3 u4 c3 c4. seq H as H3 u5 u6 c5 c6. seq_nil H.
    apply derives_lit in H1 as (o & -> & -> & _ & Ho). apply derives_sub_inv in H2 as (e & He & ->).
    apply derives_lit in H3 as (c & -> & -> & _ & Hc). cbn [app] in Hf.
    by rewrite (ptr_of_field KExprPrimary _ fs _ FSubExpression KExpr _ eq_refl Hf ltac:(in_schema) eq_refl) in Hsub.
  - apply derives_sub_inv in H as (v & Hv & ->). left. exists v. split_and!; [done|field ptr_of_field Hf..].
  - right. seq H as H1 u1 u2 c1 c2. seq H as H2 u3 u4 c3 c4. seq H as H3 u5 u6 c5 c6. seq_nil H.
    apply derives_sub_inv in H1 as (i & Hi & ->). apply opt_called in H2 as (ms & Hms & ->). rewrite !app_nil_r in *.
    eexists _, u1, i, u3, ms, u5. split; [done|]. split; [done|].
    apply opt_sub in H3 as [[-> ->]|(d & vs & e & -> & Hd & He & ->)].
    + split_and!; [field ptr_of_field Hf..|done| |left; split; [done|]].
      * rewrite !captures_of_app, captures_of_map_ne by done. done.
      * rewrite !captures_of_app, captures_of_map_ne by done. done.
      * field list_of_field Hf. rewrite !captures_of_app, captures_of_map. by rewrite app_nil_r.
      * field ptr_of_field Hf. rewrite !captures_of_app, captures_of_map_ne by done. done.
    + split_and!; [field ptr_of_field Hf..|done| |right; eexists _, d, vs, e; split_and!; try done].
      * rewrite !captures_of_app, captures_of_map_ne by done. done.
      * rewrite !captures_of_app, captures_of_map_ne by done. done.
      * field list_of_field Hf. rewrite !captures_of_app, captures_of_map. cbn. by rewrite app_nil_r.
      * field ptr_of_field Hf. rewrite !captures_of_app, captures_of_map_ne by done. done.
Qed.
Lemma params_builds p us t :
  builds p KExprInvocationParams us t → ∃ ts, listed0 KExpr us ts ∧ list_of FValues t = map Some ts.
Proof.
  intros Hb. remember KExprInvocationParams as k eqn:Ek. destruct Hb as [p k us cs l fs H Hf]. subst k. cbn [grammar] in H.
  apply opt_list in H as (ts & Hts & ->). exists ts. split; [done|]. field list_of_field Hf. by rewrite captures_of_map.
Qed.
Lemma many_sub f k p us cs l :
  derives p (GMany (GSub f k)) us cs l →
  ∃ uss ts, us = concat uss ∧ Forall2 (λ us t, ∃ q, builds q k us t) uss ts ∧ cs = map (λ t, (f, Struct t)) ts.
Proof.
  intros H. remember (GMany (GSub f k)) as g eqn:Eg. induction H as [| | | | | | | | | |p g us vs cs ds l m H1 IH1 H2 IH2|]; try done.
  - exists [], []. split; [done|]. split; [constructor|done].
  - injection Eg as ->. destruct (IH2 eq_refl) as (uss & ts & -> & Hts & ->). apply derives_sub_inv in H1 as (t & Ht & ->).
    exists (us :: uss), (t :: ts). split; [done|]. split; [constructor; [by eexists|done]|done].
Qed.
Lemma fragment_builds p us t :
  builds p KStringFragment us t → str_of FText t ≠ [] →
  ∃ x, us = [x] ∧ frag_kind (kind_of_token x) ∧ str_of FText t = value x ∧ str_of FEscaped t = [] ∧ str_of FUnicode t = [] ∧
    ptr_of FExpr t = None ∧ ptr_of FDirective t = None.
Proof.
  intros Hb. remember KStringFragment as k eqn:Ek. destruct Hb as [p k us cs l fs H Hf]. subst k. cbn [grammar] in H.
  apply derives_alt_inv in H as (g & Hg & H). rewrite !elem_of_cons, elem_of_nil in Hg. destruct Hg as [->|[->|[->|[->|[->|[]]]]]]; intros Ht.
  - apply derives_cap_inv in H as (c' & l' & H & ->). apply derives_tok_inv in H as (x & -> & -> & -> & Hx).
    by rewrite (str_of_field KStringFragment _ fs _ FText [] eq_refl Hf ltac:(in_schema) eq_refl) in Ht.
  - seq H as H1 u1 u2 c1 c2. seq H as H2 u3 u4 c3 c4. seq_nil H. apply derives_tok_inv in H1 as (x & -> & -> & -> & Hx).
    apply derives_cap_inv in H2 as (c' & l' & H2 & ->). apply (derives_ops [TUnicodeLong; TUnicodeShort]) in H2 as (o & -> & -> & -> & Ho).
    by rewrite (str_of_field KStringFragment _ fs _ FText [] eq_refl Hf ltac:(in_schema) eq_refl) in Ht.
  - seq H as H1 u1 u2 c1 c2. seq H as H2 u3 u4 c3 c4. seq H as H3 u5 u6 c5 c6. seq_nil H.
    apply derives_tok_inv in H1 as (x & -> & -> & -> & Hx). apply derives_sub_inv in H2 as (e & He & ->).
    apply derives_tok_inv in H3 as (y & -> & -> & -> & Hy).
    by rewrite (str_of_field KStringFragment _ fs _ FText [] eq_refl Hf ltac:(in_schema) eq_refl) in Ht.
  - seq H as H1 u1 u2 c1 c2. seq H as H2 u3 u4 c3 c4. seq H as H3 u5 u6 c5 c6. seq_nil H.
    apply derives_tok_inv in H1 as (x & -> & -> & -> & Hx). apply derives_sub_inv in H2 as (e & He & ->).
    apply derives_tok_inv in H3 as (y & -> & -> & -> & Hy).
    by rewrite (str_of_field KStringFragment _ fs _ FText [] eq_refl Hf ltac:(in_schema) eq_refl) in Ht.
  - apply derives_cap_inv in H as (c' & l' & H & ->). apply (derives_ops [TChar; TQuote; TNonExpr]) in H as (x & -> & -> & -> & Hx).
    exists x. split_and!; try done; [field str_of_field Hf; one_text|field str_of_field Hf..|field ptr_of_field Hf|field ptr_of_field Hf].
Qed.
Lemma string_builds p us t :
  builds p KValueString us t → (∀ m, Some m ∈ list_of FFragment t → kind_of m = KStringFragment → str_of FText m ≠ []) →
  ∃ o frs c ms, us = o :: frs ++ [c] ∧ kind_of_token o = TString ∧ kind_of_token c = TStringEnd ∧
    Forall (λ x, frag_kind (kind_of_token x)) frs ∧ list_of FFragment t = map Some ms ∧
    Forall2 (λ x m, kind_of m = KStringFragment ∧ format m = Ok (value x) ∧ str_of FText m = value x) frs ms.
Proof.
  intros Hb. pose proof (builds_kind _ _ _ _ Hb) as Hkt.
  remember KValueString as k eqn:Ek. destruct Hb as [p k us cs l fs H Hf]. subst k. cbn [grammar] in H. intros Hp.
  seq H as H1 u1 u2 c1 c2. seq H as H2 u3 u4 c3 c4. seq H as H3 u5 u6 c5 c6. seq_nil H.
  apply derives_tok_inv in H1 as (o & -> & -> & -> & Ho). apply derives_tok_inv in H3 as (c & -> & -> & -> & Hc).
  apply many_sub in H2 as (uss & ts & -> & Hts & ->). rewrite !app_nil_r in *. cbn [app] in *.
  assert (list_of FFragment (T (first_pos p (o :: concat uss ++ [c])) KValueString fs : ast) = map Some ts) as Hl
    by (field list_of_field Hf; by rewrite captures_of_map).
  rewrite Hl in Hp.
  assert (Forall2 (λ us m, ∃ x, us = [x] ∧ frag_kind (kind_of_token x) ∧ kind_of m = KStringFragment ∧ format m = Ok (value x) ∧ str_of FText m = value x) uss ts) as Hx.
  { clear -Hts Hp. induction Hts as [|us m uss ts [q Hm] Hts IH]; [constructor|]. constructor; [|apply IH; intros m' Hm'; apply Hp; by right].
    pose proof (builds_kind _ _ _ _ Hm) as Hk.
    apply fragment_builds in Hm as (x & -> & Hx & E1 & E2 & E3 & E4 & E5); [|apply Hp; [by left|done]].
    exists x. split_and!; try done. rewrite format_unfold. unfold format_node. rewrite Hk.
    rewrite E2, E3, E4, E5, E1. rewrite !decide_False by (intros []; done). done. }
  assert (∃ frs, concat uss = frs ∧ Forall (λ x, frag_kind (kind_of_token x)) frs ∧
    Forall2 (λ x m, kind_of m = KStringFragment ∧ format m = Ok (value x) ∧ str_of FText m = value x) frs ts) as (frs & -> & F1 & F2).
  { clear -Hx. induction Hx as [|us m uss ts (x & -> & Hk & Hkm & Hf & Hs) Hx (frs & IH1 & IH2 & IH3)].
    - exists []. split; [done|]. split; constructor.
    - exists (x :: frs). cbn. rewrite IH1. split; [done|]. split; by constructor. }
  exists o, frs, c, ts. split_and!; try done.
Qed.
Lemma get_value cs fs q f ty : filled KValue cs fs → (f, ty) ∈ schema KValue → get f (T q KValue fs : ast) = field_value KValue f ty cs.
Proof. intros [_ H] Hf. by destruct (H f ty Hf) as [_ Ha]. Qed.
Definition other_value (t : ast) : Prop := ∀ f, f ∈ [FHeredoc; FList; FMap] → ptr_of f t = None.
Lemma value_builds p us t :
  builds p KValue us t → other_value t →
  (∃ u, us = [u] ∧ value u = chars "null" ∧ bool_of FNull t = true ∧ ptr_of FNumber t = None) ∨
  (∃ u b m, us = [u] ∧ value u = format_bool b ∧ bool_of FNull t = false ∧ ptr_of FBool t = Some m ∧ format m = Ok (value u) ∧
    ptr_of FNumber t = None) ∨
  (∃ u src n m, us = [u] ∧ kind_of_token u = TNumber ∧ capture_number (value u) = Some (src, n) ∧ bool_of FNull t = false ∧
    ptr_of FBool t = None ∧ ptr_of FNumber t = Some m ∧ (src ≠ [] → format m = Ok src)) ∨
  (∃ m, builds p KValueString us m ∧ bool_of FNull t = false ∧ ptr_of FBool t = None ∧ ptr_of FNumber t = None ∧ ptr_of FStr t = Some m).
Proof.
  intros Hb. remember KValue as k eqn:Ek. destruct Hb as [p k us cs l fs H Hf]. subst k. cbn [grammar] in H.
  set (q := first_pos p us) in *. pose proof (get_value cs fs q FNull TBool Hf ltac:(in_schema)) as G1.
  pose proof (get_value cs fs q FBool (TPtr KValueBool) Hf ltac:(in_schema)) as G2.
  pose proof (get_value cs fs q FNumber (TPtr KValueNumber) Hf ltac:(in_schema)) as G3.
  pose proof (get_value cs fs q FStr (TPtr KValueString) Hf ltac:(in_schema)) as G4.
  pose proof (get_value cs fs q FHeredoc (TPtr KHeredoc) Hf ltac:(in_schema)) as G5.
  pose proof (get_value cs fs q FList (TPtr KValueList) Hf ltac:(in_schema)) as G6.
  pose proof (get_value cs fs q FMap (TPtr KValueMap) Hf ltac:(in_schema)) as G7.
  intros Ho. unfold bool_of, ptr_of. rewrite G1, G2, G3, G4.
  assert (∀ m, get FHeredoc (T q KValue fs : ast) ≠ Some (VPtr (Some m))) as N1.
  { intros m E. specialize (Ho FHeredoc ltac:(by left)). unfold ptr_of in Ho. by rewrite E in Ho. }
  assert (∀ m, get FList (T q KValue fs : ast) ≠ Some (VPtr (Some m))) as N2.
  { intros m E. specialize (Ho FList ltac:(by right; left)). unfold ptr_of in Ho. by rewrite E in Ho. }
  assert (∀ m, get FMap (T q KValue fs : ast) ≠ Some (VPtr (Some m))) as N3.
  { intros m E. specialize (Ho FMap ltac:(by right; right; left)). unfold ptr_of in Ho. by rewrite E in Ho. }
  apply derives_alt_inv in H as (g & Hg & H). rewrite !elem_of_cons, elem_of_nil in Hg. destruct Hg as [->|[->|[->|[->|[->|[->|[->|[]]]]]]]].
  - apply derives_cap_inv in H as (c' & l' & H & ->). apply derives_lit in H as (u & -> & -> & -> & Hu). left. exists u. split_and!; first [done|reflexivity].
  - apply derives_cap_inv in H as (c' & l' & H & ->). apply derives_alt_inv in H as (g & Hg & H).
    assert (∃ b, g = GLit (if b : bool then "true" else "false")) as [b ->].
    { rewrite !elem_of_cons, elem_of_nil in Hg. destruct Hg as [->|[->|[]]]; [by exists true|by exists false]. }
    apply derives_lit in H as (u & -> & -> & -> & Hu). right; left.
    assert (value u = format_bool b) as Hu' by (rewrite Hu; by destruct b).
    exists u, b, (T no_pos KValueBool [(FValue, VBool (bool_decide (value u = chars "true")))]). split_and!; try done.
    rewrite format_unfold. change (Ok (format_bool (bool_decide (value u = chars "true"))) = Ok (value u)). rewrite Hu'. f_equal. by destruct b.
  - apply derives_cap_inv in H as (c' & l' & H & ->). apply derives_tok_inv in H as (u & -> & -> & -> & Hu). right; right; left.
    cbn [app] in *. destruct Hf as [_ Hf]. destruct (Hf FNumber (TPtr KValueNumber) ltac:(in_schema)) as [[v Hv] _].
    change (field_value KValue FNumber (TPtr KValueNumber) [(FNumber, Texts [value u])]) with
      (n ← capture_number (value u); Some (VPtr (Some (T no_pos KValueNumber
         [(FValue, VFloat (Some (tt, str n.1))); (FSource, VStr (str n.1))]))) : option aval) in *.
    destruct (capture_number (value u)) as [[src n]|] eqn:En; [|done].
    eexists u, src, n, _. split_and!; try done. intros Hs. rewrite format_unfold.
    unfold format_node. cbn [kind_of fst].
    assert (str_of FSource (T no_pos KValueNumber [(FValue, VFloat (Some (tt, str src))); (FSource, VStr (str src))] : ast) = src) as -> by apply chars_str.
    by rewrite decide_False.
  - apply derives_sub_inv in H as (m & Hm & ->). do 3 right. exists m. split_and!; first [exact Hm|reflexivity].
  - apply derives_sub_inv in H as (m & Hm & ->). exfalso. apply (N1 m). rewrite G5. reflexivity.
  - apply derives_sub_inv in H as (m & Hm & ->). exfalso. apply (N2 m). rewrite G6. reflexivity.
  - apply derives_sub_inv in H as (m & Hm & ->). exfalso. apply (N3 m). rewrite G7. reflexivity.
Qed.
(** A file with one declaration. *)
Lemma item_builds p us i d :
  builds p KRootItem us i → ptr_of FDecl i = Some d →
  ∃ q ud ul, us = ud ++ ul ∧ builds q KDecl ud d ∧ (ul = [] ∨ ∃ c, ul = [c] ∧ kind_of_token c = TLF).
Proof.
  intros Hu Ed. remember KRootItem as k eqn:Ek. destruct Hu as [q k u ds m gs H Hg]. subst k. cbn [grammar] in H.
  assert (captures_of FDecl ds ≠ []) as Hno.
  { intros E. erewrite (ptr_of_field KRootItem _ gs _ FDecl KDecl None eq_refl Hg ltac:(in_schema)) in Ed; [done|by rewrite E]. }
  assert (∀ p us cs l, derives p g_lf us cs l → cs = [] ∧ (us = [] ∨ ∃ c, us = [c] ∧ kind_of_token c = TLF)) as Hlf.
  { clear. intros p us cs l H2. unfold g_lf in H2. apply derives_opt_inv in H2 as [(-> & -> & _)|H2]; [by split; [|left]|].
    apply derives_tok_inv in H2 as (x & -> & -> & _ & Hx). split; [done|right; by exists x]. }
  apply derives_alt_inv in H as (g & Hin & H). rewrite !elem_of_cons, elem_of_nil in Hin.
  destruct Hin as [->|[->|Hin]].
  - exfalso. apply Hno. clear -H. unfold g_empty_line in H. apply derives_some_inv in H.
    remember (GMany _) as g eqn:Eg. induction H as [| | | | | | | | | |p g us vs cs ds l m H1 IH1 H2 IH2|]; try done.
    injection Eg as ->. rewrite captures_of_app, (IH2 eq_refl), app_nil_r. apply derives_cap_inv in H1 as (c' & l' & H1 & ->).
    by apply derives_tok_inv in H1 as (x & -> & -> & -> & _).
  - seq H as H1 u1 u2 c1 c2. seq H as H2 u3 u4 c3 c4. seq_nil H. apply derives_sub_inv in H1 as (d' & Hd & ->).
    apply Hlf in H2 as [-> Hl].
    erewrite (ptr_of_field KRootItem _ gs _ FDecl KDecl (Some d') eq_refl Hg ltac:(in_schema) eq_refl) in Ed.
    injection Ed as ->. rewrite app_nil_r in *. eexists _, u1, u3. split_and!; [done|exact Hd|done].
  - exfalso. apply Hno. clear Hno Ed Hg.
    destruct Hin as [->|[->|[->|[->|[->|[]]]]]]; [seq H as H1 u1 u2 c1 c2; seq H as H2 u3 u4 c3 c4; seq_nil H..|].
    1-4: apply derives_sub_inv in H1 as (d' & Hd & ->); apply Hlf in H2 as [-> _]; done.
    apply derives_sub_inv in H as (d' & Hd & ->). done.
Qed.
Lemma file_builds p us t :
  builds p KAST us t → one_declaration t →
  ∃ q i d ud ul, us = ud ++ ul ∧ list_of FItems t = [Some i] ∧ kind_of i = KRootItem ∧ ptr_of FDecl i = Some d ∧ builds q KDecl ud d ∧
    (ul = [] ∨ ∃ c, ul = [c] ∧ kind_of_token c = TLF).
Proof.
  intros Hb (i & d & Ei & Ed). remember KAST as k eqn:Ek. destruct Hb as [p k us cs l fs H Hf]. subst k. cbn [grammar] in H.
  apply many_sub in H as (uss & ts & -> & Hts & ->). pose proof Ei as Ei'.
  erewrite (list_of_field KAST _ fs _ FItems KRootItem ts eq_refl Hf ltac:(in_schema)) in Ei'; [|by rewrite captures_of_map].
  destruct ts as [|j [|? ?]]; try done. injection Ei' as ->. apply Forall2_cons_inv_r in Hts as (u & uss' & Hu & Hn & ->).
  apply Forall2_nil_inv_r in Hn as ->. destruct Hu as [q Hu]. cbn [concat]. rewrite app_nil_r in *.
  pose proof (builds_kind _ _ _ _ Hu) as Hk. destruct (item_builds _ _ _ _ Hu Ed) as (q' & ud & ul & -> & Hd & Hl).
  by exists q', i, d, ud, ul.
Qed.
