(** * What BuildTestExprTree and the parser build *)
From stdpp Require Import base list option strings sets.
From Coq Require Import Ascii.
From Verif Require Import GoBase EtxAst EtxHeap EtxHeapSpec EtxText EtxLex EtxUtil EtxGram EtxParse EtxParseBase
  EtxParseSpec EtxParseStore EtxParseTyped EtxParseClean EtxParseLexed EtxParsePropProofs EtxParseParts EtxPrec EtxOrder
  EtxBuild EtxBuildSpec EtxBuildProofs.

(** What [g] captures for [f] comes first. *)
Fixpoint leads (f : fld) (g : gexp) : bool :=
  match g with
  | GLit _ | GTok _ => true
  | GSub _ k => bool_decide (k ≠ KAST)
  | GCap _ g | GOpt g => leads f g
  | GMany g | GSome g => none_of [f] g
  | GAlt gs => forallb (leads f) gs
  | GSeq [] => true
  | GSeq (g :: gs) => leads f g && none_of [f] (GSeq gs)
  end.
Lemma none_free p g us cs l f c : derives p g us cs l → none_of [f] g = true → (f, c) ∉ cs.
Proof.
  intros Hd Hn Hc. assert (c ∈ captures_of f cs) as H.
  { unfold captures_of. apply elem_of_list_fmap. exists (f, c). split; [done|]. by apply elem_of_list_filter. }
  rewrite (none_of_free _ _ _ _ _ _ Hd Hn f) in H by left. by apply elem_of_nil in H.
Qed.
Lemma leads_first p g us cs l f c :
  derives p g us cs l → leads f g = true → (f, Struct c) ∈ cs → ann c = first_pos p us.
Proof.
  intros H. revert p g us cs l H.
  enough ((∀ p g us cs l, derives p g us cs l → leads f g = true → (f, Struct c) ∈ cs → ann c = first_pos p us) ∧
    (∀ p k us t, builds p k us t → True)) by tauto.
  apply (derivation_ind (λ p g us cs l, leads f g = true → (f, Struct c) ∈ cs → ann c = first_pos p us) (λ p k us t, True)); try done.
  - by intros p s t _ _ ?%elem_of_nil.
  - by intros p s t _ _ ?%elem_of_nil.
  - intros p f' k us t H _ Hk%bool_decide_eq_true [= -> ->]%elem_of_list_singleton. destruct H as [p k us cs l fs Hd Hf].
    cbn [ann]. by destruct k.
  - intros p f' g us cs l _ IH Hk [H|H]%elem_of_app; [by apply IH|]. by apply elem_of_list_singleton in H.
  - by intros p _ ?%elem_of_nil.
  - intros p g gs us vs cs ds l m Hd1 IH1 Hd2 IH2 Hk Hc. cbn [leads] in Hk. apply andb_true_iff in Hk as [Hk1 Hk2].
    apply elem_of_app in Hc as [Hc|Hc]; [|by destruct (none_free _ _ _ _ _ _ _ Hd2 Hk2 Hc)].
    rewrite first_pos_app. by apply IH1.
  - intros p g gs us cs l Hg _ IH Hk. apply IH. cbn [leads] in Hk. rewrite forallb_forall in Hk. by apply Hk, elem_of_list_In.
  - by intros p g _ ?%elem_of_nil.
  - by intros p g _ ?%elem_of_nil.
  - intros p g us vs cs ds l m Hd1 IH1 Hd2 IH2 Hk Hc. exfalso. apply elem_of_app in Hc as [Hc|Hc].
    + by destruct (none_free _ _ _ _ _ _ _ Hd1 Hk Hc).
    + by destruct (none_free _ _ _ _ _ _ _ Hd2 Hk Hc).
  - intros p g us vs cs ds l m Hd1 IH1 Hd2 IH2 Hk Hc. exfalso. apply elem_of_app in Hc as [Hc|Hc].
    + by destruct (none_free _ _ _ _ _ _ _ Hd1 Hk Hc).
    + by destruct (none_free _ _ _ _ _ _ _ Hd2 Hk Hc).
Qed.
Definition levels : list kind :=
  [KExpr; KExprConditional; KExprLogicalOr; KExprLogicalAnd; KExprBitwiseOr; KExprBitwiseXor; KExprBitwiseAnd;
   KExprEquality; KExprRelational; KExprShift; KExprAdditive; KExprMultiplicative; KExprUnary; KExprPostfix; KExprPrimary].
Lemma operand_leads k f :
  operand_field k f = true → k ≠ KExprUnary → leads f (grammar k) = true ∧ special_kind k = false ∧
    ∃ ty, (f, ty) ∈ schema k ∧ match ty with TPtr k' => True | TEmb k' => must f (grammar k) = true | _ => False end.
Proof.
  intros H Hk. destruct k; cbn [operand_field] in H; try discriminate H; try (by destruct Hk).
  all: try (apply orb_true_iff in H as [H|H]); apply bool_decide_eq_true in H; subst f.
  all: split; [vm_compute; reflexivity|]; split; [reflexivity|].
  all: eexists; split; [cbn [schema binary]; repeat first [by left|right]|]; vm_compute; done.
Qed.
Lemma operand_first p us t f c :
  builds p (kind_of t) us t → operand_field (kind_of t) f = true → kind_of t ≠ KExprUnary →
  (get f t = Some (VPtr (Some c)) ∨ get f t = Some (VEmb c)) → ann t = ann c.
Proof.
  intros Hb. remember (kind_of t) as k eqn:Ek. destruct Hb as [p k us cs l fs Hd Hf].
  intros Ho Hu Hg. destruct (operand_leads _ _ Ho Hu) as (Hl & Hsp & ty & Hty & Hm).
  rewrite (filled_get _ _ _ _ _ _ Hsp Hf Hty) in Hg.
  assert ((f, Struct c) ∈ cs) as Hc.
  { apply captures_of_elem, trees_of_elem, last_elem. destruct ty; try done; cbn [plain_value] in Hg.
    - destruct Hg as [[= Hg]|[= Hg]]. by rewrite Hg.
    - pose proof (must_captured _ _ _ _ _ _ Hd Hm) as Hne.
      destruct (last _) as [t'|] eqn:E; [by destruct Hg as [[= Hg]|[= Hg]]; rewrite ?Hg|]. apply last_None in E. done. }
  rewrite (leads_first _ _ _ _ _ _ _ Hd Hl Hc). cbn [ann]. destruct k; try done.
Qed.
Lemma unary_first p us t c :
  Forall regular us → builds p KExprUnary us t → get FRight t = Some (VEmb c) → get FOp t = Some (VStr "") → ann t = ann c.
Proof.
  intros Hr Hb Hg Hop. inversion Hb as [p' k' us' cs l fs Hd Hf E1 E2 E3 E4]; subst.
  cbn [grammar] in Hd. rewrite (filled_get KExprUnary _ _ FOp TStr _ eq_refl Hf ltac:(by left)) in Hop.
  rewrite (filled_get KExprUnary _ _ FRight (TEmb KExprPostfix) _ eq_refl Hf ltac:(by right; left)) in Hg.
  apply derives_cons_inv in Hd as (us1 & us2 & cs1 & cs2 & l1 & l2 & H1 & H2 & -> & -> & ->).
  apply derives_cons_inv in H2 as (us3 & us4 & cs3 & cs4 & l3 & l4 & H2 & H3 & -> & -> & ->).
  apply derives_nil_inv in H3 as (-> & -> & ->). rewrite !app_nil_r in *.
  apply derives_sub_inv in H2 as (tr & H2 & ->).
  apply derives_opt_inv in H1 as [(-> & -> & ->)|H1].
  - cbn in Hg. injection Hg as ->. cbn [ann app]. by inversion H2.
  - exfalso. apply derives_cap_inv in H1 as (cs7 & l7 & H1 & ->).
    assert (∃ u, us1 = [u] ∧ cs7 = [] ∧ l7 = [value u] ∧ kind_of_token u ∈ signs) as (u & -> & -> & -> & Hu).
    { apply derives_alt_inv in H1 as (g & Hg' & H1). unfold signs.
      repeat (apply elem_of_cons in Hg' as [->|Hg']; [apply derives_tok_inv in H1 as (u & -> & -> & -> & Hu); exists u; rewrite Hu; split_and!; try done; set_solver|]).
      by apply elem_of_nil in Hg'. }
    apply Forall_app in Hr as [Hr _]. apply Forall_singleton in Hr as [Hr _].
    assert (value u = chars (op_text (kind_of_token u))) as Hv by (apply Hr, elem_of_app; by left).
    cbn in Hop. injection Hop as Hop. rewrite Hv in Hop. unfold signs in Hu. set_unfold in Hu.
    destruct_or! Hu; rewrite Hu in Hop; done.
Qed.

(*P C86_what_the_parser_builds *)
(** The parser builds the same trees: if nothing but the operand is set in an expression of a
    parsed file, it is what BuildTestExprTree makes of the operand. *)
Lemma p86_parser s r t c f :
  parse s = Ok (Some r) → t ∈ nodes r → operand_field (kind_of t) f = true →
  (get f t = Some (VPtr (Some c)) ∨ get f t = Some (VEmb c)) →
  (∀ f' x, f' ≠ f → get f' t = Some x → unset x) →
  BuildTestExprTree (ToNode (kind_of t)) (kind_of c, Some c) = Ok (kind_of t, Some t).
Proof.
  intros Hp Ht Ho Hg Hun. destruct (parse_built _ _ Hp) as (ts & st & Hl & Hb).
  assert (Hr : Forall regular (elide ts)) by exact (elide_regular _ (lexed_regular _ _ _ Hl)).
  pose proof (builds_good _ _ _ _ Hb) as [_ [Hty _]].
  assert (typed t = true) as Htt by (by eapply (proj1 typed_node)).
  assert (c ∈ nodes t) as Hc.
  { destruct Hg as [Hg|Hg]; eapply sub_node; try (by apply EtxParseTyped.assoc_elem in Hg); cbn; by left. }
  assert (typed c = true) as Htc by (by eapply (proj1 typed_node)).
  assert (consists_of t c) as Hcon.
  { split; [|by exists f].
    destruct (nodes_within _ _ _ _ _ Hb Ht) as [(pre & us & post & E & Hbt)|Hloose].
    - destruct (decide (kind_of t = KExprUnary)) as [Hk|Hk].
      + rewrite E in Hr. apply Forall_app in Hr as [_ [Hr _]%Forall_app].
        rewrite Hk in Hbt, Ho. cbn in Ho. apply bool_decide_eq_true in Ho as ->.
        assert (∃ x, get FOp t = Some x) as [x Hx].
        { destruct t as [a k fs]. cbn in Hk. subst k. destruct fs as [|[f' x] fs]; [done|]. pose proof (typed_names _ Htt) as Hn.
          cbn in Hn. injection Hn as -> _. by exists x. }
        eapply unary_first; [done|done| |].
        * destruct Hg as [Hg|Hg]; [|done]. exfalso.
          unfold get in Hg. apply EtxParseTyped.assoc_elem in Hg. destruct (EtxParseParts.typed_fields _ _ _ Htt Hg) as (ty & Hs & Hv).
          rewrite Hk in Hs. cbn in Hs. apply elem_of_cons in Hs as [Hs|Hs]; [done|]. apply elem_of_list_singleton in Hs. injection Hs as ->. done.
        * pose proof (Hun FOp x ltac:(done) Hx) as Hux. unfold get in Hx. pose proof Hx as Hx'. apply EtxParseTyped.assoc_elem in Hx'.
          destruct (EtxParseParts.typed_fields _ _ _ Htt Hx') as (ty & Hs & Hv). rewrite Hk in Hs. cbn in Hs.
          apply elem_of_cons in Hs as [[= ->]|Hs]; [|by apply elem_of_list_singleton in Hs].
          unfold get. rewrite Hx. destruct Hux; done.
      + by eapply operand_first.
    - exfalso. destruct Hloose as [Hk|[Hk|[->| ->]]]; [by rewrite Hk in Ho..| |done].
      cbn in Ho. apply bool_decide_eq_true in Ho as ->. by destruct Hg. }
  destruct (p86 _ _ (kind_of t) c Htc) as [(t' & Hw & Hk & Hu & Hbt)|[Hno _]].
  - rewrite Hbt. f_equal. f_equal. f_equal. symmetry. apply Hu; [|done]. eapply wraps_level; [constructor|done|done].
  - exfalso. eapply Hno; [|reflexivity]. eapply wraps_level; [constructor|done|done].
Qed.
