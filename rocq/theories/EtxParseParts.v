(** * The nodes of a parsed tree and the tokens they stand for *)
From stdpp Require Import base list option strings.
From Coq Require Import Ascii Lia.
From Verif Require Import GoBase EtxAst EtxHeap EtxHeapSpec EtxText EtxLex EtxUtil EtxGram EtxParse EtxParseBase
  EtxParseSpec EtxParseStore EtxParseTyped.

(** ** Structs that cannot be missing *)
Fixpoint must (f : fld) (g : gexp) : bool :=
  match g with
  | GLit _ | GTok _ | GOpt _ | GMany _ => false
  | GSub f' _ => bool_decide (f = f')
  | GCap _ g | GSome g => must f g
  | GSeq gs => existsb (must f) gs
  | GAlt gs => forallb (must f) gs
  end.
Lemma trees_of_app cs ds : trees_of (cs ++ ds) = trees_of cs ++ trees_of ds.
Proof. apply flat_map_app. Qed.
Lemma must_captured p g us cs l f : derives p g us cs l → must f g = true → trees_of (captures_of f cs) ≠ [].
Proof.
  intros H. revert p g us cs l H.
  enough ((∀ p g us cs l, derives p g us cs l → must f g = true → trees_of (captures_of f cs) ≠ []) ∧
    (∀ p k us t, builds p k us t → True)) by tauto.
  apply (derivation_ind (λ p g us cs l, must f g = true → trees_of (captures_of f cs) ≠ []) (λ p k us t, True)); try done.
  - intros p f' k us t _ _ ->%bool_decide_eq_true. rewrite captures_of_cons. by destruct (decide _).
  - intros p f' g us cs l _ IH H. rewrite captures_of_app, trees_of_app. intros [H1 H2]%app_nil. by apply IH.
  - intros p g gs us vs cs ds l m _ IH1 _ IH2 H. rewrite captures_of_app, trees_of_app. intros [H1 H2]%app_nil. cbn [must existsb] in H.
    apply orb_true_iff in H as [H|H]; [by apply IH1|by apply IH2].
  - intros p g gs us cs l Hg _ IH H. apply IH. cbn [must] in H. rewrite forallb_forall in H. by apply H, elem_of_list_In.
  - intros p g us vs cs ds l m _ IH1 _ IH2 H. rewrite captures_of_app, trees_of_app. intros [H1 H2]%app_nil. by apply IH1.
Qed.
(** ** Stretches of tokens *)
(** [within_tokens e us t]: [t] is built from a stretch of the tokens [us], which end at [e]. *)
Definition within_tokens (e : pos) (us : list token) (t : ast) : Prop :=
  ∃ pre vs post, us = pre ++ vs ++ post ∧ builds (first_pos e post) (kind_of t) vs t.
Lemma first_pos_app e us vs : first_pos e (us ++ vs) = first_pos (first_pos e vs) us.
Proof. by destruct us. Qed.
Lemma within_left e us vs t : within_tokens (first_pos e vs) us t → within_tokens e (us ++ vs) t.
Proof.
  intros (pre & ws & post & -> & H). exists pre, ws, (post ++ vs). split; [by rewrite !app_assoc|]. by rewrite first_pos_app.
Qed.
Lemma within_right e us vs t : within_tokens e vs t → within_tokens e (us ++ vs) t.
Proof.
  intros (pre & ws & post & -> & H). exists (us ++ pre), ws, post. split; [by rewrite !app_assoc|done].
Qed.
Lemma within_part e us pre vs post t :
  us = pre ++ vs ++ post → within_tokens (first_pos e post) vs t → within_tokens e us t.
Proof. intros -> H. by apply within_right, within_left. Qed.
Lemma builds_kind p k us t : builds p k us t → kind_of t = k.
Proof. by destruct 1. Qed.
Lemma captured_within p g us cs l f t : derives p g us cs l → (f, Struct t) ∈ cs → within_tokens p us t.
Proof.
  intros H. revert p g us cs l H f t.
  enough ((∀ p g us cs l, derives p g us cs l → ∀ f t, (f, Struct t) ∈ cs → within_tokens p us t) ∧
    (∀ p k us t, builds p k us t → True)) by tauto.
  apply (derivation_ind (λ p g us cs l, ∀ f t, (f, Struct t) ∈ cs → within_tokens p us t) (λ p k us t, True)); try done.
  - by intros p s t _ f t' ?%elem_of_nil.
  - by intros p s t _ f t' ?%elem_of_nil.
  - intros p f k us t H _ f' t' [= -> ->]%elem_of_list_singleton. exists [], us, []. rewrite app_nil_r.
    split; [done|]. by rewrite (builds_kind _ _ _ _ H).
  - intros p f g us cs l _ IH f' t [H|H]%elem_of_app; [by eapply IH|]. by apply elem_of_list_singleton in H.
  - by intros p f t ?%elem_of_nil.
  - intros p g gs us vs cs ds l m _ IH1 _ IH2 f t [H|H]%elem_of_app; [by eapply within_left, IH1|by eapply within_right, IH2].
  - by intros p g f t ?%elem_of_nil.
  - by intros p g f t ?%elem_of_nil.
  - intros p g us vs cs ds l m _ IH1 _ IH2 f t [H|H]%elem_of_app; [by eapply within_left, IH1|by eapply within_right, IH2].
  - intros p g us vs cs ds l m _ IH1 _ IH2 f t [H|H]%elem_of_app; [by eapply within_left, IH1|by eapply within_right, IH2].
Qed.

(** ** What is no stretch of tokens *)
Definition loose (t : ast) : Prop :=
  kind_of t = KValueBool ∨ kind_of t = KValueNumber ∨ t = zero no_pos KExpr ∨ t = zero no_pos KParameterType.
Lemma typed_fields (t : ast) f v :
  typed t = true → (f, v) ∈ fields t → ∃ ty, (f, ty) ∈ schema (kind_of t) ∧ typed_val ty v = true.
Proof.
  destruct t as [a k fs]. cbn [typed fields kind_of]. generalize (schema k). induction fs as [|[f' w] fs IH]; intros sc H Hf.
  - by apply elem_of_nil in Hf.
  - destruct sc as [|[f1 ty] sc]; [done|]. apply andb_true_iff in H as [H1 H2].
    apply andb_true_iff in H1 as [->%bool_decide_eq_true H1]. apply elem_of_cons in Hf as [[= -> ->]|Hf].
    + exists ty. split; [by left|done].
    + destruct (IH sc H2 Hf) as (ty' & H3 & H4). exists ty'. split; [by right|done].
Qed.
Lemma loose_subs t f v c : loose t → typed t = true → (f, v) ∈ fields t → c ∉ val_subs v.
Proof.
  intros Ht Hty H1. destruct Ht as [Hk|[Hk|Ht]].
  1-2: destruct (typed_fields _ _ _ Hty H1) as (ty & Hs & Hv); rewrite Hk in Hs; cbn [schema] in Hs;
    repeat (apply elem_of_cons in Hs as [[= -> ->]|Hs]; [destruct v; try done; apply not_elem_of_nil|]);
    by apply elem_of_nil in Hs.
  assert (forallb (λ q : fld * aval, match val_subs q.2 with [] => true | _ => false end) (fields t) = true) as H
    by (by destruct Ht as [->| ->]).
  rewrite forallb_forall in H. apply elem_of_list_In, H in H1. cbn [snd] in H1.
  destruct (val_subs v); [apply not_elem_of_nil|done].
Qed.
Lemma loose_nodes t m : loose t → typed t = true → m ∈ nodes t → m = t.
Proof. intros Ht Hty [->|(f & v & c & H1 & H2 & _)]%nodes_inv; [done|]. by apply (loose_subs _ _ _ c) in H1. Qed.
(** Two embedded structs can be missing: those of the comments and empty lines of enums and objects. *)
Lemma zero_embedded :
  forallb (λ k, forallb (λ q : fld * ftype, match q.2 with
    | TEmb KExpr => must q.1 (grammar k) || bool_decide (k = KTypeEnumItem ∧ q.1 = FValue)
    | TEmb KParameterType => must q.1 (grammar k) || bool_decide (k = KTypeObjectItem ∧ q.1 = FType)
    | TEmb _ => must q.1 (grammar k)
    | TFloat => bool_decide (k = KValueNumber)
    | _ => true end) (schema k)) all_kinds = true.
Proof. vm_compute. reflexivity. Qed.
Lemma field_subs_within p k us cs l f ty v c :
  derives p (grammar k) us cs l → (f, ty) ∈ schema k → field_value k f ty cs = Some v → c ∈ val_subs v →
  within_tokens p us c ∨ loose c.
Proof.
  intros Hd Hty Hv Hc.
  assert (Hnum : k ≠ KValueNumber).
  { intros ->. cbn in Hd. apply derives_alt_inv in Hd as (g & Hg & _). by apply elem_of_nil in Hg. }
  assert (Hplain : plain_value k f ty (captures_of f cs) = Some v → within_tokens p us c ∨ loose c).
  { intros H. assert (Hk : ∀ t, t ∈ trees_of (captures_of f cs) → within_tokens p us t).
    { intros t Ht%trees_of_elem%captures_of_elem. by eapply captured_within. }
    assert (Hl : ∀ cs t, last (trees_of cs) = Some t → t ∈ trees_of cs) by (intros; by apply last_elem).
    destruct ty; cbn [plain_value] in H.
    1-3: injection H as <-; by apply elem_of_nil in Hc.
    - exfalso. pose proof (for_all_kinds _ zero_embedded k) as Hz. cbn beta in Hz. rewrite forallb_forall in Hz.
      apply elem_of_list_In, Hz in Hty. cbn in Hty. by apply bool_decide_eq_true in Hty.
    - injection H as <-. destruct (last _) as [t|] eqn:E; [|by apply elem_of_nil in Hc].
      apply elem_of_list_singleton in Hc as ->. left. by apply Hk, Hl.
    - destruct (last _) as [t|] eqn:E.
      + injection H as <-. apply elem_of_list_singleton in Hc as ->. left. by apply Hk, Hl.
      + right.
        assert (must f (grammar k) = true → False) as Hm.
        { intros Hm. pose proof (must_captured _ _ _ _ _ _ Hd Hm) as Hne.
          destruct (trees_of (captures_of f cs)) as [|x tl] eqn:E'; [done|].
          apply last_None in E. done. }
        pose proof (for_all_kinds _ zero_embedded k) as Hz. cbn beta in Hz. rewrite forallb_forall in Hz.
        apply elem_of_list_In, Hz in Hty. cbn [fst snd] in Hty. destruct k0; try (by destruct (Hm Hty)).
        * apply orb_true_iff in Hty as [Hty|[-> ->]%bool_decide_eq_true]; [by destruct (Hm Hty)|].
          injection H as <-. apply elem_of_list_singleton in Hc as ->. right. right. by right.
        * apply orb_true_iff in Hty as [Hty|[-> ->]%bool_decide_eq_true]; [by destruct (Hm Hty)|].
          injection H as <-. apply elem_of_list_singleton in Hc as ->. right. right. by left.
    - injection H as <-. destruct (decide _); [by apply elem_of_nil in Hc|]. cbn in Hc. left.
      apply elem_of_list_omap in Hc as (o & Ho & E). unfold id in E. subst o. apply elem_of_list_fmap in Ho as (t & [= ->] & Ht). by apply Hk. }
  destruct (special_kind k) eqn:Hs.
  - destruct k; try done.
    + destruct f; try (by apply Hplain).
      * cbn [field_value] in Hv.
        destruct (captures_of FBool cs) as [|[[|w [|? ?]]|t] [|? ?]]; try done; injection Hv as <-; [by apply elem_of_nil in Hc|].
        apply elem_of_list_singleton in Hc as ->. right. by left.
      * cbn [field_value] in Hv.
        destruct (captures_of FNumber cs) as [|[[|w [|? ?]]|t] [|? ?]]; try done; [injection Hv as <-; by apply elem_of_nil in Hc|].
        destruct (capture_number w); [|done]. injection Hv as <-. apply elem_of_list_singleton in Hc as ->. right. right. by left.
    + destruct f; try (by apply Hplain).
      * cbn [field_value] in Hv.
        destruct (captures_of FDelimiter cs) as [|[[|w [|? ?]]|t] [|? ?]]; try done.
        destruct (capture_delimiter w); [|done]. injection Hv as <-. by apply elem_of_nil in Hc.
      * cbn [field_value] in Hv.
        destruct (captures_of FDelimiter cs) as [|[[|w [|? ?]]|t] [|? ?]]; try done.
        destruct (capture_delimiter w); [|done]. injection Hv as <-. by apply elem_of_nil in Hc.
  - rewrite field_value_plain in Hv by done. by apply Hplain.
Qed.
(** Every node of a tree that is built from tokens is built from a stretch of them, except
    for the two structs that are captured and the two that can be missing. *)
Lemma nodes_within p k us t m : builds p k us t → m ∈ nodes t → within_tokens p us m ∨ loose m.
Proof.
  intros H. revert m. pose proof (builds_kind _ _ _ _ H) as Hk0.
  assert (Hsize : ∃ n, (length (nodes t) <= n)%nat) by eauto. destruct Hsize as [n Hn].
  revert p k us t H Hk0 Hn. induction n as [|n IH]; intros p k us t H Hk0 Hn m Hm; [destruct t; cbn in Hn; lia|].
  apply nodes_inv in Hm as [->|(f & v & c & H1 & H2 & H3)].
  { left. exists [], us, []. rewrite app_nil_r. split; [done|]. by rewrite Hk0. }
  pose proof (builds_good _ _ _ _ H) as [_ [Hty _]].
  destruct H as [p k us cs l fs Hd [Hf1 Hf2]]. cbn [fields] in H1.
  assert (∃ ty, (f, ty) ∈ schema k) as [ty Hty'].
  { assert (f ∈ map fst fs) as Hm by (apply elem_of_list_fmap; by exists (f, v)).
    rewrite Hf1 in Hm. apply elem_of_list_fmap in Hm as ([f' ty] & -> & ?). by exists ty. }
  destruct (Hf2 f ty Hty') as [_ Hv]. assert (assoc f fs = Some v) as Ha.
  { pose proof (schema_nodup k) as Hnd. rewrite <- Hf1 in Hnd. clear -H1 Hnd. induction fs as [|[f' w] fs IH]; [by apply elem_of_nil in H1|].
    cbn [map fst] in Hnd. apply NoDup_cons in Hnd as [Hn1 Hn2]. cbn. apply elem_of_cons in H1 as [[= -> ->]|H1].
    - by rewrite decide_True.
    - rewrite decide_False; [by apply IH|]. intros ->. destruct Hn1. apply elem_of_list_fmap. by exists (f', v). }
  rewrite Ha in Hv. symmetry in Hv.
  assert (Hc : (length (nodes c) <= n)%nat ∧ typed c = true).
  { split.
    - assert (length (nodes c) <= length (nodes_val v))%nat as Hle.
      { destruct v as [| | | |[x|]|x|[[b xs]|]]; try (by apply elem_of_nil in H2); cbn [val_subs] in H2.
        - by apply elem_of_list_singleton in H2 as ->.
        - by apply elem_of_list_singleton in H2 as ->.
        - apply elem_of_list_omap in H2 as (o & Ho & E). unfold id in E. subst o. cbn [nodes_val]. clear -Ho.
          induction xs as [|x xs IH]; [by apply elem_of_nil in Ho|]. cbn [flat_map]. rewrite app_length.
          apply elem_of_cons in Ho as [<-|Ho]; [lia|]. specialize (IH Ho). lia. }
      cbn [nodes length] in Hn.
      assert (length (nodes_val v) <= length (flat_map (λ q : fld * aval, nodes_val q.2) fs))%nat; [|lia].
      clear -H1. induction fs as [|[f' w] fs IH]; [by apply elem_of_nil in H1|]. cbn [flat_map snd]. rewrite app_length.
      apply elem_of_cons in H1 as [[= -> ->]|H1]; [lia|]. specialize (IH H1). lia.
    - assert (Hg : ∀ p k us t, builds p k us t → kind_of t = k ∧ good t) by apply builds_good.
      destruct (builds_ind3 good) as [_ Hca]; [|apply Hca in Hd; by destruct (field_subs_good _ _ _ _ _ _ Hd Hv H2)].
      intros p' k' us' cs' l' fs' Hd' Hf' _. by destruct (Hg _ _ _ _ (b_struct _ _ _ _ _ _ Hd' Hf')). }
  destruct Hc as [Hc1 Hc2].
  destruct (field_subs_within _ _ _ _ _ _ _ _ _ Hd Hty' Hv H2) as [(pre & vs & post & Hus & Hb)|Hl].
  - destruct (IH _ _ _ _ Hb eq_refl Hc1 _ H3) as [Hw|]; [|by right]. left. by apply (within_part _ _ _ _ _ _ Hus).
  - apply loose_nodes in H3 as ->; [by right|done|done].
Qed.
