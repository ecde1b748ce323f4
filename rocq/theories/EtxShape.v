(** * Which fields of a parsed struct are set *)
From stdpp Require Import base list option strings.
From Coq Require Import Ascii Lia.
From Verif Require Import GoBase EtxAst EtxHeap EtxHeapSpec EtxText EtxTextFacts EtxLex EtxUtil EtxGram EtxParse EtxParseBase
  EtxParseSpec EtxParseStore EtxParseTyped EtxParseParts.

(** ** The sets of fields a struct can capture *)
Definition mem (f : fld) (F : list fld) : bool := existsb (λ f', bool_decide (f = f')) F.
Lemma mem_spec f F : mem f F = true ↔ f ∈ F.
Proof.
  unfold mem. rewrite existsb_exists. split.
  - intros (f' & H & ->%bool_decide_eq_true). by apply elem_of_list_In.
  - intros H. exists f. split; [by apply elem_of_list_In|by apply bool_decide_eq_true].
Qed.
Definition both (l m : list (list fld)) : list (list fld) := flat_map (λ F, map (app F) m) l.
Fixpoint unions (l : list (list fld)) : list (list fld) :=
  match l with [] => [[]] | F :: l => unions l ++ map (app F) (unions l) end.
Fixpoint presence (g : gexp) : list (list fld) :=
  match g with
  | GLit _ | GTok _ => [[]]
  | GSub f _ => [[f]]
  | GCap f g => both (presence g) [[f]]
  | GSeq gs => (fix go gs := match gs with [] => [[]] | g :: gs => both (presence g) (go gs) end) gs
  | GAlt gs => flat_map presence gs
  | GOpt g => [] :: presence g
  | GMany g => unions (presence g)
  | GSome g => both (presence g) (unions (presence g))
  end.
Lemma elem_of_both F l m : F ∈ both l m ↔ ∃ A B, A ∈ l ∧ B ∈ m ∧ F = A ++ B.
Proof.
  unfold both. rewrite elem_of_list_In, in_flat_map. split.
  - intros (A & H1 & (B & <- & H2)%in_map_iff). exists A, B. by rewrite !elem_of_list_In.
  - intros (A & B & H1 & H2 & ->). exists A. rewrite <- elem_of_list_In. split; [done|]. apply in_map_iff. exists B.
    by rewrite <- elem_of_list_In.
Qed.
Lemma unions_nil l : [] ∈ unions l.
Proof. induction l as [|F l IH]; [by left|]. cbn. apply elem_of_app. by left. Qed.
Lemma unions_closed l A B : A ∈ l → B ∈ unions l → ∃ C, C ∈ unions l ∧ ∀ f, f ∈ C ↔ f ∈ A ∨ f ∈ B.
Proof.
  revert A B. induction l as [|F l IH]; intros A B HA HB; [by apply elem_of_nil in HA|].
  cbn [unions] in HB |- *. setoid_rewrite elem_of_app. setoid_rewrite elem_of_list_fmap.
  apply elem_of_app in HB as [HB|(B' & -> & HB)%elem_of_list_fmap]; apply elem_of_cons in HA as [->|HA].
  - exists (F ++ B). split; [right; by exists B|]. intros f. by rewrite elem_of_app.
  - destruct (IH A B HA HB) as (C & H1 & H2). exists C. split; [by left|done].
  - exists (F ++ B'). split; [right; by exists B'|]. intros f. rewrite elem_of_app. tauto.
  - destruct (IH A B' HA HB) as (C & H1 & H2). exists (F ++ C). split; [right; by exists C|].
    intros f. rewrite !elem_of_app, H2. tauto.
Qed.
Definition captured_in (cs : list capture) (F : list fld) : Prop := ∀ f, f ∈ F ↔ captures_of f cs ≠ [].
Lemma captured_app cs ds A B : captured_in cs A → captured_in ds B → captured_in (cs ++ ds) (A ++ B).
Proof.
  intros H1 H2 f. rewrite elem_of_app, (H1 f), (H2 f), captures_of_app.
  destruct (captures_of f cs), (captures_of f ds); cbn; naive_solver.
Qed.
Lemma captured_single f c : captured_in [(f, c)] [f].
Proof.
  intros f'. rewrite elem_of_list_singleton, captures_of_cons. destruct (decide _) as [->|]; [done|].
  split; [by intros ->|done].
Qed.
Lemma captured_nil : captured_in [] [].
Proof. intros f. rewrite elem_of_nil. done. Qed.
Lemma presence_captured p g us cs l : derives p g us cs l → ∃ F, F ∈ presence g ∧ captured_in cs F.
Proof.
  intros H. revert p g us cs l H.
  enough ((∀ p g us cs l, derives p g us cs l → ∃ F, F ∈ presence g ∧ captured_in cs F) ∧
    (∀ p k us t, builds p k us t → True)) by tauto.
  apply (derivation_ind (λ p g us cs l, ∃ F, F ∈ presence g ∧ captured_in cs F) (λ p k us t, True)); try done.
  - intros. exists []. split; [by left|apply captured_nil].
  - intros. exists []. split; [by left|apply captured_nil].
  - intros p f k us t _ _. exists [f]. split; [by left|apply captured_single].
  - intros p f g us cs l _ (F & H1 & H2). exists (F ++ [f]). split; [|by apply captured_app, captured_single].
    cbn [presence]. apply elem_of_both. exists F, [f]. split_and!; [done|by left|done].
  - intros p. exists []. split; [by left|apply captured_nil].
  - intros p g gs us vs cs ds l m _ (A & H1 & H2) _ (B & H3 & H4). exists (A ++ B). split; [|by apply captured_app].
    cbn [presence]. apply elem_of_both. by exists A, B.
  - intros p g gs us cs l Hg _ (F & H1 & H2). exists F. split; [|done]. cbn [presence]. by eapply elem_of_flat_map.
  - intros p g. exists []. split; [by left|apply captured_nil].
  - intros p g us cs l _ (F & H1 & H2). exists F. split; [by right|done].
  - intros p g. exists []. split; [apply unions_nil|apply captured_nil].
  - intros p g us vs cs ds l m _ (A & H1 & H2) _ (B & H3 & H4). cbn [presence] in *.
    destruct (unions_closed _ A B H1 H3) as (C & H5 & H6). exists C. split; [done|]. intros f.
    rewrite H6, <- elem_of_app. by apply captured_app.
  - intros p g us vs cs ds l m _ (A & H1 & H2) _ (B & H3 & H4). exists (A ++ B). split; [|by apply captured_app].
    cbn [presence]. apply elem_of_both. by exists A, B.
Qed.

(** ** Captured texts are not empty *)
Fixpoint solid (g : gexp) : bool :=
  match g with
  | GLit _ | GTok _ => true
  | GSub _ _ | GCap _ _ | GOpt _ | GMany _ => false
  | GSeq gs => existsb solid gs
  | GAlt gs => forallb solid gs
  | GSome g => solid g
  end.
Fixpoint solid_caps (g : gexp) : bool :=
  match g with
  | GLit _ | GTok _ | GSub _ _ => true
  | GCap _ g => solid g && solid_caps g
  | GSeq gs | GAlt gs => forallb solid_caps gs
  | GOpt g | GMany g | GSome g => solid_caps g
  end.
Lemma concat_ne_l (l m : list text) : concat l ≠ [] → concat (l ++ m) ≠ [].
Proof. intros H. rewrite concat_app. by intros [? _]%app_nil. Qed.
Lemma concat_ne_r (l m : list text) : concat m ≠ [] → concat (l ++ m) ≠ [].
Proof. intros H. rewrite concat_app. by intros [_ ?]%app_nil. Qed.
Lemma solid_texts p g us cs l :
  derives p g us cs l → Forall (λ u, value u ≠ []) us → solid g = true → concat l ≠ [].
Proof.
  intros H. revert p g us cs l H.
  enough ((∀ p g us cs l, derives p g us cs l → Forall (λ u, value u ≠ []) us → solid g = true → concat l ≠ []) ∧
    (∀ p k us t, builds p k us t → True)) by tauto.
  apply (derivation_ind (λ p g us cs l, Forall (λ u, value u ≠ []) us → solid g = true → concat l ≠ []) (λ p k us t, True)); try done.
  - intros p s t _ [H _]%Forall_cons _. cbn. by rewrite app_nil_r.
  - intros p s t _ [H _]%Forall_cons _. cbn. by rewrite app_nil_r.
  - intros p g gs us vs cs ds l m _ IH1 _ IH2 [H1 H2]%Forall_app H. cbn [solid existsb] in H.
    apply orb_true_iff in H as [H|H]; [by apply concat_ne_l, IH1|by apply concat_ne_r, IH2].
  - intros p g gs us cs l Hg _ IH Hu H. apply IH; [done|]. cbn [solid] in H. rewrite forallb_forall in H.
    by apply H, elem_of_list_In.
  - intros p g us vs cs ds l m _ IH1 _ IH2 [H1 H2]%Forall_app H. by apply concat_ne_l, IH1.
Qed.
Lemma caps_texts p g us cs l f ls :
  derives p g us cs l → Forall (λ u, value u ≠ []) us → solid_caps g = true → (f, Texts ls) ∈ cs → concat ls ≠ [].
Proof.
  intros H. revert p g us cs l H f ls.
  enough ((∀ p g us cs l, derives p g us cs l → ∀ f ls, Forall (λ u, value u ≠ []) us → solid_caps g = true → (f, Texts ls) ∈ cs → concat ls ≠ []) ∧
    (∀ p k us t, builds p k us t → True)) by tauto.
  apply (derivation_ind (λ p g us cs l, ∀ f ls, Forall (λ u, value u ≠ []) us → solid_caps g = true → (f, Texts ls) ∈ cs → concat ls ≠ []) (λ p k us t, True)).
  - by intros p s t _ f ls _ _ ?%elem_of_nil.
  - by intros p s t _ f ls _ _ ?%elem_of_nil.
  - by intros p f k us t _ _ f' ls _ _ ?%elem_of_list_singleton.
  - intros p f g us cs l Hd IH f' ls Hu [H1 H2]%andb_true_iff [H|[= -> ->]%elem_of_list_singleton]%elem_of_app.
    + by eapply IH.
    + by eapply solid_texts.
  - by intros p f ls _ _ ?%elem_of_nil.
  - intros p g gs us vs cs ds l m _ IH1 _ IH2 f ls [H1 H2]%Forall_app [H3 H4]%andb_true_iff [H|H]%elem_of_app;
      [by eapply IH1|by eapply IH2].
  - intros p g gs us cs l Hg _ IH f ls Hu H Hf. eapply IH; [done| |done]. cbn [solid_caps] in H. rewrite forallb_forall in H.
    by apply H, elem_of_list_In.
  - by intros p g f ls _ _ ?%elem_of_nil.
  - done.
  - by intros p g f ls _ _ ?%elem_of_nil.
  - intros p g us vs cs ds l m _ IH1 _ IH2 f ls [H1 H2]%Forall_app Hs [H|H]%elem_of_app; [by eapply IH1|by eapply IH2].
  - intros p g us vs cs ds l m _ IH1 _ IH2 f ls [H1 H2]%Forall_app Hs [H|H]%elem_of_app; [by eapply IH1|by eapply IH2].
  - done.
Qed.
Lemma grammar_solid k : solid_caps (grammar k) = true.
Proof. assert (H : forallb (λ k, solid_caps (grammar k)) all_kinds = true) by (vm_compute; reflexivity). exact (for_all_kinds _ H k). Qed.

Lemma chars_str (s : text) : chars (str s) = s.
Proof. apply list_ascii_of_string_of_list_ascii. Qed.

(** ** Shapes *)
(** A node that was parsed from tokens with text, or captured from one. *)
Definition built (c : ast) : Prop := ∃ p us, builds p (kind_of c) us c ∧ Forall (λ u, value u ≠ []) us.
Definition sound (c : ast) : Prop :=
  built c ∨ kind_of c = KValueBool ∨
  kind_of c = KValueNumber ∧ ∃ s, fields c = [(FValue, VFloat (Some (tt, s))); (FSource, VStr s)].
(** The value of a field that is captured or not. *)
Definition shaped_val (f : fld) (ty : ftype) (b : bool) (v : aval) : Prop :=
  match ty with
  | TStr => ∃ s, v = VStr s ∧ if b then chars s ≠ [] else chars s = []
  | TBool => if bool_decide (f = FLeadingTabs) then ∃ c, v = VBool c else v = VBool b
  | TStrs => ∃ o, v = VStrs o
  | TFloat => False
  | TPtr _ => if b then ∃ c, v = VPtr (Some c) ∧ sound c else v = VPtr None
  | TEmb k => ∃ c, v = VEmb c ∧ if b then sound c else c = T no_pos k (zero_fields no_pos 15 k)
  | TList _ => if b then ∃ l, v = VList (Some (tt, map Some l)) ∧ l ≠ [] ∧ Forall sound l else v = VList None
  end.
Fixpoint shaped_fields (F : list fld) (sc : list (fld * ftype)) (fs : list (fld * aval)) : Prop :=
  match sc, fs with
  | [], [] => True
  | (f, ty) :: sc, (f', v) :: fs => f' = f ∧ shaped_val f ty (mem f F) v ∧ shaped_fields F sc fs
  | _, _ => False
  end.
(** Each set once, in the order of the fields. *)
Definition ordered (k : kind) (F : list fld) : list fld := filter (λ f, mem f F = true) (map fst (schema k)).
Definition profiles (k : kind) : list (list fld) := remove_dups (map (ordered k) (presence (grammar k))).
Definition shaped (t : ast) : Prop :=
  ∃ F, F ∈ profiles (kind_of t) ∧ shaped_fields F (schema (kind_of t)) (fields t).

Lemma ordered_mem k F f ty : (f, ty) ∈ schema k → mem f (ordered k F) = mem f F.
Proof.
  intros H. apply eq_iff_eq_true. unfold ordered. rewrite (mem_spec f (filter _ _)), elem_of_list_filter. split; [tauto|].
  intros Hm. split; [done|]. apply elem_of_list_fmap. by exists (f, ty).
Qed.
Lemma texts_of_concat cs ls : Texts ls ∈ cs → concat ls ≠ [] → concat (texts_of cs) ≠ [].
Proof.
  intros H Hl. induction cs as [|c cs IH]; [by apply elem_of_nil in H|]. cbn [texts_of flat_map]. fold (texts_of cs).
  apply elem_of_cons in H as [<-|H]; [by apply concat_ne_l|by apply concat_ne_r, IH].
Qed.
Lemma zero_emb k f ty :
  (f, ty) ∈ schema k → match ty with
  | TEmb k' => assoc f (fields (zero no_pos k) : list (fld * aval)) = Some (VEmb (T no_pos k' (zero_fields no_pos 15 k')))
  | _ => True end.
Proof.
  intros H. destruct k; cbn [schema binary] in H;
    repeat (apply elem_of_cons in H as [[= -> ->]|H]; [try exact I; reflexivity|]); by apply elem_of_nil in H.
Qed.
Lemma no_floats k f : (f, TFloat) ∈ schema k → k = KValueNumber.
Proof.
  intros H. destruct k; cbn [schema binary] in H; try done;
    repeat (apply elem_of_cons in H as [[=]|H]); by apply elem_of_nil in H.
Qed.
Lemma heredoc_fields k f : (f, TBool) ∈ schema k → f = FLeadingTabs → k = KHeredoc.
Proof.
  intros H ->. destruct k; cbn [schema binary] in H; try done;
    repeat (apply elem_of_cons in H as [[=]|H]); by apply elem_of_nil in H.
Qed.

Lemma field_shaped p k us cs l F f ty v :
  derives p (grammar k) us cs l → Forall (λ u, value u ≠ []) us → captured_in cs F →
  (f, ty) ∈ schema k → field_value k f ty cs = Some v → shaped_val f ty (mem f F) v.
Proof.
  intros Hd Hu HS Hty Hv.
  assert (Hcap : Forall (cap_ok (λ _, True) (grammar k)) cs).
  { destruct (builds_ind3 (λ _, True)) as [_ H]; [done|]. by eapply H. }
  assert (Hb : mem f F = bool_decide (captures_of f cs ≠ [])).
  { apply eq_iff_eq_true. rewrite mem_spec, bool_decide_eq_true. apply HS. }
  rewrite Hb. clear HS Hb F.
  assert (Hnum : k ≠ KValueNumber).
  { intros ->. cbn in Hd. apply derives_alt_inv in Hd as (g & Hg & _). by apply elem_of_nil in Hg. }
  assert (Hstruct : ∀ c, c ∈ captures_of f cs → match c with
    | Struct t => ∃ k', ty = TPtr k' ∨ ty = TEmb k' ∨ ty = TList k'
    | Texts ls => concat ls ≠ [] ∧ (ty = TStr ∨ ty = TBool ∨ ty = TStrs ∨ k = KValue ∧ ∃ k', ty = TPtr k') end).
  { intros c Hc%captures_of_elem. rewrite Forall_forall in Hcap. pose proof (Hcap _ Hc) as H. destruct c as [ls|t]; cbn in H.
    - split; [by eapply caps_texts; [..|apply grammar_solid|]|]. by eapply cap_type.
    - destruct H as [H _]. exists (kind_of t). by eapply sub_type. }
  assert (Htrees : ∀ k', ty = TEmb k' ∨ ty = TList k' ∨ ty = TPtr k' ∧ k ≠ KValue → captures_of f cs = map Struct (trees_of (captures_of f cs))).
  { intros k' Hk'. assert (∀ c, c ∈ captures_of f cs → ∃ t, c = Struct t) as H.
    { intros [ls|t] Hc; [|by eexists]. destruct (Hstruct _ Hc) as [_ H].
      exfalso. destruct Hk' as [->|[->|[-> ?]]], H as [|[|[|[? [? ?]]]]]; done. }
    clear -H. induction (captures_of f cs) as [|c l IH]; [done|].
    destruct (H c) as [t ->]; [by left|]. cbn. f_equal. apply IH. intros c Hc. apply H. by right. }
  assert (Hsound : ∀ t, t ∈ trees_of (captures_of f cs) → sound t).
  { intros t Ht%trees_of_elem%captures_of_elem. left. destruct (captured_within _ _ _ _ _ _ _ Hd Ht) as (pre & vs & post & -> & Hb).
    eexists _, vs. split; [done|]. by apply Forall_app in Hu as [_ [Hu _]%Forall_app]. }
  assert (Hlast : ∀ t, last (trees_of (captures_of f cs)) = Some t → sound t) by (intros t Ht; by apply Hsound, last_elem).
  assert (Hplain : plain_value k f ty (captures_of f cs) = Some v → (ty = TBool → f ≠ FLeadingTabs) → (∀ k', ty = TPtr k' → f ∉ [FBool; FNumber] ∨ k ≠ KValue) →
    shaped_val f ty (bool_decide (captures_of f cs ≠ [])) v).
  { intros H Hf1 Hf2. destruct ty; cbn [plain_value shaped_val] in *.
    - injection H as <-. eexists. split; [done|]. rewrite chars_str.
      destruct (captures_of f cs) as [|c cs'] eqn:E; [done|].
      rewrite bool_decide_true by done. destruct c as [ls|t].
      + eapply (texts_of_concat _ ls); [by left|]. apply (Hstruct (Texts ls)). by left.
      + destruct (Hstruct (Struct t)) as [k' [|[|]]]; [by left|done..].
    - injection H as <-. rewrite bool_decide_false by (intros ->; by apply Hf1). done.
    - injection H as <-. by eexists.
    - by apply no_floats in Hty.
    - injection H as <-. destruct (decide (k = KValue)) as [->|Hk].
      + destruct (captures_of f cs) as [|c cs'] eqn:E; [done|]. rewrite bool_decide_true by done.
        assert (∀ c, c ∈ captures_of f cs → ∃ t, c = Struct t) as H.
        { intros [ls|t] Hc; [|by eexists]. apply captures_of_elem in Hc. rewrite Forall_forall in Hcap.
          pose proof (Hcap _ Hc) as H. cbn in H. destruct (Hf2 k0 eq_refl) as [Hf|]; [|done]. exfalso.
          assert (f ∈ [FNull; FBool; FNumber]) as H' by exact H. apply elem_of_cons in H' as [->|H']; [|done].
          repeat (apply elem_of_cons in Hty as [[=]|Hty]). by apply elem_of_nil in Hty. }
        rewrite E in H. destruct (last (trees_of (c :: cs'))) as [t|] eqn:El; [exists t; split; [done|by apply Hlast]|].
        destruct (H c) as [t ->]; [by left|]. apply last_None in El. done.
      + destruct (last (trees_of (captures_of f cs))) as [x|] eqn:El.
        * rewrite bool_decide_true by (intros Hn; by rewrite Hn in El). exists x. split; [done|by apply Hlast].
        * apply last_None in El. rewrite (Htrees k0), El by auto. done.
    - destruct (last _) as [t|] eqn:E.
      + injection H as <-. exists t. split; [done|].
        rewrite bool_decide_true by (intros Hn; by rewrite Hn in E). by apply Hlast.
      + pose proof (zero_emb _ _ _ Hty) as Hz. cbn beta iota in Hz. rewrite Hz in H. injection H as <-.
        eexists. split; [done|]. apply last_None in E. rewrite (Htrees k0), E by auto. done.
    - injection H as <-. pose proof (Htrees k0) as Ht. destruct (captures_of f cs) as [|c cs'] eqn:E; [done|].
      rewrite decide_False, bool_decide_true by done. exists (trees_of (c :: cs')). split_and!; [done| |by apply Forall_forall].
      intros Hn. rewrite Hn in Ht. discriminate Ht. auto. }
  destruct (special_kind k) eqn:Hs.
  - destruct k; try done.
    + destruct (decide (f = FBool)) as [->|Hf1]; [|destruct (decide (f = FNumber)) as [->|Hf2]].
      * cbn [field_value] in Hv. assert (ty = TPtr KValueBool) as -> by (apply (nodup_schema KValue FBool); [done|vm_compute; repeat constructor]).
        destruct (captures_of FBool cs) as [|[[|w [|? ?]]|t] [|? ?]]; try done; injection Hv as <-; [done|]. eexists. split; [done|]. right. by left.
      * cbn [field_value] in Hv. assert (ty = TPtr KValueNumber) as -> by (apply (nodup_schema KValue FNumber); [done|vm_compute; repeat constructor]).
        destruct (captures_of FNumber cs) as [|[[|w [|? ?]]|t] [|? ?]]; try done; [by injection Hv as <-|].
        destruct (capture_number w); [|done]. injection Hv as <-. eexists. split; [done|]. right. right. split; [done|]. by eexists.
      * assert (field_value KValue f ty cs = plain_value KValue f ty (captures_of f cs)) as E by (by destruct f).
        rewrite E in Hv. apply Hplain; [done| |].
        -- intros -> ->. by pose proof (heredoc_fields _ _ Hty eq_refl).
        -- intros k' _. left. intros H. repeat (apply elem_of_cons in H as [->|H]; [done|]). by apply elem_of_nil in H.
    + destruct (decide (f = FLeadingTabs)) as [->|Hf1]; [|destruct (decide (f = FDelimiter)) as [->|Hf2]].
      * cbn [field_value] in Hv. assert (ty = TBool) as -> by (apply (nodup_schema KHeredoc FLeadingTabs); [done|vm_compute; repeat constructor]).
        destruct (captures_of FDelimiter cs) as [|[[|w [|? ?]]|t] [|? ?]]; try done.
        destruct (capture_delimiter w); [|done]. injection Hv as <-. by eexists.
      * cbn [field_value] in Hv. assert (ty = TStr) as -> by (apply (nodup_schema KHeredoc FDelimiter); [done|vm_compute; repeat constructor]).
        destruct (captures_of FDelimiter cs) as [|[[|w [|? ?]]|t] [|? ?]]; try done.
        destruct (capture_delimiter w) as [[b u]|] eqn:E; [|done]. injection Hv as <-. eexists. split; [done|].
        rewrite bool_decide_true by done. rewrite chars_str. cbn. unfold capture_delimiter in E.
        destruct w as [|c1 [|c2 w]]; try done. destruct (_ && _); [|done].
        destruct (match w with [] => _ | _ => _ end) as [d w']. destruct (word_prefix w') as [u' r].
        destruct (bool_decide (u' ≠ []) && _) eqn:Eb; [|done]. injection E as <- <-.
        apply andb_true_iff in Eb as [Eb _]. by apply bool_decide_eq_true in Eb.
      * assert (field_value KHeredoc f ty cs = plain_value KHeredoc f ty (captures_of f cs)) as E by (by destruct f).
        rewrite E in Hv. apply Hplain; [done|done|]. intros; by right.
  - rewrite field_value_plain in Hv by done. apply Hplain; [done| |].
    + intros -> ->. by pose proof (heredoc_fields _ _ Hty eq_refl) as ->.
    + intros k' _. right. by intros ->.
Qed.
Lemma built_kind p k us t : builds p k us t → Forall (λ u, value u ≠ []) us → built t.
Proof. intros H Hu. exists p, us. by rewrite (builds_kind _ _ _ _ H). Qed.
Lemma builds_shaped p k us t : builds p k us t → Forall (λ u, value u ≠ []) us → shaped t.
Proof.
  intros [p' k' us' cs l fs Hd [Hf1 Hf2]] Hu. destruct (presence_captured _ _ _ _ _ Hd) as (F & HS1 & HS2).
  exists (ordered k' F). cbn [kind_of fields]. split; [apply elem_of_remove_dups, elem_of_list_fmap; by exists F|].
  assert (Hall : ∀ f ty, (f, ty) ∈ schema k' → ∃ v, assoc f fs = Some v ∧ shaped_val f ty (mem f (ordered k' F)) v).
  { intros f ty Hty. destruct (Hf2 f ty Hty) as [[v Hv] E]. exists v. rewrite E. split; [done|].
    rewrite (ordered_mem k' F f ty) by done. by eapply field_shaped. }
  clear -Hf1 Hall. revert Hall. generalize (ordered k' F). clear F. intros F Hall. pose proof (schema_nodup k') as Hnd. revert fs Hf1 Hall Hnd. generalize (schema k').
  intros sc. induction sc as [|[f ty] sc IH]; intros [|[f' v] fs] Hf1 Hall Hnd; try done.
  cbn [map fst] in Hf1, Hnd. injection Hf1 as -> Hf1. apply NoDup_cons in Hnd as [Hn Hnd]. cbn [shaped_fields]. split; [done|].
  split.
  - destruct (Hall f ty) as (w & Hw & Hs); [by left|]. cbn in Hw. rewrite decide_True in Hw by done. by injection Hw as <-.
  - apply IH; [done| |done]. intros f' ty' H'. destruct (Hall f' ty') as (w & Hw & Hs); [by right|].
    cbn in Hw. rewrite decide_False in Hw; [by exists w|]. intros ->. destruct Hn. apply elem_of_list_fmap. by exists (f, ty').
Qed.
Lemma built_shaped t : built t → shaped t.
Proof. intros (p & us & H & Hu). by eapply builds_shaped. Qed.
