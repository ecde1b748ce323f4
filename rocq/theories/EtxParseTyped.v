(** * The trees of derivations are typed and well formed *)
From stdpp Require Import base list option strings.
From Coq Require Import Ascii Lia.
From Verif Require Import GoBase EtxAst EtxHeap EtxHeapSpec EtxText EtxLex EtxUtil EtxGram EtxParse EtxParseBase
  EtxParseSpec EtxParseStore.

(** The structs and the texts an expression captures. *)
Fixpoint gsubs (g : gexp) : list (fld * kind) :=
  match g with
  | GLit _ | GTok _ => []
  | GSub f k => [(f, k)]
  | GCap _ g | GOpt g | GMany g | GSome g => gsubs g
  | GSeq gs | GAlt gs => flat_map gsubs gs
  end.
Fixpoint gcaps (g : gexp) : list fld :=
  match g with
  | GLit _ | GTok _ | GSub _ _ => []
  | GCap f g => gcaps g ++ [f]
  | GOpt g | GMany g | GSome g => gcaps g
  | GSeq gs | GAlt gs => flat_map gcaps gs
  end.
Definition gfields (g : gexp) : list fld := map fst (gsubs g) ++ gcaps g.
Definition cap_ok (P : ast → Prop) (g : gexp) (c : capture) : Prop :=
  match c.2 with
  | Struct t => (c.1, kind_of t) ∈ gsubs g ∧ P t
  | Texts _ => c.1 ∈ gcaps g
  end.
Lemma cap_ok_mono P g g' c :
  (∀ x, x ∈ gsubs g → x ∈ gsubs g') → (∀ x, x ∈ gcaps g → x ∈ gcaps g') → cap_ok P g c → cap_ok P g' c.
Proof. intros H1 H2. destruct c as [f [l|t]]; cbn; [apply H2|]. intros [H3 H4]. split; [by apply H1|done]. Qed.
Lemma elem_of_flat_map {X Y} (f : X → list Y) (l : list X) a y : a ∈ l → y ∈ f a → y ∈ flat_map f l.
Proof. rewrite !elem_of_list_In. intros H1 H2. apply in_flat_map. eauto. Qed.

Lemma builds_ind3 (P : ast → Prop) :
  (∀ p k us cs l fs, derives p (grammar k) us cs l → filled k cs fs → Forall (cap_ok P (grammar k)) cs →
     P (T (match k with KAST => no_pos | _ => first_pos p us end) k fs)) →
  (∀ p k us t, builds p k us t → kind_of t = k ∧ P t) ∧
  (∀ p g us cs l, derives p g us cs l → Forall (cap_ok P g) cs).
Proof.
  intros HP. enough ((∀ p g us cs l, derives p g us cs l → Forall (cap_ok P g) cs) ∧
    (∀ p k us t, builds p k us t → kind_of t = k ∧ P t)) by tauto.
  apply (derivation_ind (λ p g us cs l, Forall (cap_ok P g) cs) (λ p k us t, kind_of t = k ∧ P t)).
  - constructor.
  - constructor.
  - intros p f k us t _ [<- Ht]. apply Forall_singleton. cbn. split; [by left|done].
  - intros p f g us cs l _ H. apply Forall_app. split.
    + eapply Forall_impl; [exact H|]. intros c. apply cap_ok_mono; [done|]. intros x Hx. cbn. apply elem_of_app. by left.
    + apply Forall_singleton. cbn. apply elem_of_app. right. by left.
  - constructor.
  - intros p g gs us vs cs ds l m _ H1 _ H2. apply Forall_app. split; (eapply Forall_impl; [eassumption|]); intros c;
      apply cap_ok_mono; intros x Hx; cbn; apply elem_of_app; tauto.
  - intros p g gs us cs l Hg _ H. eapply Forall_impl; [exact H|]. intros c; apply cap_ok_mono; intros x Hx; cbn;
      by eapply elem_of_flat_map.
  - constructor.
  - done.
  - constructor.
  - intros p g us vs cs ds l m _ H1 _ H2. by apply Forall_app.
  - intros p g us vs cs ds l m _ H1 _ H2. by apply Forall_app.
  - intros p k us cs l fs H1 H2 H3. split; [done|]. by eapply HP.
Qed.

(** ** The grammar agrees with the types of the fields *)
Definition sub_type_ok (k : kind) (p : fld * kind) : bool :=
  existsb (λ q : fld * ftype, bool_decide (q.1 = p.1) &&
    match q.2 with TPtr k' | TEmb k' | TList k' => bool_decide (k' = p.2) | _ => false end) (schema k).
Definition cap_type_ok (k : kind) (f : fld) : bool :=
  existsb (λ q : fld * ftype, bool_decide (q.1 = f) &&
    match q.2 with TStr | TBool | TStrs => true | TPtr _ => bool_decide (k = KValue) | _ => false end) (schema k).
Lemma grammar_types :
  forallb (λ k, forallb (sub_type_ok k) (gsubs (grammar k)) && forallb (cap_type_ok k) (gcaps (grammar k)) &&
    bool_decide (NoDup (map fst (schema k))) && typed (zero no_pos k : ast)) all_kinds
  = true.
Proof. vm_compute. reflexivity. Qed.

Lemma nodup_schema k f ty ty' : (f, ty) ∈ schema k → (f, ty') ∈ schema k → ty = ty'.
Proof.
  pose proof (for_all_kinds _ grammar_types k) as H. cbn beta in H.
  apply andb_true_iff in H as [[_ H]%andb_true_iff _]. apply bool_decide_eq_true in H.
  intros H1 H2. revert H H1 H2. generalize (schema k). intros l. induction l as [|[f' t] l IH]; [by intros _ ?%elem_of_nil|].
  cbn. intros [Hn Hl]%NoDup_cons. rewrite !elem_of_cons. intros [E1|H1] [E2|H2].
  - congruence.
  - injection E1 as -> ->. destruct Hn. apply elem_of_list_fmap. by exists (f', ty').
  - injection E2 as -> ->. destruct Hn. apply elem_of_list_fmap. by exists (f', ty).
  - by apply IH.
Qed.
Lemma sub_type k f k' ty : (f, k') ∈ gsubs (grammar k) → (f, ty) ∈ schema k → ty = TPtr k' ∨ ty = TEmb k' ∨ ty = TList k'.
Proof.
  intros H1 H2. pose proof (for_all_kinds _ grammar_types k) as H. cbn beta in H.
  apply andb_true_iff in H as [[[H _]%andb_true_iff _]%andb_true_iff _].
  rewrite forallb_forall in H. apply elem_of_list_In, H, existsb_exists in H1 as ([f' ty'] & Hin & H1). cbn in H1.
  apply andb_true_iff in H1 as [->%bool_decide_eq_true H1]. apply elem_of_list_In in Hin.
  rewrite (nodup_schema k f ty ty') by done. destruct ty'; try done; apply bool_decide_eq_true in H1 as ->; auto.
Qed.
Lemma cap_type k f ty :
  f ∈ gcaps (grammar k) → (f, ty) ∈ schema k → ty = TStr ∨ ty = TBool ∨ ty = TStrs ∨ k = KValue ∧ ∃ k', ty = TPtr k'.
Proof.
  intros H1 H2. pose proof (for_all_kinds _ grammar_types k) as H. cbn beta in H.
  apply andb_true_iff in H as [[[_ H]%andb_true_iff _]%andb_true_iff _].
  rewrite forallb_forall in H. apply elem_of_list_In, H, existsb_exists in H1 as ([f' ty'] & Hin & H1). cbn in H1.
  apply andb_true_iff in H1 as [->%bool_decide_eq_true H1]. apply elem_of_list_In in Hin.
  rewrite (nodup_schema k f ty ty') by done. destruct ty'; try done; auto.
  apply bool_decide_eq_true in H1. eauto 6.
Qed.

(** ** Types *)
Lemma zero_field_typed k f ty (v : aval) :
  (f, ty) ∈ schema k → assoc f (fields (zero no_pos k)) = Some v → typed_val ty v = true.
Proof.
  intros H1 H2. assert (forallb (λ k, forallb (λ q : fld * ftype,
    match assoc q.1 (fields (zero no_pos k : ast)) with Some v => typed_val q.2 v | None => true end) (schema k)) all_kinds = true) as H
    by (vm_compute; reflexivity).
  pose proof (for_all_kinds _ H k) as Hk. cbn beta in Hk. rewrite forallb_forall in Hk.
  apply elem_of_list_In, Hk in H1. cbn [fst snd] in H1. by rewrite H2 in H1.
Qed.
Lemma captures_of_elem f cs c : c ∈ captures_of f cs → (f, c) ∈ cs.
Proof.
  unfold captures_of. rewrite elem_of_list_fmap. intros ([f' c'] & -> & [H1 H2]%elem_of_list_filter). cbn in *. by subst.
Qed.
Lemma trees_of_elem t cs : t ∈ trees_of cs → Struct t ∈ cs.
Proof.
  unfold trees_of. rewrite !elem_of_list_In, in_flat_map. intros ([l|t'] & H1 & H2); [done|].
  destruct H2 as [->|[]]. done.
Qed.
Lemma last_elem {X} (l : list X) x : last l = Some x → x ∈ l.
Proof. intros [l' ->]%last_Some. apply elem_of_app. right. by left. Qed.
(** A field that holds structs, holds captured ones. *)
Lemma field_typed (P : ast → Prop) k cs f ty v :
  (∀ t, P t → typed t = true) → Forall (cap_ok P (grammar k)) cs → (f, ty) ∈ schema k → field_value k f ty cs = Some v →
  typed_val ty v = true.
Proof.
  intros HP Hcs Hf Hv.
  assert (Hplain : plain_value k f ty (captures_of f cs) = Some v → typed_val ty v = true).
  { intros H. assert (Hk : ∀ t, Struct t ∈ captures_of f cs → (f, kind_of t) ∈ gsubs (grammar k) ∧ typed t = true).
    { intros t Ht%captures_of_elem. rewrite Forall_forall in Hcs. destruct (Hcs _ Ht) as [H1 H2]. split; [done|by apply HP]. }
    assert (Hk' : ∀ t, t ∈ trees_of (captures_of f cs) → bool_decide (kind_of t = match ty with TPtr k | TEmb k | TList k => k | _ => KAST end) && typed t = true
              ∧ ty ≠ TFloat).
    { intros t Ht%trees_of_elem. destruct (Hk t Ht) as [H1 H2]. rewrite H2, andb_true_r.
      destruct (sub_type _ _ _ _ H1 Hf) as [-> |[-> | ->]]; (split; [by apply bool_decide_eq_true|done]). }
    destruct ty; cbn [plain_value] in H; try done.
    - by injection H as <-.
    - by injection H as <-.
    - by injection H as <-.
    - destruct (last _) as [t|] eqn:E; [|by eapply zero_field_typed]. by apply last_elem, Hk' in E as [_ ?].
    - injection H as <-. cbn. destruct (last _) as [t|] eqn:E; [|done]. by apply last_elem, Hk' in E as [? _].
    - destruct (last _) as [t|] eqn:E; [|by eapply zero_field_typed]. injection H as <-. by apply last_elem, Hk' in E as [? _].
    - injection H as <-. destruct (decide _); [done|]. cbn. apply forallb_forall. intros o Ho.
      apply in_map_iff in Ho as (t & <- & Ht). apply elem_of_list_In, Hk' in Ht as [? _]. done. }
  destruct (special_kind k) eqn:Hs.
  - destruct k; try done.
    + destruct f; try (by apply Hplain).
      * cbn [field_value] in Hv. assert (ty = TPtr KValueBool) as -> by (apply (nodup_schema KValue FBool); [done|vm_compute; repeat constructor]).
        destruct (captures_of FBool cs) as [|[[|w [|? ?]]|t] [|? ?]]; try done; injection Hv as <-; done.
      * cbn [field_value] in Hv. assert (ty = TPtr KValueNumber) as -> by (apply (nodup_schema KValue FNumber); [done|vm_compute; repeat constructor]).
        destruct (captures_of FNumber cs) as [|[[|w [|? ?]]|t] [|? ?]]; try done; [by injection Hv as <-|].
        destruct (capture_number w); [|done]. by injection Hv as <-.
    + destruct f; try (by apply Hplain).
      * cbn [field_value] in Hv. assert (ty = TBool) as -> by (apply (nodup_schema KHeredoc FLeadingTabs); [done|vm_compute; repeat constructor]).
        destruct (captures_of FDelimiter cs) as [|[[|w [|? ?]]|t] [|? ?]]; try done.
        destruct (capture_delimiter w); [|done]. by injection Hv as <-.
      * cbn [field_value] in Hv. assert (ty = TStr) as -> by (apply (nodup_schema KHeredoc FDelimiter); [done|vm_compute; repeat constructor]).
        destruct (captures_of FDelimiter cs) as [|[[|w [|? ?]]|t] [|? ?]]; try done.
        destruct (capture_delimiter w); [|done]. by injection Hv as <-.
  - rewrite field_value_plain in Hv by done. by apply Hplain.
Qed.

Lemma fields_typed (sc : list (fld * ftype)) (fs : list (fld * aval)) :
  map fst fs = map fst sc → NoDup (map fst sc) →
  (∀ f ty, (f, ty) ∈ sc → ∃ v, assoc f fs = Some v ∧ typed_val ty v = true) →
  (fix go (sc : list (fld * ftype)) (fs : list (fld * aval)) {struct fs} : bool :=
     match sc, fs with
     | [], [] => true
     | (f, ty) :: sc, (f', v) :: fs => bool_decide (f = f') && typed_val ty v && go sc fs
     | _, _ => false
     end) sc fs = true.
Proof.
  revert fs. induction sc as [|[f ty] sc IH]; intros [|[f' v] fs]; try done. cbn [map fst].
  intros [= -> E] [Hn Hd]%NoDup_cons H. destruct (H f ty) as (v' & H1 & H2); [by left|]. cbn in H1.
  rewrite decide_True in H1 by done. injection H1 as ->. rewrite bool_decide_eq_true_2, H2 by done. cbn.
  apply IH; [done|done|]. intros f' ty' Hf. destruct (H f' ty') as (w & H3 & H4); [by right|]. exists w. split; [|done].
  cbn in H3. destruct (decide (f' = f)) as [->|]; [|done]. destruct Hn. apply elem_of_list_fmap. by exists (f, ty').
Qed.
Lemma schema_nodup k : NoDup (map fst (schema k)).
Proof.
  pose proof (for_all_kinds _ grammar_types k) as H. cbn beta in H.
  apply andb_true_iff in H as [[_ H]%andb_true_iff _]. by apply bool_decide_eq_true in H.
Qed.
Lemma node_typed (P : ast → Prop) p k cs fs :
  (∀ t, P t → typed t = true) → filled k cs fs → Forall (cap_ok P (grammar k)) cs → typed (T p k fs : ast) = true.
Proof.
  intros HP [H1 H2] Hcs. cbn [typed]. apply fields_typed; [done|apply schema_nodup|].
  intros f ty Hf. destruct (H2 f ty Hf) as [[v Hv] H3]. exists v. split; [congruence|]. by eapply field_typed.
Qed.

(** ** Sub-nodes *)
Definition wf_node (t : ast) : Prop := exclusive t ∧ no_nil_items t.
Definition good (t : ast) : Prop := typed t = true ∧ well_formed t.
Lemma nodes_inv (t m : ast) : m ∈ nodes t → m = t ∨ ∃ f v c, (f, v) ∈ fields t ∧ c ∈ val_subs v ∧ m ∈ nodes c.
Proof.
  destruct t as [a k fs]. cbn [nodes fields]. intros [->|H]%elem_of_cons; [by left|right].
  apply elem_of_list_In, in_flat_map in H as ([f v] & H1 & H2). apply elem_of_list_In in H1, H2. cbn [snd] in H2.
  exists f, v. destruct v as [| | | |[t|]|t|[[b l]|]]; cbn [nodes_val] in H2; try (by apply elem_of_nil in H2).
  - exists t. split; [done|]. split; [by left|done].
  - exists t. split; [done|]. split; [by left|done].
  - apply elem_of_list_In, in_flat_map in H2 as ([t|] & H2 & H3); [|done]. apply elem_of_list_In in H2, H3.
    exists t. split; [done|]. split; [|done]. cbn. apply elem_of_list_omap. by exists (Some t).
Qed.
Lemma well_formed_intro (t : ast) :
  wf_node t → (∀ f v c, (f, v) ∈ fields t → c ∈ val_subs v → well_formed c) → well_formed t.
Proof.
  intros Ht Hs m [->|(f & v & c & H1 & H2 & H3)]%nodes_inv; [done|]. by apply (Hs f v c).
Qed.
(** Zero values, and the two structs that are captured. *)
Definition wf_check (t : ast) : bool :=
  (length (filter (λ f, is_set t f = true) (one_of (kind_of t))) <=? 1)%nat &&
  forallb (λ p : fld * aval, match p.2 with VList (Some _) => false | _ => true end) (fields t).
Lemma assoc_elem {X} f (fs : list (fld * X)) v : assoc f fs = Some v → (f, v) ∈ fs.
Proof.
  induction fs as [|[f' w] fs IH]; [done|]. cbn. destruct (decide (f = f')) as [->|].
  - intros [= ->]. by left.
  - intros H. right. by apply IH.
Qed.
Lemma wf_check_sound t : forallb wf_check (nodes t) = true → well_formed t.
Proof.
  intros H m Hm. rewrite forallb_forall in H. apply elem_of_list_In, H, andb_true_iff in Hm as [H1 H2].
  apply Nat.leb_le in H1. split; [done|]. intros f b l Hl%assoc_elem. rewrite forallb_forall in H2.
  by apply elem_of_list_In, H2 in Hl.
Qed.
Lemma zero_subs_good k f (v : aval) c :
  assoc f (fields (zero no_pos k)) = Some v → c ∈ val_subs v → good c.
Proof.
  intros H1%assoc_elem H2. assert (forallb (λ k, forallb (λ q : fld * aval, forallb (λ c, typed c && forallb wf_check (nodes c)) (val_subs q.2))
    (fields (zero no_pos k))) all_kinds = true) as H by (vm_compute; reflexivity).
  pose proof (for_all_kinds _ H k) as Hk. cbn beta in Hk. rewrite forallb_forall in Hk. apply elem_of_list_In, Hk in H1.
  cbn [snd] in H1. rewrite forallb_forall in H1. apply elem_of_list_In, H1, andb_true_iff in H2 as [H2 H3].
  split; [done|by apply wf_check_sound].
Qed.
Lemma field_subs_good k cs f ty v c :
  Forall (cap_ok good (grammar k)) cs → field_value k f ty cs = Some v → c ∈ val_subs v → good c.
Proof.
  intros Hcs Hv Hc.
  assert (Hplain : plain_value k f ty (captures_of f cs) = Some v → good c).
  { intros H. assert (Hk : ∀ t, t ∈ trees_of (captures_of f cs) → good t).
    { intros t Ht%trees_of_elem%captures_of_elem. rewrite Forall_forall in Hcs. by destruct (Hcs _ Ht) as [_ ?]. }
    destruct ty; cbn [plain_value] in H.
    1-3: injection H as <-; by apply elem_of_nil in Hc.
    - destruct (last _) as [t|] eqn:E; [|by eapply zero_subs_good]. injection H as <-.
      apply elem_of_list_singleton in Hc as ->. by apply Hk, last_elem.
    - injection H as <-. destruct (last _) as [t|] eqn:E; [|by apply elem_of_nil in Hc].
      apply elem_of_list_singleton in Hc as ->. by apply Hk, last_elem.
    - destruct (last _) as [t|] eqn:E; [|by eapply zero_subs_good]. injection H as <-.
      apply elem_of_list_singleton in Hc as ->. by apply Hk, last_elem.
    - injection H as <-. destruct (decide _); [by apply elem_of_nil in Hc|]. cbn in Hc.
      apply elem_of_list_omap in Hc as (o & Ho & E). unfold id in E. subst o. apply elem_of_list_fmap in Ho as (t & [= ->] & Ht). by apply Hk. }
  assert (Hleaf : ∀ k' fs, forallb wf_check (nodes (T no_pos k' fs : ast)) = true → typed (T no_pos k' fs : ast) = true → good (T no_pos k' fs)).
  { intros k' fs H1 H2. split; [done|]. by apply wf_check_sound. }
  destruct (special_kind k) eqn:Hs.
  - destruct k; try done.
    + destruct f; try (by apply Hplain).
      * cbn [field_value] in Hv.
        destruct (captures_of FBool cs) as [|[[|w [|? ?]]|t] [|? ?]]; try done; injection Hv as <-; [by apply elem_of_nil in Hc|].
        apply elem_of_list_singleton in Hc as ->. by apply Hleaf.
      * cbn [field_value] in Hv.
        destruct (captures_of FNumber cs) as [|[[|w [|? ?]]|t] [|? ?]]; try done; [injection Hv as <-; by apply elem_of_nil in Hc|].
        destruct (capture_number w); [|done]. injection Hv as <-. apply elem_of_list_singleton in Hc as ->. by apply Hleaf.
    + destruct f; try (by apply Hplain).
      * cbn [field_value] in Hv.
        destruct (captures_of FDelimiter cs) as [|[[|w [|? ?]]|t] [|? ?]]; try done.
        destruct (capture_delimiter w); [|done]. injection Hv as <-. by apply elem_of_nil in Hc.
      * cbn [field_value] in Hv.
        destruct (captures_of FDelimiter cs) as [|[[|w [|? ?]]|t] [|? ?]]; try done.
        destruct (capture_delimiter w); [|done]. injection Hv as <-. by apply elem_of_nil in Hc.
  - rewrite field_value_plain in Hv by done. by apply Hplain.
Qed.
(** Lists hold no nil pointers. *)
Lemma field_no_nil (P : ast → Prop) k cs f ty b l :
  (∀ t, P t → typed t = true) → Forall (cap_ok P (grammar k)) cs → (f, ty) ∈ schema k →
  field_value k f ty cs = Some (VList (Some (b, l))) → None ∉ l.
Proof.
  intros HP Hcs Hf Hv. pose proof (field_typed P k cs f ty _ HP Hcs Hf Hv) as Ht. destruct ty as [| | | | | |k']; try done.
  assert (plain_value k f (TList k') (captures_of f cs) = Some (VList (Some (b, l)))) as H.
  { destruct (special_kind k) eqn:Hs; [|by rewrite field_value_plain in Hv].
    destruct k; try done; destruct f; try done; cbn [field_value] in Hv.
    - destruct (captures_of FBool cs) as [|[[|w [|? ?]]|t] [|? ?]]; done.
    - destruct (captures_of FNumber cs) as [|[[|w [|? ?]]|t] [|? ?]]; try done. by destruct (capture_number w).
    - destruct (captures_of FDelimiter cs) as [|[[|w [|? ?]]|t] [|? ?]]; try done. by destruct (capture_delimiter w).
    - destruct (captures_of FDelimiter cs) as [|[[|w [|? ?]]|t] [|? ?]]; try done. by destruct (capture_delimiter w). }
  cbn [plain_value] in H. destruct (decide _); [done|]. injection H as <- <-.
  intros (t & ? & _)%elem_of_list_fmap. done.
Qed.
(** ** One alternative *)
Definition alternatives (g : gexp) : list gexp := match g with GAlt gs => gs | _ => [g] end.
Lemma derives_alternative p g us cs l : derives p g us cs l → ∃ g', g' ∈ alternatives g ∧ derives p g' us cs l.
Proof.
  intros H. destruct g; try (eexists; split; [by left|exact H]). by apply derives_alt_inv in H.
Qed.
Lemma captures_none P g f cs : Forall (cap_ok P g) cs → f ∉ gfields g → captures_of f cs = [].
Proof.
  intros Hcs Hf. destruct (captures_of f cs) as [|c l] eqn:E; [done|]. destruct Hf.
  assert ((f, c) ∈ cs) as H by (apply captures_of_elem; rewrite E; by left). rewrite Forall_forall in Hcs. apply Hcs in H.
  unfold gfields. destruct c as [l'|t]; cbn in H; apply elem_of_app; [by right|left].
  destruct H as [H _]. apply elem_of_list_fmap. by exists (f, kind_of t).
Qed.
Lemma one_of_exclusive :
  forallb (λ k, forallb (λ g, (length (filter (λ f, f ∈ gfields g) (one_of k)) <=? 1)%nat) (alternatives (grammar k)) &&
    (bool_decide (one_of k = []) || negb (special_kind k) &&
     forallb (λ f, existsb (λ q : fld * ftype, bool_decide (q.1 = f) && match q.2 with TPtr _ => true | _ => false end) (schema k)) (one_of k)))
  all_kinds = true.
Proof. vm_compute. reflexivity. Qed.
Lemma filter_length_mono {X} (P Q : X → Prop) `{∀ x, Decision (P x), ∀ x, Decision (Q x)} (l : list X) :
  (∀ x, x ∈ l → P x → Q x) → length (filter P l) ≤ length (filter Q l).
Proof.
  induction l as [|x l IH]; [done|]. intros Hx. rewrite !filter_cons.
  assert (length (filter P l) ≤ length (filter Q l)) as H' by (apply IH; intros y Hy; apply Hx; by right).
  destruct (decide (P x)) as [Hp|]; [rewrite decide_True by (apply Hx; [by left|done])|destruct (decide (Q x))]; cbn; lia.
Qed.
Lemma node_exclusive p q k us cs l fs :
  derives p (grammar k) us cs l → filled k cs fs → exclusive (T q k fs : ast).
Proof.
  intros (g & Hg & H)%derives_alternative [_ H2]. unfold exclusive. cbn [kind_of].
  pose proof (for_all_kinds _ one_of_exclusive k) as Hk. cbn beta in Hk. apply andb_true_iff in Hk as [Hk1 Hk2].
  rewrite forallb_forall in Hk1. apply elem_of_list_In, Hk1, Nat.leb_le in Hg. etransitivity; [|exact Hg].
  apply orb_true_iff in Hk2 as [->%bool_decide_eq_true|Hk2]; [done|]. apply andb_true_iff in Hk2 as [Hs%negb_true_iff Hk2].
  apply filter_length_mono. intros f Hf Hset. rewrite forallb_forall in Hk2.
  apply elem_of_list_In, Hk2, existsb_exists in Hf as ([f' ty] & Hin & Hf). cbn in Hf.
  apply andb_true_iff in Hf as [->%bool_decide_eq_true Hty]. destruct ty as [| | | |k'| |]; try done.
  apply elem_of_list_In in Hin. destruct (H2 _ _ Hin) as [_ Hv]. rewrite field_value_plain in Hv by done.
  destruct (decide (f ∈ gfields g)) as [|Hn]; [done|]. exfalso.
  destruct (builds_ind3 (λ _, True)) as [_ Hc]; [done|]. apply Hc in H.
  rewrite (captures_none _ _ _ _ H Hn) in Hv. cbn [plain_value] in Hv. unfold is_set, get in Hset. cbn [fields] in Hset.
  by rewrite Hv in Hset.
Qed.
Lemma builds_good p k us t : builds p k us t → kind_of t = k ∧ good t.
Proof.
  revert p k us t. apply builds_ind3. intros p k us cs l fs Hd Hf Hcs.
  assert (HP : ∀ t, good t → typed t = true) by (by intros t [? _]).
  split; [by eapply node_typed|]. apply well_formed_intro.
  - split; [by eapply node_exclusive|]. intros f b l' Hg. unfold get in Hg. cbn [fields] in Hg.
    pose proof (assoc_elem _ _ _ Hg) as He. destruct Hf as [H1 H2].
    assert (∃ ty, (f, ty) ∈ schema k) as [ty Hty].
    { assert (f ∈ map fst fs) as Hm by (apply elem_of_list_fmap; by exists (f, VList (Some (b, l')))).
      rewrite H1 in Hm. apply elem_of_list_fmap in Hm as ([f' ty] & -> & ?). by exists ty. }
    destruct (H2 f ty Hty) as [_ Hv]. rewrite Hg in Hv. by eapply field_no_nil.
  - intros f v c Hfv Hc. cbn [fields] in Hfv. destruct Hf as [H1 H2].
    assert (∃ ty, (f, ty) ∈ schema k) as [ty Hty].
    { assert (f ∈ map fst fs) as Hm by (apply elem_of_list_fmap; by exists (f, v)).
      rewrite H1 in Hm. apply elem_of_list_fmap in Hm as ([f' ty] & -> & ?). by exists ty. }
    destruct (H2 f ty Hty) as [_ Hv]. assert (assoc f fs = Some v) as Ha.
    { pose proof (schema_nodup k) as Hn. rewrite <- H1 in Hn. clear -Hfv Hn. induction fs as [|[f' w] fs IH]; [by apply elem_of_nil in Hfv|].
      cbn [map fst] in Hn. apply NoDup_cons in Hn as [Hn1 Hn2]. cbn. apply elem_of_cons in Hfv as [[= -> ->]|Hfv].
      - by rewrite decide_True.
      - rewrite decide_False; [by apply IH|]. intros ->. destruct Hn1. apply elem_of_list_fmap. by exists (f', v). }
    rewrite Ha in Hv. symmetry in Hv. by destruct (field_subs_good k cs f ty v c Hcs Hv Hc) as [_ ?].
Qed.
