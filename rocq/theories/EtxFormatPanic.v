(** * When FormattedString panics *)
From stdpp Require Import base list option strings.
From Coq Require Import Ascii Lia.
From Verif Require Import GoBase EtxAst EtxHeap EtxHeapSpec EtxText EtxLex EtxUtil EtxGram EtxParse EtxParseBase EtxParseSpec EtxParseTyped
  EtxParseParts EtxShape EtxFormat EtxFormatSpec EtxFormatTotal.

Definition unprinted_here (t : ast) (f : fld) : bool :=
  bool_decide (kind_of t = KExprIf) && bool_decide (f = FRight) &&
  match get FLeft t with Some (VPtr None) => true | _ => false end.
Lemma unprinted_spec t f : unprinted_here t f = true ↔ unprinted t f.
Proof.
  unfold unprinted_here, unprinted. rewrite !andb_true_iff, !bool_decide_eq_true.
  destruct (get FLeft t) as [[| | | |[]| |]|]; naive_solver.
Qed.
Definition kids (t : ast) : list ast :=
  flat_map (λ q : fld * aval, if unprinted_here t q.1 then [] else val_subs q.2) (fields t).
Lemma kids_spec t c : c ∈ kids t ↔ ∃ f v, (f, v) ∈ fields t ∧ c ∈ val_subs v ∧ ¬ unprinted t f.
Proof.
  unfold kids. rewrite elem_of_list_In, in_flat_map. split.
  - intros ([f v] & H1 & H2). cbn [fst snd] in H2. exists f, v. rewrite <- unprinted_spec. rewrite <- elem_of_list_In in H1.
    destruct (unprinted_here t f); [done|]. rewrite <- elem_of_list_In in H2. split_and!; [done|done|]. by intros [=].
  - intros (f & v & H1 & H2 & H3). exists (f, v). rewrite <- elem_of_list_In. split; [done|]. cbn [fst snd].
    rewrite <- unprinted_spec in H3. destruct (unprinted_here t f); [done|]. by apply elem_of_list_In.
Qed.
Lemma printed_trans a b c : printed a b → printed b c → printed a c.
Proof. intros H1 H2. induction H2 as [|m f v c _ IH Hf Hc Hu]; [done|]. by eapply printed_below. Qed.
Lemma printed_kids t m : printed t m ↔ m = t ∨ ∃ c, c ∈ kids t ∧ printed c m.
Proof.
  split.
  - induction 1 as [|m f v c _ IH Hf Hc Hu]; [by left|]. right. destruct IH as [->|(x & Hx & Hm)].
    + exists c. split; [|constructor]. apply kids_spec. eauto.
    + exists x. split; [done|]. by eapply printed_below.
  - intros [->|(c & (f & v & H1 & H2 & H3)%kids_spec & Hm)]; [constructor|].
    eapply printed_trans; [|exact Hm]. eapply printed_below; [constructor|done..].
Qed.

(** ** One node *)
Definition succeeds {A} (r : res A) : Prop := ∃ x, r = Ok x.
Definition settles {A} (r : res A) (P : Prop) : Prop := (succeeds r ∧ P) ∨ (r = Panic ∧ ¬ P).
Lemma settles_iff {A} (r : res A) P Q : settles r P → (P ↔ Q) → settles r Q.
Proof. unfold settles. tauto. Qed.
Lemma settles_ok {A} (x : A) : settles (Ok x) True.
Proof. left. split; [by exists x|done]. Qed.
Lemma settles_bind {A B} (m : res A) (k : A → res B) P Q : settles m P → (∀ x, settles (k x) Q) → settles (m ≫= k) (P ∧ Q).
Proof.
  intros [[[x ->] HP]|[-> HP]] H; cbn.
  - destruct (H x) as [[? ?]|[? ?]]; [left|right]; tauto.
  - right. tauto.
Qed.
Lemma omap_id_some (l : list ast) : omap id (map Some l) = l.
Proof. induction l as [|c l IH]; [done|]. cbn. by f_equal. Qed.
Lemma list_eq_nil_some (l : list ast) : l ≠ [] → map Some l ≠ [].
Proof. by destruct l. Qed.
Ltac shape_fields Hfs :=
  repeat lazymatch type of Hfs with
  | shaped_fields _ [] ?fs => destruct fs as [|? ?]; [clear Hfs|destruct Hfs]
  | shaped_fields ?F ((?g, ?ty) :: ?sc) ?fs =>
      let v := fresh "v" in let fs' := fresh "fs" in let Hv := fresh "Hv" in
      destruct fs as [|[? v] fs']; [destruct Hfs|];
      destruct Hfs as (-> & Hv & Hfs);
      let b := eval vm_compute in (mem g F) in change (mem g F) with b in Hv;
      cbn [shaped_val] in Hv;
      try (let c := eval vm_compute in (bool_decide (g = FLeadingTabs)) in
           change (bool_decide (g = FLeadingTabs)) with c in Hv; cbn iota in Hv);
      first [ subst v
            | let x := fresh "x" in let Hx := fresh "Hx" in destruct Hv as (x & -> & Hx)
            | let x := fresh "x" in destruct Hv as (x & ->) ]
  end.
Lemma get_here f a k v (fs : list (fld * aval)) : get f (T a k ((f, v) :: fs)) = Some v.
Proof. unfold get. cbn. by rewrite decide_True. Qed.
Lemma get_next f g a k v (fs : list (fld * aval)) : f ≠ g → get f (T a k ((g, v) :: fs)) = get f (T a k fs).
Proof. intros. unfold get. cbn. by rewrite decide_False. Qed.
Ltac see_fields :=
  unfold str_of, bool_of, ptr_of, emb_of, list_of, nil_list, strs_of;
  repeat match goal with |- context [get ?g ?t] =>
    let E := fresh "E" in
    eassert (get g t = _) as E by (rewrite ?get_next by discriminate; apply get_here); rewrite !E; clear E
  end; cbn beta iota delta [first_set is_nil negb].
Ltac see_kids :=
  match goal with |- context [kids ?t] =>
    let x := eval cbv -[omap map id app] in (kids t) in change (kids t) with x end;
  rewrite ?omap_id_some, ?app_nil_r; cbn [app]; rewrite ?Forall_app.
Section node.
Context (f : ast → res text) (H : ∀ c, f c ≠ OutOfFuel).
Definition fine (c : ast) : Prop := succeeds (f c).
Lemma settles_fmt c : settles (f c) (fine c).
Proof.
  unfold settles, fine, succeeds. destruct (f c) as [s| |] eqn:E; [left; eauto|right|by destruct (H c)].
  split; [done|]. by intros [? ?].
Qed.
Lemma settles_all l : settles (fmt_all f (map Some l)) (Forall fine l).
Proof.
  induction l as [|c l IH]; [by eapply settles_iff; [apply settles_ok|]|]. cbn.
  eapply settles_iff; [apply settles_bind; [apply settles_fmt|intros s; apply settles_bind; [exact IH|intros; apply settles_ok]]|].
  rewrite Forall_cons. tauto.
Qed.

Ltac settle :=
  cbn beta iota delta [fmt_of negb is_nil];
  lazymatch goal with
  | |- settles (Ok _) _ => apply settles_ok
  | |- settles (f _) _ => apply settles_fmt
  | |- settles (fmt_all f []) _ => apply (settles_all [])
  | |- settles (fmt_all f _) _ => apply settles_all
  | |- settles (_ ≫= _) _ => eapply settles_bind; [settle|intros ?; settle]
  | |- settles (if decide ?b then _ else _) _ =>
      first [ rewrite (decide_True (P := b)) by first [reflexivity|assumption|congruence]
            | rewrite (decide_False (P := b)) by first [discriminate|assumption|tauto|
                match goal with Hx : ?l ≠ [] ∧ _ |- map Some ?l ≠ [] => exact (list_eq_nil_some _ (proj1 Hx)) end] ];
      settle
  | |- settles (match format_delimiter (_, chars ?x) with _ => _ end) _ =>
      unfold format_delimiter; rewrite (bool_decide_false (chars x = [])) by assumption; settle
  | |- _ => idtac
  end.
Definition entry_kinds : list kind := [KTypeEnumItem; KTypeObjectItem; KMapItem; KTypeEnum; KTypeObject; KValueMap; KValueNumber; KValueBool].
Lemma format_node_settles t : shaped t → kind_of t ∉ entry_kinds → settles (format_node f t) (Forall fine (kids t)).
Proof.
  intros (F & HF & Hfs) Hk. destruct t as [a k fs]. cbn [kind_of fields] in *.
  destruct k; try (exfalso; apply Hk; unfold entry_kinds; by repeat constructor).
  all: lazymatch type of HF with _ ∈ ?l => let x := eval vm_compute in l in change l with x in HF end.
  all: repeat (apply elem_of_cons in HF as [->|HF]; [|]); try (by apply elem_of_nil in HF).
  all: cbn [schema] in Hfs; unfold binary in Hfs; shape_fields Hfs.
  all: unfold format_node; cbn [kind_of]; unfold format_binary, format_decl, format_parameter.
  all: see_fields.
  all: eapply settles_iff; [settle|].
  all: see_kids.
  all: rewrite ?Forall_cons, ?Forall_app, ?Forall_cons, ?Forall_nil.
  all: tauto.
Qed.

(** ** Entries *)
Definition item_kinds : list kind := [KTypeEnumItem; KTypeObjectItem; KMapItem].
Lemma enum_entry i :
  shaped i → kind_of i = KTypeEnumItem →
  (blank_entry i ∧ emb_of FValue i = Some (T no_pos KExpr (zero_fields no_pos 15 KExpr))) ∨
  (¬ blank_entry i ∧ ∃ v, emb_of FValue i = Some v ∧ kids i = [v] ∧ sound v).
Proof.
  intros (F & HF & Hfs) Hk. destruct i as [a k fs]. cbn [kind_of fields] in *. subst k. unfold blank_entry.
  lazymatch type of HF with _ ∈ ?l => let x := eval vm_compute in l in change l with x in HF end.
  repeat (apply elem_of_cons in HF as [->|HF]; [|]); try (by apply elem_of_nil in HF).
  all: cbn [schema] in Hfs; unfold binary in Hfs; shape_fields Hfs; subst.
  - left. split; [|done]. split; [by repeat constructor|]. left. intros [= ->]. by apply Hx.
  - left. split; [|done]. split; [by repeat constructor|]. right. by intros [=].
  - right. split; [|by exists x1]. destruct x; [|done]. intros [_ [E|E]]; by apply E.
Qed.
Lemma object_entry i :
  shaped i → kind_of i = KTypeObjectItem →
  (blank_entry i ∧ emb_of FType i = Some (T no_pos KParameterType (zero_fields no_pos 15 KParameterType))) ∨
  (¬ blank_entry i ∧ ∃ v, emb_of FType i = Some v ∧ kids i = [v] ∧ sound v).
Proof.
  intros (F & HF & Hfs) Hk. destruct i as [a k fs]. cbn [kind_of fields] in *. subst k. unfold blank_entry.
  lazymatch type of HF with _ ∈ ?l => let x := eval vm_compute in l in change l with x in HF end.
  repeat (apply elem_of_cons in HF as [->|HF]; [|]); try (by apply elem_of_nil in HF).
  all: cbn [schema] in Hfs; unfold binary in Hfs; shape_fields Hfs; subst.
  - left. split; [|done]. split; [by repeat constructor|]. left. intros [= ->]. by apply Hx.
  - left. split; [|done]. split; [by repeat constructor|]. right. by intros [=].
  - right. split; [|by exists x1]. destruct x; [|done]. intros [_ [E|E]]; by apply E.
Qed.
Lemma map_entry i :
  shaped i → kind_of i = KMapItem →
  (blank_entry i ∧ ptr_of FKey i = None) ∨
  (¬ blank_entry i ∧ ∃ k v, ptr_of FKey i = Some k ∧ ptr_of FValue i = Some v ∧ kids i = [k; v] ∧ sound k ∧ sound v).
Proof.
  intros (F & HF & Hfs) Hk. destruct i as [a k fs]. cbn [kind_of fields] in *. subst k. unfold blank_entry.
  lazymatch type of HF with _ ∈ ?l => let x := eval vm_compute in l in change l with x in HF end.
  repeat (apply elem_of_cons in HF as [->|HF]; [|]); try (by apply elem_of_nil in HF).
  all: cbn [schema] in Hfs; unfold binary in Hfs; shape_fields Hfs; subst.
  - left. split; [|done]. split; [by repeat constructor|]. left. intros [= ->]. by apply Hx.
  - right. split; [|by exists x0, x1]. destruct x; [|done]. intros [_ [E|E]]; by apply E.
  - left. split; [|done]. split; [by repeat constructor|]. right. by intros [=].
Qed.
Definition entry_fine (i : ast) : Prop := ¬ blank_entry i ∧ Forall fine (kids i).
Lemma longest_ok l : succeeds (longest (map Some l)).
Proof. induction l as [|i l [n IH]]; [by exists 0|]. cbn. rewrite IH. cbn. by eexists. Qed.
Lemma not_both (P Q : Prop) : ¬ P → (P ∧ Q ↔ False).
Proof. tauto. Qed.
Lemma aligned_settles fl l :
  Forall (λ i, (blank_entry i ∧ ∃ z, emb_of fl i = Some z ∧ f z = Panic) ∨
               (¬ blank_entry i ∧ ∃ v, emb_of fl i = Some v ∧ kids i = [v] ∧ sound v)) l →
  ∀ n, settles (format_entries f fl n (map Some l)) (Forall entry_fine l).
Proof.
  intros Hl n. induction Hl as [|i l Hi Hl IH]; [by eapply settles_iff; [apply settles_ok|]|].
  cbn [format_entries map]. destruct Hi as [[Hb (z & -> & Hz)]|[Hb (v & -> & Hk & _)]].
  - right. cbn. rewrite Hz. split; [done|]. intros [[? _] _]%Forall_cons. done.
  - eapply settles_iff; [settle; exact IH|]. rewrite Forall_cons. unfold entry_fine at 2. rewrite Hk, Forall_cons, Forall_nil. tauto.
Qed.
Lemma pairs_settles l :
  Forall (λ i, (blank_entry i ∧ ptr_of FKey i = None) ∨
    (¬ blank_entry i ∧ ∃ k v, ptr_of FKey i = Some k ∧ ptr_of FValue i = Some v ∧ kids i = [k; v] ∧ sound k ∧ sound v)) l →
  settles (format_pairs f (map Some l)) (Forall entry_fine l).
Proof.
  intros Hl. induction Hl as [|i l Hi Hl IH]; [by eapply settles_iff; [apply settles_ok|]|].
  cbn [format_pairs map]. destruct Hi as [[Hb ->]|[Hb (k & v & -> & -> & Hk & _)]].
  - right. cbn. split; [done|]. intros [[? _] _]%Forall_cons. done.
  - eapply settles_iff; [settle; exact IH|]. rewrite Forall_cons. unfold entry_fine at 2. rewrite Hk, !Forall_cons, Forall_nil. tauto.
Qed.
Definition list_kinds : list kind := [KTypeEnum; KTypeObject; KValueMap].
Lemma items_of t :
  shaped t → kind_of t ∈ list_kinds →
  ∃ l, list_of FItems t = map Some l ∧ kids t = l ∧ Forall sound l.
Proof.
  intros (F & HF & Hfs) Hk. destruct t as [a k fs]. cbn [kind_of fields] in *.
  repeat (apply elem_of_cons in Hk as [->|Hk]; [|]); try (by apply elem_of_nil in Hk).
  all: lazymatch type of HF with _ ∈ ?l => let x := eval vm_compute in l in change l with x in HF end.
  all: repeat (apply elem_of_cons in HF as [->|HF]; [|]); try (by apply elem_of_nil in HF).
  all: cbn [schema] in Hfs; unfold binary in Hfs; shape_fields Hfs.
  all: try (by exists []).
  all: exists x; (split; [done|]); (split; [|tauto]).
  all: unfold kids, unprinted_here; cbn [fields flat_map fst snd kind_of].
  all: rewrite bool_decide_false by done; cbn [andb val_subs]; by rewrite omap_id_some, app_nil_r.
Qed.
Lemma list_settles t :
  shaped t → kind_of t ∈ list_kinds → Forall (λ i, shaped i ∧ kind_of i = match kind_of t with
    | KTypeEnum => KTypeEnumItem | KTypeObject => KTypeObjectItem | _ => KMapItem end) (kids t) →
  f (T no_pos KExpr (zero_fields no_pos 15 KExpr)) = Panic →
  f (T no_pos KParameterType (zero_fields no_pos 15 KParameterType)) = Panic →
  settles (format_node f t) (Forall entry_fine (kids t)).
Proof.
  intros Hs Hk Hi Hz1 Hz2. destruct (items_of t Hs Hk) as (l & Hl & Hkid & _). rewrite Hkid in *.
  unfold format_node, format_aligned. rewrite Hl. destruct (longest_ok l) as [n Hn].
  repeat (apply elem_of_cons in Hk as [Hk|Hk]; [|]); try (by apply elem_of_nil in Hk); rewrite Hk in *.
  - rewrite Hn. cbn. apply aligned_settles. eapply Forall_impl; [exact Hi|]. intros i [H1 H2].
    destruct (enum_entry i H1 H2) as [[? ?]|?]; [left|by right]. eauto.
  - rewrite Hn. cbn. apply aligned_settles. eapply Forall_impl; [exact Hi|]. intros i [H1 H2].
    destruct (object_entry i H1 H2) as [[? ?]|?]; [left|by right]. eauto.
  - destruct l as [|i l]; [eapply settles_iff; [apply settles_ok|by rewrite Forall_nil]|].
    rewrite decide_False by done. eapply settles_iff; [apply settles_bind; [|intros ?; apply settles_ok]|apply (right_id _ _)].
    apply pairs_settles. eapply Forall_impl; [exact Hi|]. intros j [H1 H2]. by apply map_entry.
Qed.
End node.
Lemma kids_sound t : shaped t → kind_of t ∉ item_kinds → Forall sound (kids t).
Proof.
  intros Hs Hk. destruct (decide (kind_of t ∈ list_kinds)) as [Hl|Hl].
  { destruct (items_of t Hs Hl) as (l & _ & -> & Hf). done. }
  destruct Hs as (F & HF & Hfs). destruct t as [a k fs]. cbn [kind_of fields] in *.
  destruct k; try (exfalso; apply Hk; unfold item_kinds; by repeat constructor);
    try (exfalso; apply Hl; unfold list_kinds; by repeat constructor).
  all: lazymatch type of HF with _ ∈ ?l => let x := eval vm_compute in l in change l with x in HF end.
  all: repeat (apply elem_of_cons in HF as [->|HF]; [|]); try (by apply elem_of_nil in HF).
  all: cbn [schema] in Hfs; unfold binary in Hfs; shape_fields Hfs.
  all: see_kids; rewrite ?Forall_cons, ?Forall_app, ?Forall_cons, ?Forall_nil; tauto.
Qed.

(** ** Trees *)
Definition kind_of_type (ty : ftype) : option kind :=
  match ty with TPtr k | TEmb k | TList k => Some k | _ => None end.
Lemma kids_typed t c :
  typed t = true → c ∈ kids t → typed c = true ∧ ∃ f ty, (f, ty) ∈ schema (kind_of t) ∧ kind_of_type ty = Some (kind_of c).
Proof.
  intros Ht (f & v & H1 & H2 & _)%kids_spec. destruct (typed_fields _ _ _ Ht H1) as (ty & H3 & H4).
  assert (typed c = true ∧ kind_of_type ty = Some (kind_of c)) as [? ?]; [|by eauto].
  destruct v as [| | | |[x|]|x|[[b l]|]]; try (by apply elem_of_nil in H2); destruct ty; try done; cbn [val_subs typed_val] in *.
  - apply elem_of_list_singleton in H2 as ->. apply andb_true_iff in H4 as [<-%bool_decide_eq_true H4]. done.
  - apply elem_of_list_singleton in H2 as ->. apply andb_true_iff in H4 as [<-%bool_decide_eq_true H4]. done.
  - apply elem_of_list_omap in H2 as (o & Ho & E). unfold id in E. subst o. rewrite forallb_forall in H4.
    apply elem_of_list_In, H4 in Ho. apply andb_true_iff in Ho as [<-%bool_decide_eq_true Ho]. done.
Qed.
Lemma entry_places :
  forallb (λ k, forallb (λ q : fld * ftype, match kind_of_type q.2 with
    | Some k' => (negb (bool_decide (k' ∈ item_kinds)) || bool_decide (k ∈ list_kinds)) &&
                 (negb (bool_decide (k ∈ list_kinds)) || bool_decide (k' = match k with
                    | KTypeEnum => KTypeEnumItem | KTypeObject => KTypeObjectItem | _ => KMapItem end))
    | None => true end) (schema k)) all_kinds = true.
Proof. vm_compute. reflexivity. Qed.
Lemma entry_place t c :
  typed t = true → c ∈ kids t →
  (kind_of c ∈ item_kinds → kind_of t ∈ list_kinds) ∧
  (kind_of t ∈ list_kinds → kind_of c = match kind_of t with
    | KTypeEnum => KTypeEnumItem | KTypeObject => KTypeObjectItem | _ => KMapItem end).
Proof.
  intros Ht Hc. destruct (kids_typed _ _ Ht Hc) as [_ (fl & ty & Hs & Hk)].
  pose proof (for_all_kinds _ entry_places (kind_of t)) as H. cbn beta in H. rewrite forallb_forall in H.
  apply elem_of_list_In, H in Hs. cbn [snd] in Hs. rewrite Hk in Hs.
  apply andb_true_iff in Hs as [H1 H2]. apply orb_true_iff in H1, H2. rewrite negb_true_iff, bool_decide_eq_false, bool_decide_eq_true in H1, H2.
  tauto.
Qed.
Lemma settles_fine t P : settles (format t) P → (fine format t ↔ P).
Proof. unfold settles, fine, succeeds. intros [[? ?]|[-> ?]]; [tauto|]. split; [by intros [? ?]|tauto]. Qed.
Lemma list_kind_not_item k : k ∈ list_kinds → k ∉ item_kinds.
Proof.
  intros Hk. repeat (apply elem_of_cons in Hk as [->|Hk]; [|]); try (by apply elem_of_nil in Hk);
    apply (bool_decide_unpack _); by vm_compute.
Qed.
Lemma format_settles n t :
  (size t < n)%nat → typed t = true → sound t → kind_of t ∉ item_kinds →
  settles (format t) (∀ m, printed t m → ¬ blank_entry m).
Proof.
  revert t. induction n as [|n IH]; intros t Hn Hty Hs Hk; [lia|].
  assert (Hkid : ∀ c, c ∈ kids t → (size c < size t)%nat).
  { intros c (f & v & H1 & H2 & _)%kids_spec. by eapply size_sub. }
  assert (Hown : ¬ blank_entry t) by (by intros [? _]).
  destruct Hs as [Hb|Hcap].
  - apply built_shaped in Hb. destruct (decide (kind_of t ∈ list_kinds)) as [Hl|Hl].
    + pose proof (kids_sound t Hb Hk) as Hsound. rewrite Forall_forall in Hsound.
      assert (Hshape : ∀ i, i ∈ kids t → shaped i ∧ kind_of i = match kind_of t with
        | KTypeEnum => KTypeEnumItem | KTypeObject => KTypeObjectItem | _ => KMapItem end).
      { intros i Hi. destruct (entry_place t i Hty Hi) as [_ E]. specialize (E Hl). split; [|done].
        destruct (Hsound i Hi) as [?|[E'|[E' _]]]; [by apply built_shaped|..];
          rewrite E' in E; destruct (kind_of t); done. }
      rewrite format_unfold. eapply settles_iff; [apply list_settles; try done|].
      * intros c. apply format_ends.
      * by apply Forall_forall.
      * rewrite Forall_forall. unfold entry_fine. setoid_rewrite Forall_forall.
        assert (Hfine : ∀ i c, i ∈ kids t → ¬ blank_entry i → c ∈ kids i → (fine format c ↔ ∀ m, printed c m → ¬ blank_entry m)).
        { intros i c Hi Hib Hc. apply settles_fine. destruct (kids_typed _ _ Hty Hi) as [Hit _]. destruct (kids_typed _ _ Hit Hc) as [Hct _].
          apply IH; [|done| |].
          - assert (size c < size i)%nat by (apply kids_spec in Hc as (f & v & H1 & H2 & _); by eapply size_sub).
            specialize (Hkid i Hi). lia.
          - destruct (Hshape i Hi) as [Hsi E].
            repeat (apply elem_of_cons in Hl as [Hl|Hl]; [|]); try (by apply elem_of_nil in Hl); rewrite Hl in E.
            + destruct (enum_entry i Hsi E) as [[? _]|[_ (v & _ & E' & Hv)]]; [done|]. rewrite E' in Hc. by apply elem_of_list_singleton in Hc as ->.
            + destruct (object_entry i Hsi E) as [[? _]|[_ (v & _ & E' & Hv)]]; [done|]. rewrite E' in Hc. by apply elem_of_list_singleton in Hc as ->.
            + destruct (map_entry i Hsi E) as [[? _]|[_ (k & v & _ & _ & E' & Hv & Hv')]]; [done|]. rewrite E' in Hc.
              apply elem_of_cons in Hc as [->|Hc]; [done|]. by apply elem_of_list_singleton in Hc as ->.
          - intros Hck. destruct (entry_place i c Hit Hc) as [E _]. apply E in Hck.
            destruct (entry_place t i Hty Hi) as [_ E2]. specialize (E2 Hl).
            apply list_kind_not_item in Hck. apply Hck. rewrite E2. clear.
            destruct (kind_of t); by repeat constructor. }
        split.
        -- intros Hall m [->|(i & Hi & [->|(c & Hc & Hm)]%printed_kids)]%printed_kids; [done| |].
           ++ by apply Hall.
           ++ destruct (Hall i Hi) as [Hib Hif]. by apply (Hfine i c Hi Hib Hc); [by apply Hif|].
        -- intros Hall i Hi. assert (Hib : ¬ blank_entry i).
           { apply Hall, printed_kids. right. exists i. split; [done|constructor]. }
           split; [done|]. intros c Hc. apply (Hfine i c Hi Hib Hc). intros m Hm. apply Hall, printed_kids. right.
           exists i. split; [done|]. apply printed_kids. right. by exists c.
    + destruct (decide (kind_of t ∈ [KValueNumber; KValueBool])) as [Hv|Hv].
      { exfalso. destruct Hb as (F & HF & _). repeat (apply elem_of_cons in Hv as [Hv|Hv]; [rewrite Hv in HF; by apply elem_of_nil in HF|]).
        by apply elem_of_nil in Hv. }
      assert (He : kind_of t ∉ entry_kinds).
      { change entry_kinds with (item_kinds ++ list_kinds ++ [KValueNumber; KValueBool]). rewrite !elem_of_app. tauto. }
      pose proof (kids_sound t Hb Hk) as Hsound. rewrite Forall_forall in Hsound.
      rewrite format_unfold. eapply settles_iff; [apply format_node_settles; [intros; apply format_ends|done|done]|].
      rewrite Forall_forall.
      assert (Hfine : ∀ c, c ∈ kids t → (fine format c ↔ ∀ m, printed c m → ¬ blank_entry m)).
      { intros c Hc. apply settles_fine. destruct (kids_typed _ _ Hty Hc) as [Hct _]. apply IH; [|done|by apply Hsound|].
        - specialize (Hkid c Hc). lia.
        - intros Hck. by apply (entry_place t c Hty Hc) in Hck. }
      split.
      * intros Hall m [->|(c & Hc & Hm)]%printed_kids; [done|]. by apply (Hfine c Hc); [by apply Hall|].
      * intros Hall c Hc. apply (Hfine c Hc). intros m Hm. apply Hall, printed_kids. right. by exists c.
  - assert (Hnil : kids t = []).
    { destruct (kids t) as [|c l] eqn:E; [done|]. exfalso.
      assert (c ∈ kids t) as (_ & f & ty & H1 & H2)%kids_typed by (rewrite E; by left); [|done].
      destruct Hcap as [E'|[E' _]]; rewrite E' in H1; repeat (apply elem_of_cons in H1 as [[= -> ->]|H1]; [done|]); by apply elem_of_nil in H1. }
    eapply (settles_iff _ True).
    + rewrite format_unfold. destruct Hcap as [E|[E (s & Hf)]]; unfold format_node; rewrite E; [apply settles_ok|].
      destruct (decide _); [|apply settles_ok]. unfold get. rewrite Hf. apply settles_ok.
    + split; [|done]. intros _ m [->|(c & Hc & _)]%printed_kids; [done|]. rewrite Hnil in Hc. by apply elem_of_nil in Hc.
Qed.
