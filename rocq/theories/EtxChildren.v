(** * Proofs about Children and UpdateParentRefs *)
From stdpp Require Import base list option strings gmap relations.
From Verif Require Import GoBase EtxAst EtxHeap EtxHeapSpec EtxClone.

(** The fields a statement of a Children method looks at. *)
Definition stmt_fields (e : chexp) : list fld :=
  match e with IfSet f | Each f | Addr f => [f] | FirstOf l => l end.
Definition visited (k : kind) : list fld := flat_map stmt_fields (children_body k).
(** The fields that hold nodes. *)
Definition is_node_type (ty : ftype) : bool :=
  match ty with TPtr _ | TEmb _ | TList _ => true | _ => false end.
Definition skipped (k : kind) (f : fld) : bool := bool_decide (k = KExprPostfix ∧ f = FPost).
Definition node_fields (k : kind) : list fld :=
  (filter (λ p, is_node_type p.2 = true ∧ skipped k p.1 = false) (schema k)).*1.
Definition same_names (l1 l2 : list fld) : Prop :=
  NoDup l1 ∧ NoDup l2 ∧ Forall (λ f, f ∈ l2) l1 ∧ Forall (λ f, f ∈ l1) l2.
Lemma visited_names k : visited k ≡ₚ node_fields k.
Proof.
  assert (bool_decide (same_names (visited k) (node_fields k)) = true) as H.
  { revert k. apply for_all_kinds. by vm_compute. }
  apply bool_decide_eq_true in H as (U1&U2&H1&H2). rewrite Forall_forall in H1, H2.
  apply NoDup_Permutation; [done..|]. naive_solver.
Qed.

(** A statement fits the type of its fields. *)
Definition stmt_fits (k : kind) (e : chexp) : bool :=
  match e with
  | IfSet f => match assoc f (schema k) with Some (TPtr _) => true | _ => false end
  | Addr f => match assoc f (schema k) with Some (TEmb _) => true | _ => false end
  | Each f => match assoc f (schema k) with Some (TList _) => true | _ => false end
  | FirstOf l => bool_decide (l = one_of k) && bool_decide (NoDup l) &&
      forallb (λ f, match assoc f (schema k) with Some (TPtr _) => true | _ => false end) l
  end.
Lemma stmts_fit k e : e ∈ children_body k → stmt_fits k e = true.
Proof.
  intros He%elem_of_list_In. revert e He. apply forallb_forall. revert k. apply for_all_kinds. by vm_compute.
Qed.

(** The nodes of a field. *)
Definition field_subs (fs : list (fld * mval)) (f : fld) : list mnode :=
  match assoc f fs with Some v => val_subs v | None => [] end.
Definition taddr (t : mnode) : option loc := Some (addr (ann t)).

Lemma typed_assoc {A B} k (fs : list (fld * val A B)) f ty :
  Forall2 typed_field (schema k) fs → assoc f (schema k) = Some ty →
  ∃ v, assoc f fs = Some v ∧ typed_val ty v = true.
Proof.
  generalize (schema k). induction 1 as [|[f1 ty1] [f2 v2] sc fs' [Hf Hv] _ IH]; simpl in *; [done|].
  subst. case_decide; [|done]. intros [= ->]. eauto.
Qed.
Lemma assoc_shallow f fs : assoc f (map shallow_field fs) = shallow <$> assoc f fs.
Proof. apply (assoc_map shallow). Qed.

Definition set_in (fs : list (fld * mval)) (f : fld) : bool :=
  match assoc f fs with Some (VPtr (Some _)) => true | _ => false end.
Lemma unset_subs k fs l :
  Forall2 typed_field (schema k) fs →
  forallb (λ f, match assoc f (schema k) with Some (TPtr _) => true | _ => false end) l = true →
  filter (λ f, set_in fs f = true) l = [] → flat_map (field_subs fs) l = [].
Proof.
  intros Hty Hl Hf. induction l as [|f l IH]; [done|]. simpl in *.
  apply andb_true_iff in Hl as [Hl1 Hl]. destruct (assoc f (schema k)) as [ty|] eqn:E; [|done].
  destruct (typed_assoc k fs f ty Hty E) as (v&Ev&Hv). destruct ty; try done. destruct v; try done.
  rewrite filter_cons in Hf. unfold field_subs at 1. rewrite Ev. destruct o.
  - by rewrite decide_True in Hf by (unfold set_in; by rewrite Ev).
  - rewrite decide_False in Hf by (unfold set_in; by rewrite Ev). simpl. by apply IH.
Qed.
Lemma first_set_ok k fs l :
  Forall2 typed_field (schema k) fs →
  forallb (λ f, match assoc f (schema k) with Some (TPtr _) => true | _ => false end) l = true →
  length (filter (λ f, set_in fs f = true) l) ≤ 1 →
  first_set (map shallow_field fs) l = taddr <$> flat_map (field_subs fs) l.
Proof.
  intros Hty Hl Hn. induction l as [|f l IH]; [done|]. simpl in *.
  apply andb_true_iff in Hl as [Hl1 Hl]. destruct (assoc f (schema k)) as [ty|] eqn:E; [|done].
  destruct (typed_assoc k fs f ty Hty E) as (v&Ev&Hv). destruct ty; try done. destruct v; try done.
  rewrite assoc_shallow, Ev. unfold field_subs at 1. rewrite Ev. simpl.
  rewrite filter_cons in Hn. destruct o as [t|]; simpl.
  - rewrite decide_True in Hn by (unfold set_in; by rewrite Ev). simpl in Hn. rewrite (unset_subs k fs l); [done|done|done|].
    apply nil_length_inv. lia.
  - rewrite decide_False in Hn by (unfold set_in; by rewrite Ev). by apply IH.
Qed.

Lemma omap_id_None {X} (l : list (option X)) : None ∉ l → l = Some <$> omap id l.
Proof.
  induction l as [|[x|] l IH]; csimpl; [done|..].
  - intros H. f_equal. apply IH. set_solver.
  - set_solver.
Qed.

Lemma append_children_ok a k fs e h :
  let t := T a k fs in
  typed t = true → holds h t → exclusive t → no_nil_items t → e ∈ children_body k →
  append_children (map shallow_field fs) e h =
    Ok (taddr <$> flat_map (field_subs fs) (stmt_fields e), h).
Proof.
  intros t Ht Hh Hex Hnil He%stmts_fit. apply typed_unfold in Ht. apply holds_unfold in Hh as [_ Hh].
  destruct e as [f|f|f|l]; simpl in He.
  - destruct (assoc f (schema k)) as [ty|] eqn:E; [|done]. destruct ty; try done.
    destruct (typed_assoc k fs f _ Ht E) as (v&Ev&Hv). destruct v; try done.
    simpl. rewrite assoc_shallow, Ev. unfold field_subs. rewrite Ev. simpl.
    destruct o; simpl; done.
  - destruct (assoc f (schema k)) as [ty|] eqn:E; [|done]. destruct ty; try done.
    destruct (typed_assoc k fs f _ Ht E) as (v&Ev&Hv). destruct v; try done.
    simpl. rewrite assoc_shallow, Ev. unfold field_subs. rewrite Ev. simpl.
    destruct o as [[b l]|]; simpl; [|done].
    assert (holds_val h (VList (Some (b, l)))) as [Hb _].
    { rewrite Forall_forall in Hh. apply (Hh (f, VList (Some (b, l)))).
      clear -Ev. induction fs as [|[f' v] fs IH]; simpl in *; [done|]. case_decide.
      - simplify_eq. by left.
      - right. by apply IH. }
    rewrite (hbind_ok _ _ _ _ _ (hload_ok _ _ _ Hb)). unfold hret. do 2 f_equal.
    rewrite app_nil_r. rewrite (omap_id_None l) at 1.
    + change (map ?g (fmap ?f ?x)) with (fmap g (fmap f x)). rewrite <-list_fmap_compose. done.
    + apply (Hnil f b). done.
  - destruct (assoc f (schema k)) as [ty|] eqn:E; [|done]. destruct ty; try done.
    destruct (typed_assoc k fs f _ Ht E) as (v&Ev&Hv). destruct v; try done.
    simpl. rewrite assoc_shallow, Ev. unfold field_subs. rewrite Ev. done.
  - apply andb_true_iff in He as [[He _]%andb_true_iff Hl]. apply bool_decide_eq_true in He as ->.
    simpl. unfold hret. do 2 f_equal. apply (first_set_ok k fs); [done|done|].
    exact Hex.
Qed.

(** The nodes Children lists, in order. *)
Definition listed (t : mnode) : list mnode := flat_map (field_subs (fields t)) (visited (kind_of t)).

Lemma hmap_pure {X Y} (f : X → H Y) (g : X → Y) l h :
  (∀ x, x ∈ l → f x h = Ok (g x, h)) → hmap f l h = Ok (g <$> l, h).
Proof.
  induction l as [|x l IH]; intros Hf; [done|]. cbn [hmap].
  rewrite (hbind_ok _ _ _ _ _ (Hf x ltac:(by left))).
  rewrite (hbind_ok _ _ h (g <$> l) h); [done|]. apply IH. intros y Hy. apply Hf. by right.
Qed.
Lemma Children_ok t h :
  typed t = true → holds h t → exclusive t → no_nil_items t →
  Children (addr (ann t)) h = Ok (taddr <$> listed t, h).
Proof.
  destruct t as [a k fs]. intros Ht Hh Hex Hnil. pose proof Hh as [Ha _]%holds_unfold.
  unfold Children. rewrite (hbind_ok _ _ _ _ _ (hload_ok _ _ _ Ha)).
  erewrite (hbind_ok _ _ _ _ h); [|apply hmap_pure; intros e He; by apply (append_children_ok a k fs)].
  unfold hret. do 2 f_equal. unfold listed, visited. simpl.
  generalize (children_body k). intros l. induction l as [|e l IH]; [done|]. csimpl.
  by rewrite flat_map_app, fmap_app, <-IH.
Qed.

(** The sub-nodes that are not in ExprPostfix.Post. *)
Definition subs_listed (t : mnode) : list mnode :=
  flat_map (λ p, if skipped (kind_of t) p.1 then [] else val_subs p.2) (fields t).
Lemma flat_map_ext_in' {X Y} (f g : X → list Y) l :
  (∀ x, x ∈ l → f x = g x) → flat_map f l = flat_map g l.
Proof.
  induction l as [|x l IH]; intros Hfg; [done|]. simpl. f_equal.
  - apply Hfg. by left.
  - apply IH. intros y Hy. apply Hfg. by right.
Qed.
Lemma flat_map_perm {X Y} (f : X → list Y) l l' : l ≡ₚ l' → flat_map f l ≡ₚ flat_map f l'.
Proof.
  induction 1 as [|x l l' _ IH|x y l|? ? ? ? IH1 ? IH2]; simpl; [done|by rewrite IH| |by etrans].
  rewrite !app_assoc. by rewrite (Permutation_app_comm (f y)).
Qed.
Lemma listed_perm t : typed t = true → listed t ≡ₚ subs_listed t.
Proof.
  destruct t as [a k fs]. intros Ht. pose proof (typed_nodup _ _ _ Ht) as HU. apply typed_unfold in Ht.
  unfold listed, subs_listed. simpl. rewrite (flat_map_perm _ _ _ (visited_names k)).
  unfold node_fields.
  assert (∀ p, p ∈ fs → field_subs fs p.1 = val_subs p.2) as Hall.
  { intros [f v] Hp. unfold field_subs. by rewrite (assoc_elem f v). }
  revert Ht Hall. generalize (field_subs fs). intros F. generalize (schema k). clear HU.
  intros sc Hty Hall. induction Hty as [|[f ty] [f' v] sc fs [Hf Hv] _ IH]; [done|].
  simpl in Hf, Hv. subst f'. rewrite filter_cons. cbn [flat_map fst snd].
  assert (flat_map F (filter (λ p : fld * ftype, is_node_type p.2 = true ∧ skipped k p.1 = false) sc).*1 ≡ₚ
      flat_map (λ p : fld * mval, if skipped k p.1 then [] else val_subs p.2) fs) as IH'.
  { apply IH. intros p Hp. apply Hall. by right. }
  pose proof (Hall (f, v) ltac:(by left)) as Ev. simpl in Ev.
  case_decide as Hd; simpl.
  - destruct Hd as [_ Hsk]. simpl in Hsk. rewrite Hsk, Ev, IH'. done.
  - destruct (skipped k f) eqn:Hsk; [done|]. rewrite IH'.
    destruct ty; simpl in Hd; try (exfalso; by apply Hd); by destruct v.
Qed.
Lemma subs_listed_all t :
  (kind_of t = KExprPostfix → get FPost t = Some (VPtr None)) → typed t = true → subs_listed t = subs t.
Proof.
  destruct t as [a k fs]. unfold subs_listed, subs, get. simpl. intros Hp Ht.
  apply flat_map_ext_in'. intros [f v] Hin. simpl. unfold skipped. case_bool_decide as Hd; [|done].
  destruct Hd as [-> ->]. specialize (Hp eq_refl).
  rewrite (assoc_elem FPost v) in Hp; [by simplify_eq|by eapply typed_nodup|done].
Qed.

(** ** UpdateParentRefs *)
Lemma holds_agree h h' :
  (∀ t, (∀ x, x ∈ addrs t → h' !! x = h !! x) → holds h t → holds h' t) ∧
  (∀ v, (∀ x, x ∈ addrs_val v → h' !! x = h !! x) → holds_val h v → holds_val h' v).
Proof.
  apply tree_val_ind.
  - intros a k fs IH Hag. rewrite !holds_unfold. intros [? Hfs]. split.
    { rewrite Hag; [done|]. by left. }
    rewrite Forall_forall in *. intros p Hp. apply (IH p Hp); [|by apply Hfs].
    intros x Hx. apply Hag. simpl. right. apply elem_of_list_In, in_flat_map. exists p.
    split; by apply elem_of_list_In.
  - done.
  - done.
  - intros [[b l]|]; simpl; [|done]. intros Hag. rewrite Hag; [done|]. by left.
  - intros [[b l]|]; simpl; [|done]. intros Hag. rewrite Hag; [done|]. by left.
  - done.
  - done.
  - done.
  - done.
  - intros b l IH Hag. rewrite !holds_list_unfold. intros [? Hl]. split.
    { rewrite Hag; [done|]. by left. }
    rewrite Forall_forall in *. intros o Ho. specialize (IH o Ho). specialize (Hl o Ho).
    destruct o as [t|]; [|done]. apply IH; [|done]. intros x Hx. apply Hag. simpl. right.
    apply elem_of_list_In, in_flat_map. exists (Some t). split; by apply elem_of_list_In.
Qed.

Definition own_val (v : mval) : list loc :=
  match v with
  | VStrs (Some (b, _)) => [b] | VFloat (Some (b, _)) => [b] | VList (Some (b, _)) => [b] | _ => []
  end.
Lemma addrs_val_own v : addrs_val v = own_val v ++ flat_map addrs (val_subs v).
Proof.
  destruct v as [s|b|[[b l]|]|[[b l]|]|[t|]|t|[[b l]|]]; simpl; try done; try by rewrite app_nil_r.
  f_equal. induction l as [|[t|] l IH]; csimpl; by rewrite ?IH.
Qed.
Definition subs_skipped (t : mnode) : list mnode :=
  flat_map (λ p, if skipped (kind_of t) p.1 then val_subs p.2 else []) (fields t).
Lemma addrs_split a k fs :
  addrs (T a k fs) ≡ₚ addr a :: flat_map (λ p, own_val p.2) fs ++
    flat_map addrs (subs_listed (T a k fs)) ++ flat_map addrs (subs_skipped (T a k fs)).
Proof.
  simpl. apply Permutation_skip. unfold subs_listed, subs_skipped. simpl.
  induction fs as [|[f v] fs IH]; simpl; [done|]. rewrite IH, addrs_val_own, !flat_map_app.
  destruct (skipped k f); simpl; solve_Permutation.
Qed.

Lemma shallow_reparent p v : shallow (reparent_val p v) = shallow v.
Proof. by destruct v as [s|b|[[b l]|]|[[b l]|]|[[]|]|[]|[[b l]|]]. Qed.
Lemma addr_reparent p t : addr (ann (reparent p t)) = addr (ann t).
Proof. by destruct t. Qed.
Lemma addrs_reparent :
  (∀ t p, addrs (reparent p t) = addrs t) ∧ (∀ v p, addrs_val (reparent_val p v) = addrs_val v).
Proof.
  apply tree_val_ind; simpl; try done.
  - intros a k fs IH p. f_equal. generalize (Some (addr a)). intros q.
    induction IH as [|[f v] fs Hv _ IH]; simpl; [done|]. apply (f_equal2 app); [|exact IH].
    simpl in Hv. destruct (decide _); [reflexivity|]. apply Hv.

  - intros b l IH p. f_equal. induction IH as [|[t|] l Ht _ IH]; simpl; [done| |exact IH].
    apply (f_equal2 app); [apply Ht|exact IH].
Qed.
Lemma node_addrs_in t x : x ∈ node_addrs t → x ∈ addrs t.
Proof. intros (m&->&Hm)%elem_of_list_fmap. by apply nodes_addrs. Qed.

Lemma sub_in_nodes (t c : mnode) : c ∈ subs t → ∀ m, m ∈ nodes c → m ∈ nodes t.
Proof.
  destruct t as [a k fs]. unfold subs. simpl. intros Hc m Hm. right.
  apply elem_of_list_In, in_flat_map in Hc as (p&Hp&Hc%elem_of_list_In).
  apply elem_of_list_In, in_flat_map. exists p. split; [done|]. apply elem_of_list_In.
  destruct p as [f [s|b|[[b l]|]|[[b l]|]|[t|]|t|[[b l]|]]]; simpl in *; try by apply elem_of_nil in Hc.
  - by apply elem_of_list_singleton in Hc as ->.
  - by apply elem_of_list_singleton in Hc as ->.
  - apply elem_of_list_omap in Hc as (o&Ho&E). unfold id in E. subst o.
    apply elem_of_list_In, in_flat_map. exists (Some c). split; by apply elem_of_list_In.
Qed.
Lemma subs_listed_subs t c : c ∈ subs_listed t → c ∈ subs t.
Proof.
  unfold subs_listed, subs. intros (p&Hp&Hc%elem_of_list_In)%elem_of_list_In%in_flat_map.
  apply elem_of_list_In, in_flat_map. exists p. split; [done|]. apply elem_of_list_In.
  destruct (skipped _ _); [|done]. by apply elem_of_nil in Hc.
Qed.

(** Sub-nodes inherit what holds of the whole node. *)
Lemma typed_sub {A B} (t c : tree A B) : typed t = true → c ∈ subs t → typed c = true.
Proof.
  destruct t as [a k fs]. intros Ht%typed_unfold Hc. unfold subs in Hc. simpl in Hc.
  apply elem_of_list_In, in_flat_map in Hc as ([f v]&Hp%elem_of_list_In&Hc%elem_of_list_In).
  apply elem_of_list_lookup in Hp as [i Hi].
  destruct (Forall2_lookup_r _ _ _ _ _ Ht Hi) as ([f' ty]&_&[_ Hv]). simpl in Hc, Hv.
  destruct v as [s|b|[[b l]|]|[[b l]|]|[t|]|t|[[b l]|]]; simpl in Hc; try by apply elem_of_nil in Hc.
  - apply elem_of_list_singleton in Hc as ->. destruct ty; try done. by apply typed_ptr in Hv as [_ Hv].
  - apply elem_of_list_singleton in Hc as ->. destruct ty; try done. by apply typed_emb in Hv as [_ Hv].
  - destruct ty; try done. apply typed_list_unfold in Hv. rewrite Forall_forall in Hv.
    apply elem_of_list_omap in Hc as (o&Ho&E). unfold id in E. subst o. by apply (Hv _ Ho).
Qed.
Lemma holds_sub h t c : holds h t → c ∈ subs t → holds h c.
Proof.
  destruct t as [a k fs]. intros [_ Ht]%holds_unfold Hc. unfold subs in Hc. simpl in Hc.
  apply elem_of_list_In, in_flat_map in Hc as ([f v]&Hp%elem_of_list_In&Hc%elem_of_list_In).
  rewrite Forall_forall in Ht. specialize (Ht _ Hp). simpl in Hc, Ht.
  destruct v as [s|b|[[b l]|]|[[b l]|]|[t|]|t|[[b l]|]]; simpl in Hc; try by apply elem_of_nil in Hc.
  - by apply elem_of_list_singleton in Hc as ->.
  - by apply elem_of_list_singleton in Hc as ->.
  - apply (holds_list_unfold h b l) in Ht as [_ Ht]. rewrite Forall_forall in Ht.
    apply elem_of_list_omap in Hc as (o&Ho&E). unfold id in E. subst o. by apply (Ht _ Ho).
Qed.
Lemma height_sub {A B} (t c : tree A B) : c ∈ subs t → height c < height t.
Proof.
  destruct t as [a k fs]. intros Hc. unfold subs in Hc. simpl in Hc.
  apply elem_of_list_In, in_flat_map in Hc as ([f v]&Hp&Hc%elem_of_list_In).
  simpl. apply Nat.lt_succ_r.
  assert (height_val v ≤ list_max (map (λ p : fld * val A B, height_val p.2) fs)) as Hv.
  { assert (list_max (map (λ p : fld * val A B, height_val p.2) fs) ≤
            list_max (map (λ p : fld * val A B, height_val p.2) fs)) as Hm%list_max_bound by lia.
    rewrite Forall_fmap, Forall_forall in Hm. apply (Hm (f, v)). by apply elem_of_list_In. }
  etrans; [|exact Hv]. clear Hv.
  destruct v as [s|b|[[b l]|]|[[b l]|]|[t|]|t|[[b l]|]]; simpl in Hc; try by apply elem_of_nil in Hc.
  - by apply elem_of_list_singleton in Hc as ->.
  - by apply elem_of_list_singleton in Hc as ->.
  - apply elem_of_list_omap in Hc as (o&Ho&E). unfold id in E. subst o. simpl.
    match goal with |- _ ≤ ?m => assert (m ≤ m) as Hm%list_max_bound by lia end.
    rewrite Forall_fmap, Forall_forall in Hm. by apply (Hm _ Ho).
Qed.

Lemma wf_sub (t c : mnode) : well_formed t → c ∈ subs t → well_formed c.
Proof. intros Hw Hc m Hm. apply Hw. by eapply sub_in_nodes. Qed.

Definition upd_ok (n : nat) (t : mnode) (p : option loc) (h h' : heap) : Prop :=
  updateParentRefs n p (taddr t) h = Ok (tt, h') ∧ holds h' (reparent p t) ∧
  ∀ x, x ∉ node_addrs t → h' !! x = h !! x.
Definition upd_pre (n : nat) (h : heap) (t : mnode) : Prop :=
  typed t = true ∧ holds h t ∧ well_formed t ∧ height t ≤ n.

Lemma upd_list n p cs h :
  (∀ t p h, upd_pre n h t → NoDup (addrs t) → ∃ h', upd_ok n t p h h') →
  Forall (upd_pre n h) cs → NoDup (flat_map addrs cs) →
  ∃ us h', hmap (updateParentRefs n p) (taddr <$> cs) h = Ok (us, h') ∧
    Forall (λ c, holds h' (reparent p c)) cs ∧
    ∀ x, x ∉ flat_map node_addrs cs → h' !! x = h !! x.
Proof.
  intros IHn. revert h. induction cs as [|c cs IH]; intros h Hpre HU.
  - exists [], h. split; [done|]. split; [constructor|done].
  - apply Forall_cons in Hpre as [Hc Hcs]. simpl in HU. apply NoDup_app in HU as (U1&Hdis&U2).
    destruct (IHn c p h Hc U1) as (h1&E1&Hh1&Hf1).
    destruct (IH h1) as (us&h2&E2&Hh2&Hf2); [|done|].
    { rewrite Forall_forall in *. intros c' Hc'. destruct (Hcs c' Hc') as (?&?&?&?).
      split; [done|]. split; [|done]. eapply (proj1 (holds_agree h h1)); [|done].
      intros x Hx. apply Hf1. intros Hx1%node_addrs_in. apply (Hdis x Hx1).
      apply elem_of_list_In, in_flat_map. exists c'. split; by apply elem_of_list_In. }
    exists (tt :: us), h2. cbn [hmap]. rewrite fmap_cons. cbn [hmap].
    rewrite (hbind_ok _ _ _ _ _ E1), (hbind_ok _ _ _ _ _ E2). split; [done|]. split.
    + apply Forall_cons. split; [|done]. eapply (proj1 (holds_agree h1 h2)); [|done].
      intros x Hx. rewrite (proj1 addrs_reparent) in Hx. apply Hf2.
      intros (c'&Hc'&Hx'%elem_of_list_In)%elem_of_list_In%in_flat_map. apply (Hdis x Hx).
      apply elem_of_list_In, in_flat_map. exists c'. split; [done|]. by apply elem_of_list_In, node_addrs_in.
    + intros x Hx. cbn [flat_map] in Hx. apply not_elem_of_app in Hx as [Hx1 Hx2].
      by rewrite Hf2, Hf1.
Qed.

Lemma flat_map_node_addrs cs x : x ∈ flat_map node_addrs cs → x ∈ flat_map addrs cs.
Proof.
  intros (c&Hc&Hx%elem_of_list_In)%elem_of_list_In%in_flat_map.
  apply elem_of_list_In, in_flat_map. exists c. split; [done|]. by apply elem_of_list_In, node_addrs_in.
Qed.
Lemma in_subs_listed a k fs f v c :
  (f, v) ∈ fs → skipped k f = false → c ∈ val_subs v → c ∈ subs_listed (T a k fs).
Proof.
  intros Hp Hs Hc. unfold subs_listed. simpl. apply elem_of_list_In, in_flat_map. exists (f, v).
  split; [by apply elem_of_list_In|]. apply elem_of_list_In. simpl. by rewrite Hs.
Qed.
Lemma in_subs_skipped a k fs f v c :
  (f, v) ∈ fs → skipped k f = true → c ∈ val_subs v → c ∈ subs_skipped (T a k fs).
Proof.
  intros Hp Hs Hc. unfold subs_skipped. simpl. apply elem_of_list_In, in_flat_map. exists (f, v).
  split; [by apply elem_of_list_In|]. apply elem_of_list_In. simpl. by rewrite Hs.
Qed.
Lemma in_own fs (f : fld) v x : (f, v) ∈ fs → x ∈ own_val v → x ∈ flat_map (λ p, own_val p.2) fs.
Proof.
  intros Hp Hx. apply elem_of_list_In, in_flat_map. exists (f, v). split; by apply elem_of_list_In.
Qed.
Lemma sub_node_addrs t c x : c ∈ subs t → x ∈ node_addrs c → x ∈ node_addrs t.
Proof.
  intros Hc (m&->&Hm)%elem_of_list_fmap. apply elem_of_list_fmap. exists m. split; [done|].
  by eapply sub_in_nodes.
Qed.

(** The fields of a node after the nodes in them have been updated. *)
Lemma reparent_fields a k fs h h' q :
  NoDup (addrs (T a k fs)) → Forall (λ p, holds_val h p.2) fs →
  Forall (λ c, holds h' (reparent q c)) (subs_listed (T a k fs)) →
  (∀ x, x ∉ addr a :: flat_map node_addrs (subs_listed (T a k fs)) → h' !! x = h !! x) →
  Forall (λ p, holds_val h' p.2)
    (map (λ p, (p.1, if decide (k = KExprPostfix ∧ p.1 = FPost) then p.2 else reparent_val q p.2)) fs).
Proof.
  intros HU Hfs Hls Hfr. rewrite addrs_split in HU.
  apply NoDup_cons in HU as [Ha (_&Hd&HU)%NoDup_app]. apply NoDup_app in HU as (_&Hd2&_).
  assert (∀ x, x ∈ flat_map (λ p, own_val p.2) fs → h' !! x = h !! x) as Hown.
  { intros x Hx. apply Hfr. rewrite not_elem_of_cons. split.
    - intros ->. apply Ha. apply elem_of_app. by left.
    - intros Hx2%flat_map_node_addrs. apply (Hd x Hx). apply elem_of_app. by left. }
  assert (∀ x, x ∈ flat_map addrs (subs_skipped (T a k fs)) → h' !! x = h !! x) as Hskip.
  { intros x Hx. apply Hfr. rewrite not_elem_of_cons. split.
    - intros ->. apply Ha. rewrite !elem_of_app. tauto.
    - intros Hx2%flat_map_node_addrs. by apply (Hd2 x Hx2). }
  apply Forall_fmap. rewrite Forall_forall in Hfs. rewrite Forall_forall in Hls. apply Forall_forall.
  intros [f v] Hp. specialize (Hfs _ Hp). simpl in *.
  destruct (skipped k f) eqn:Hs; unfold skipped in Hs.
  - pose proof Hs as Hs'. apply bool_decide_eq_true in Hs'. rewrite decide_True by done. clear Hs'.
    apply (proj2 (holds_agree h h')); [|done]. intros x. rewrite addrs_val_own, elem_of_app.
    intros [Hx|Hx]; [apply Hown; by eapply in_own|]. apply Hskip.
    apply elem_of_list_In, in_flat_map in Hx as (c&Hc%elem_of_list_In&Hx).
    apply elem_of_list_In, in_flat_map. exists c. split; [|done]. apply elem_of_list_In.
    by eapply in_subs_skipped.
  - pose proof Hs as Hs'. apply bool_decide_eq_false in Hs'. rewrite decide_False by done. clear Hs'.
    pose proof (λ c, in_subs_listed a k fs f v c Hp Hs) as Hin.
    destruct v as [s|b|[[b l]|]|[[b l]|]|[t|]|t|[[b l]|]]; try done.
    + simpl in *. rewrite Hown; [done|]. eapply in_own; [done|]. by left.
    + simpl in *. rewrite Hown; [done|]. eapply in_own; [done|]. by left.
    + apply (Hls t). apply Hin. by left.
    + apply (Hls t). apply Hin. by left.
    + apply holds_list_unfold in Hfs as [Hb Hl]. cbn [reparent_val]. apply holds_list_unfold. split.
      * rewrite Hown; [|eapply in_own; [done|]; by left]. rewrite Hb. do 2 f_equal.
        rewrite map_map. apply map_ext. intros [t|]; [|done]. simpl. unfold compose. by rewrite addr_reparent.
      * apply Forall_fmap. rewrite Forall_forall in *. intros [t|] Ho; [|done]. simpl.
        apply Hls, Hin. simpl. apply elem_of_list_omap. by exists (Some t).
Qed.

Lemma updateParentRefs_ok n t p h :
  upd_pre n h t → NoDup (addrs t) → ∃ h', upd_ok n t p h h'.
Proof.
  revert t p h. induction n as [|n IH]; intros [a k fs] p h (Ht&Hh&Hw&Hn) HU; [simpl in Hn; lia|].
  pose proof Hh as [Ha Hfs]%holds_unfold.
  set (h0 := <[addr a := CNode k (at_pos a) p (map shallow_field fs)]> h).
  set (t := T a k fs) in *. set (t0 := T (Hdr (addr a) (at_pos a) p) k fs).
  assert (∀ x, x ≠ addr a → h0 !! x = h !! x) as H0.
  { intros x Hx. by apply lookup_insert_ne. }
  assert (addr a ∉ flat_map (λ p : fld * mval, addrs_val p.2) fs) as Hna.
  { by apply NoDup_cons in HU as [? _]. }
  assert (Forall (λ p, holds_val h0 p.2) fs) as Hfs0.
  { rewrite Forall_forall in *. intros q Hq. apply (proj2 (holds_agree h h0)); [|by apply Hfs].
    intros x Hx. apply H0. intros ->. apply Hna. apply elem_of_list_In, in_flat_map. exists q.
    split; by apply elem_of_list_In. }
  assert (holds h0 t0) as Hh0.
  { apply holds_unfold. split; [|done]. apply lookup_insert. }
  assert (typed t0 = true) as Ht0 by exact Ht.
  assert (Children (addr a) h0 = Ok (taddr <$> listed t0, h0)) as EC.
  { apply (Children_ok t0 h0); [done|done|..]; apply (Hw t); by left. }
  assert (listed t0 = listed t) as El by done. rewrite El in EC. clear El.
  pose proof (listed_perm t Ht) as HP.
  pose proof (addrs_split a k fs) as HS. fold t in HS.
  destruct (upd_list n (Some (addr a)) (listed t) h0) as (us&h1&E1&Hh1&Hf1).
  { intros. by apply IH. }
  { rewrite Forall_forall. intros c Hc. rewrite HP in Hc. apply subs_listed_subs in Hc.
    split; [by eapply typed_sub|]. split; [by apply (holds_sub h0 t0)|].
    split; [by apply (wf_sub t)|]. pose proof (height_sub t c Hc). lia. }
  { rewrite HS in HU. apply NoDup_cons in HU as [_ (_&_&HU)%NoDup_app].
    apply NoDup_app in HU as [HU _]. by rewrite (flat_map_perm _ _ _ HP). }
  exists h1. split; [|split].
  - cbn [updateParentRefs]. rewrite (hbind_ok _ _ _ (addr a) h0).
    2: { unfold set_parent, taddr. simpl. rewrite (hbind_ok _ _ _ _ _ (hload_ok _ _ _ Ha)). done. }
    rewrite (hbind_ok _ _ _ _ _ EC). by rewrite (hbind_ok _ _ _ _ _ E1).
  - simpl. apply (holds_unfold h1 (Hdr (addr a) (at_pos a) p)). split.
    + simpl. rewrite Hf1.
      * unfold h0. rewrite lookup_insert. do 2 f_equal. rewrite map_map. apply map_ext.
        intros [f v]. unfold shallow_field. simpl. f_equal. case_decide; [done|].
        symmetry. apply shallow_reparent.
      * intros Hx%flat_map_node_addrs. rewrite (flat_map_perm _ _ _ HP) in Hx.
        rewrite HS in HU. apply NoDup_cons in HU as [HU _]. apply HU. rewrite !elem_of_app. tauto.
    + apply (reparent_fields a k fs h0 h1 (Some (addr a))); [done|done|..].
      * fold t. by rewrite <-HP.
      * intros x. rewrite not_elem_of_cons. intros [_ Hx]. apply Hf1. fold t in Hx.
        by rewrite (flat_map_perm _ _ _ HP).
  - intros x Hx. rewrite Hf1.
    + apply H0. intros ->. apply Hx. apply elem_of_list_fmap. exists t. split; [done|]. by left.
    + intros (c&Hc%elem_of_list_In&Hxc%elem_of_list_In)%elem_of_list_In%in_flat_map. apply Hx.
      rewrite HP in Hc. apply subs_listed_subs in Hc. by eapply sub_node_addrs.
Qed.

Lemma UpdateParentRefs_ok n a fs h :
  let t := T a KAST fs in
  upd_pre (S n) h t → NoDup (addrs t) →
  ∃ h', UpdateParentRefs n (addr a) h = Ok (tt, h') ∧
    holds h' (T a KAST (map (λ p, (p.1, reparent_val None p.2)) fs)) ∧
    ∀ x, x ∉ node_addrs t ∨ x = addr a → h' !! x = h !! x.
Proof.
  intros t (Ht&Hh&Hw&Hn) HU. pose proof Hh as [Ha Hfs]%holds_unfold.
  pose proof (listed_perm t Ht) as HP. pose proof (addrs_split a KAST fs) as HS. fold t in HS.
  assert (Children (addr a) h = Ok (taddr <$> listed t, h)) as EC.
  { apply (Children_ok t h); [done|done|..]; apply (Hw t); by left. }
  destruct (upd_list n None (listed t) h) as (us&h1&E1&Hh1&Hf1).
  { intros. by apply updateParentRefs_ok. }
  { rewrite Forall_forall. intros c Hc. rewrite HP in Hc. apply subs_listed_subs in Hc.
    split; [by eapply typed_sub|]. split; [by apply (holds_sub h t)|].
    split; [by apply (wf_sub t)|]. pose proof (height_sub t c Hc). lia. }
  { pose proof HU as HU'. rewrite HS in HU'. apply NoDup_cons in HU' as [_ (_&_&HU')%NoDup_app].
    apply NoDup_app in HU' as [HU' _]. by rewrite (flat_map_perm _ _ _ HP). }
  assert (addr a ∉ flat_map node_addrs (listed t)) as Hna.
  { intros Hx%flat_map_node_addrs. rewrite (flat_map_perm _ _ _ HP) in Hx.
    rewrite HS in HU. apply NoDup_cons in HU as [HU _]. apply HU. rewrite !elem_of_app. tauto. }
  exists h1. split; [|split].
  - unfold UpdateParentRefs. rewrite (hbind_ok _ _ _ _ _ EC). by rewrite (hbind_ok _ _ _ _ _ E1).
  - apply holds_unfold. split.
    + rewrite Hf1 by done. rewrite Ha. do 2 f_equal. rewrite map_map. apply map_ext.
      intros [f v]. unfold shallow_field. simpl. f_equal. symmetry. apply shallow_reparent.
    + pose proof (reparent_fields a KAST fs h h1 None) as Hr.
      rewrite (map_ext _ (λ p : fld * mval, (p.1, reparent_val None p.2))) in Hr.
      2: { intros p. by rewrite decide_False by naive_solver. }
      apply Hr; [done|done|..].
      * fold t. by rewrite <-HP.
      * intros x. rewrite not_elem_of_cons. intros [_ Hx]. apply Hf1. fold t in Hx.
        by rewrite (flat_map_perm _ _ _ HP).
  - intros x [Hx| ->]; [|by apply Hf1]. apply Hf1.
    intros (c&Hc%elem_of_list_In&Hxc%elem_of_list_In)%elem_of_list_In%in_flat_map. apply Hx.
    rewrite HP in Hc. apply subs_listed_subs in Hc. by eapply sub_node_addrs.
Qed.
