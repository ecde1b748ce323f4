(** * The properties of Clone, Children and UpdateParentRefs: proofs *)
From stdpp Require Import base list option strings gmap.
From Verif Require Import GoBase EtxAst EtxHeap EtxHeapSpec EtxClone EtxChildren EtxPlace.

(** ** An address and a heap determine the node *)
Lemma holds_unique h :
  (∀ t1 t2, holds h t1 → holds h t2 → addr (ann t1) = addr (ann t2) → t1 = t2) ∧
  (∀ v1 v2, holds_val h v1 → holds_val h v2 → shallow v1 = shallow v2 → v1 = v2).
Proof.
  apply tree_val_ind.
  - intros [x1 p1 q1] k1 fs1 IH [[x2 p2 q2] k2 fs2]. rewrite !holds_unfold. simpl.
    intros [E1 H1] [E2 H2] <-. rewrite E1 in E2. injection E2 as <- <- <- Efs. clear E1. f_equal.
    revert fs2 H2 Efs. induction IH as [|[f1 v1] fs1 Hv _ IHfs]; intros [|[f2 v2] fs2] H2 Efs; try done.
    apply Forall_cons in H1 as [Hv1 H1]. apply Forall_cons in H2 as [Hv2 H2].
    cbn [map] in Efs. unfold shallow_field at 1 3 in Efs. simpl in *. injection Efs as <- Ev Efs.
    f_equal; [|by apply IHfs]. f_equal. by apply Hv.
  - intros s [| | | | | |]; simpl; congruence.
  - intros s [| | | | | |]; simpl; congruence.
  - intros [[b l]|] [| |[[b' l']|]| | | |]; simpl; try congruence.
  - intros [[b l]|] [| | |[[b' l']|]| | |]; simpl; try congruence.
  - intros [| | | |[]| |]; simpl; congruence.
  - intros t IH [| | | |[t2|]| |]; simpl; try congruence. intros H1 H2 [= E]. do 2 f_equal. by apply IH.
  - intros t IH [| | | | | t2|]; simpl; try congruence. intros H1 H2 [= E]. f_equal. by apply IH.
  - intros [| | | | | |[[]|]]; simpl; congruence.
  - intros b l IH [| | | | | |[[b2 l2]|]]; try (simpl; congruence). rewrite !holds_list_unfold.
    intros [E1 H1] [E2 H2]. simpl. intros [= <-]. rewrite E1 in E2. injection E2 as El. clear E1. do 3 f_equal.
    revert l2 H2 El. induction IH as [|[t|] l Ht _ IHl]; intros [|[t2|] l2] H2 El; simpl in El; try done.
    + apply Forall_cons in H1 as [Hv1 H1]. apply Forall_cons in H2 as [Hv2 H2]. injection El as Ea El.
      f_equal; [|by apply IHl]. f_equal. by apply Ht.
    + apply Forall_cons in H1 as [Hv1 H1]. apply Forall_cons in H2 as [Hv2 H2]. injection El as El. f_equal. by apply IHl.
Qed.

(** ** Clone *)
(*P C25_clone_is_a_structural_copy *)
Lemma p25 n h (t : mnode) :
  typed t = true → holds h t → height t ≤ n →
  ∃ h' t', Clone n (addr (ann t)) h = Ok (addr (ann t'), h') ∧ holds h' t' ∧ strip t' = strip t.
Proof. intros Ht Hh Hn. destruct (Clone_ok n t h Ht Hh Hn) as (h'&t'&?&?&?&_). eauto 6. Qed.

Definition grows {A} (m : H A) : Prop := ∀ h a h', m h = Ok (a, h') → h ⊆ h'.
Lemma grows_ret {A} (a : A) : grows (hret a).
Proof. intros h a' h' [= _ <-]. done. Qed.
Lemma grows_panic {A} : grows (@hpanic A).
Proof. by intros h a' h'. Qed.
Lemma grows_bind {A B} (m : H A) (f : A → H B) : grows m → (∀ a, grows (f a)) → grows (hbind m f).
Proof.
  intros Hm Hf h b h'. unfold hbind. destruct (m h) as [[a h1]| |] eqn:E; try done.
  intros E2. etrans; [by eapply Hm|by eapply Hf].
Qed.
Lemma grows_load l : grows (hload l).
Proof. intros h a h'. unfold hload. destruct (h !! l); [|done]. by intros [= _ <-]. Qed.
Lemma grows_alloc c : grows (halloc c).
Proof. intros h a h'. unfold halloc. intros [= _ <-]. apply insert_subseteq, fresh_notin. Qed.
Lemma grows_map {A B} (f : A → H B) l : (∀ a, grows (f a)) → grows (hmap f l).
Proof.
  intros Hf. induction l as [|a l IH]; simpl; [apply grows_ret|].
  apply grows_bind; [done|]. intros b. apply grows_bind; [done|]. intros bs. apply grows_ret.
Qed.
Create HintDb grows.
Global Hint Resolve grows_ret grows_panic grows_bind grows_load grows_alloc grows_map : grows.
Lemma Clone_grows n l : grows (Clone n l).
Proof.
  revert l. induction n as [|n IH]; intros l; [by intros h a h'|]. simpl. unfold clone_node.
  apply grows_bind; [apply grows_load|]. intros [k p q fs| | |]; eauto with grows.
  apply grows_bind; [|eauto with grows]. apply grows_map. intros [f ty]. unfold clone_field.
  assert (∀ o, grows (clone_ptr (Clone n) o)) as Hptr.
  { intros [l'|]; simpl; eauto with grows. }
  destruct (assoc f (clone_body k)) as [e|].
  - destruct (assoc f fs) as [v|]; [|eauto with grows].
    apply grows_bind; [|eauto with grows].
    destruct e, v as [s|b|[o|]|[o|]|[o|]|o|[o|]]; simpl; eauto with grows;
      (apply grows_bind; [eauto with grows|]); intros [] ; eauto with grows.
  - apply grows_bind; [|eauto with grows]. destruct ty; simpl; eauto with grows.
Qed.
(*P C48_clone_leaves_memory_unchanged *)
Lemma p48 n l h l' h' :
  Clone n l h = Ok (l', h') → ∀ x c, h !! x = Some c → h' !! x = Some c.
Proof. intros E x c Hx. eapply lookup_weaken; [done|]. by eapply Clone_grows. Qed.
(*P C48_clone_leaves_its_source_unchanged *)
Lemma p48b n h (t : mnode) l' h' : holds h t → Clone n (addr (ann t)) h = Ok (l', h') → holds h' t.
Proof. intros Hh E. eapply (proj1 (holds_mono h h' (Clone_grows _ _ _ _ _ E))), Hh. Qed.

Lemma Clone_result n h t l' h' :
  typed t = true → holds h t → height t ≤ n → Clone n (addr (ann t)) h = Ok (l', h') →
  ∃ t', addr (ann t') = l' ∧ holds h' t' ∧ strip t' = strip t ∧
        cloned h h' (addrs t) (shared t) (copied t) (addrs t') (nodes t').
Proof.
  intros Ht Hh Hn E. destruct (Clone_ok n t h Ht Hh Hn) as (h1&t'&E1&?&?&?).
  rewrite E1 in E. simplify_eq. eauto 6.
Qed.
Lemma flat_map_nil {X Y} (f : X → list Y) l : (∀ x, x ∈ l → f x = []) → flat_map f l = [].
Proof.
  induction l as [|x l IH]; intros Hf; [done|]. simpl. rewrite (Hf x) by (by left).
  apply IH. intros y Hy. apply Hf. by right.
Qed.
Definition plain (m : mnode) : Prop :=
  (kind_of m = KFuncDecl → get FType m = Some (VPtr None)) ∧
  (kind_of m = KValue → get FHeredoc m = Some (VPtr None)).
Lemma not_shared t : no_sharing t → typed t = true → shared t = [] ∧ copied t = [].
Proof.
  revert t.
  assert ((∀ t, (∀ m, m ∈ nodes t → plain m) → typed t = true → shared t = [] ∧ copied t = []) ∧
    (∀ v ty, (∀ m, m ∈ nodes_val v → plain m) → typed_val ty v = true →
      shared_val v = [] ∧ copied_val v = [])) as [? _]; [|done].
  apply tree_val_ind; try done.
  - intros a k fs IH Hns Ht. pose proof (typed_nodup _ _ _ Ht) as HU. apply typed_unfold in Ht.
    assert (∀ p, p ∈ fs → shared_field k p = [] ∧ copied_field k p = []) as Hall.
    { intros [f v] Hp. unfold shared_field, copied_field. simpl.
      destruct (Hns (T a k fs) ltac:(by left)) as [N1 N2]. unfold get in N1, N2. simpl in N1, N2.
      pose proof (assoc_elem f v fs HU Hp) as Ev.
      case_decide as D1; [destruct D1 as [-> ->]; specialize (N1 eq_refl); by simplify_eq|].
      case_decide as D2; [destruct D2 as [-> ->]; specialize (N2 eq_refl); by simplify_eq|].
      apply elem_of_list_lookup in Hp as Hi. destruct Hi as [i Hi].
      destruct (Forall2_lookup_r _ _ _ _ _ Ht Hi) as ([f' ty]&_&[_ Hv]).
      rewrite Forall_forall in IH. apply (IH _ Hp ty); [|done].
      intros m Hm. apply Hns. simpl. right. apply elem_of_list_In, in_flat_map. exists (f, v).
      split; by apply elem_of_list_In. }
    split; apply flat_map_nil; intros p Hp; by apply (Hall p Hp).
  - intros t IH ty Hm Ht. simpl. destruct ty; try done. apply IH; [exact Hm|].
    by apply typed_ptr in Ht as [_ Ht].
  - intros t IH ty Hm Ht. simpl. destruct ty; try done. apply IH; [exact Hm|].
    by apply typed_emb in Ht as [_ Ht].
  - intros b l IH ty Hm Ht. destruct ty; try done. apply typed_list_unfold in Ht.
    simpl. simpl in Hm. rewrite Forall_forall in *.
    assert (∀ o, o ∈ l → opt_shared o = [] ∧ opt_copied o = []) as Hall.
    { intros [t|] Ho; [|done]. apply (IH _ Ho); [|by apply (Ht _ Ho)].
      intros m Hin. apply Hm. apply elem_of_list_In, in_flat_map. exists (Some t).
      split; by apply elem_of_list_In. }
    split; apply flat_map_nil; intros p Hp; by apply (Hall p Hp).
Qed.

(*P C26_clone_is_deep_partial *)
(** Missing: nodes with a Heredoc in a Value or a Type in a FuncDecl somewhere; for
    them it is false (C26_clone_is_deep_refuted).  Full statement: the same without the
    hypothesis [no_sharing t]. *)
Lemma p26 n h (t : mnode) l' h' :
  typed t = true → holds h t → height t ≤ n → no_sharing t →
  Clone n (addr (ann t)) h = Ok (l', h') →
  ∃ t', addr (ann t') = l' ∧ holds h' t' ∧
    (∀ x, x ∈ addrs t → x ∉ addrs t') ∧
    (∀ h2, (∀ x, x ∉ addrs t → h2 !! x = h' !! x) → holds h2 t') ∧
    (∀ h2, (∀ x, x ∉ addrs t' → h2 !! x = h' !! x) → holds h2 t).
Proof.
  intros Ht Hh Hn Hns E. destruct (Clone_result n h t l' h') as (t'&?&Hh'&Hs&C); [done..|].
  pose proof (not_shared t Hns Ht) as [Es _].
  assert (∀ x, x ∈ addrs t → x ∉ addrs t') as Hdis.
  { intros x Hx Hx'. destruct (cl_new C x Hx') as [Hn'|Hx2].
    - apply Hn'. by apply (proj1 (holds_addrs h) t).
    - rewrite Es in Hx2. by apply elem_of_nil in Hx2. }
  exists t'. split; [done|]. split; [done|]. split; [done|]. split.
  - intros h2 Hag. apply (proj1 (holds_agree h' h2)); [|done]. intros x Hx. apply Hag.
    intros Hx2. by apply (Hdis x).
  - intros h2 Hag. apply (proj1 (holds_agree h' h2)); [|by eapply p48b].
    intros x Hx. apply Hag. by apply Hdis.
Qed.

(*P C52_clone_shares_exactly *)
(** What the clone has in common with the memory that existed before is [shared t]:
    the Type of each FuncDecl, and what the Heredoc of a Value refers to. *)
Lemma p52 n h (t : mnode) l' h' :
  typed t = true → holds h t → height t ≤ n → Clone n (addr (ann t)) h = Ok (l', h') →
  ∃ t', addr (ann t') = l' ∧ holds h' t' ∧ (∀ x, x ∈ addrs t' ∧ x ∈ dom h ↔ x ∈ shared t) ∧
    (NoDup (addrs t) → NoDup (addrs t')).
Proof.
  intros Ht Hh Hn E. destruct (Clone_result n h t l' h') as (t'&?&Hh'&Hs&C); [done..|].
  exists t'. split; [done|]. split; [done|]. split; [|apply (cl_nodup C)]. intros x. split.
  - intros [Hx Hd]. by destruct (cl_new C x Hx).
  - intros Hx. split; [by apply (cl_keep C)|]. apply (proj1 (holds_addrs h) t Hh).
    by apply shared_addrs.
Qed.

(*P C27_clone_drops_parents_partial *)
(** Missing: as for C26.  Full statement: the same without [no_sharing t]. *)
Lemma p27 n h (t : mnode) l' h' :
  typed t = true → holds h t → height t ≤ n → no_sharing t →
  Clone n (addr (ann t)) h = Ok (l', h') →
  ∃ t', addr (ann t') = l' ∧ holds h' t' ∧ ∀ m, m ∈ nodes t' → par (ann m) = None.
Proof.
  intros Ht Hh Hn Hns E. destruct (Clone_result n h t l' h') as (t'&?&Hh'&Hs&C); [done..|].
  exists t'. split; [done|]. split; [done|]. intros m Hm.
  destruct (not_shared t Hns Ht) as [Es Ec]. destruct (cl_par C m Hm) as [?|[Hx|(m0&Hm0&_)]]; [done|..].
  - rewrite Es in Hx. by apply elem_of_nil in Hx.
  - rewrite Ec in Hm0. by apply elem_of_nil in Hm0.
Qed.

(*P C53_parents_in_a_clone *)
(** A clone itself has no parent.  A node in it has one only if the node is shared with
    the source (so has the parent it has there) or is the copy of a Heredoc of a Value,
    whose parent it takes over; and all these Heredocs are copied. *)
Lemma p53 n h (t : mnode) l' h' :
  typed t = true → holds h t → height t ≤ n → Clone n (addr (ann t)) h = Ok (l', h') →
  ∃ t', addr (ann t') = l' ∧ holds h' t' ∧ par (ann t') = None ∧
    (∀ m, m ∈ nodes t' → par (ann m) = None ∨ addr (ann m) ∈ shared t ∨
       ∃ m0, m0 ∈ copied t ∧ strip m = strip m0 ∧ par (ann m) = par (ann m0)) ∧
    (∀ m0, m0 ∈ copied t → ∃ m, m ∈ nodes t' ∧ strip m = strip m0 ∧ par (ann m) = par (ann m0) ∧
       addr (ann m) ∉ dom h).
Proof.
  intros Ht Hh Hn E. destruct (Clone_result n h t l' h') as (t'&El&Hh'&Hs&C); [done..|].
  exists t'. split; [done|]. split; [done|]. split; [|split; [apply (cl_par C)|apply (cl_cop C)]].
  destruct t as [a k fs]. pose proof Hh as [Ha _]%holds_unfold.
  destruct n as [|n]; [simpl in Hn; lia|]. simpl in E. unfold clone_node in E.
  rewrite (hbind_ok _ _ _ _ _ (hload_ok _ _ _ Ha)) in E. unfold hbind in E.
  destruct (hmap _ _ _) as [[fs' h1]| |]; [|done..]. unfold halloc in E. injection E as E1 E2.
  destruct t' as [a' k' gs]. apply holds_unfold in Hh' as [Ha' _]. simpl in El. simpl.
  rewrite El, <-E2, <-E1, lookup_insert in Ha'. congruence.
Qed.

(** ** Children *)
(*P C28_children_are_the_sub_nodes_partial *)
(** Missing: an ExprPostfix with a Post, for which it is false
    (C28_children_are_the_sub_nodes_refuted).  Full statement: the same without the
    hypothesis on Post. *)
Lemma p28 h (t : mnode) :
  typed t = true → holds h t → exclusive t → no_nil_items t →
  (kind_of t = KExprPostfix → get FPost t = Some (VPtr None)) →
  ∃ l, Children (addr (ann t)) h = Ok (Some <$> l, h) ∧ l ≡ₚ sub_addrs t.
Proof.
  intros Ht Hh He Hi Hp. exists (addr ∘ ann <$> listed t). split.
  - rewrite Children_ok by done. by rewrite <-list_fmap_compose.
  - unfold sub_addrs. by rewrite (listed_perm t Ht), subs_listed_all.
Qed.
(*P C28_children_have_a_fixed_order *)
(** For each type of node there is a list of fields, without repetition, and Children
    is the concatenation of what these fields hold. *)
Lemma p28o :
  ∃ order : kind → list fld, (∀ k, NoDup (order k)) ∧
  ∀ h (t : mnode), typed t = true → holds h t → exclusive t → no_nil_items t →
  Children (addr (ann t)) h =
    Ok (Some <$> flat_map (λ f, match get f t with
                                | Some v => addr ∘ ann <$> val_subs v | None => [] end) (order (kind_of t)), h).
Proof.
  exists visited. split.
  { intros k. apply (bool_decide_eq_true_1 (NoDup (visited k))). revert k. apply for_all_kinds. by vm_compute. }
  intros h t Ht Hh He Hi. rewrite Children_ok by done. do 2 f_equal. unfold listed, get.
  rewrite !fmap_flat_map. apply flat_map_ext_in'. intros f _. unfold field_subs.
  destruct (assoc f (fields t)); [|done]. by rewrite <-list_fmap_compose.
Qed.
(*P C54_children_without_post *)
(** ExprPostfix.Post is what Children leaves out, and nothing else. *)
Lemma p54 h (t : mnode) :
  typed t = true → holds h t → exclusive t → no_nil_items t →
  ∃ l, Children (addr (ann t)) h = Ok (Some <$> l, h) ∧
  l ≡ₚ addr ∘ ann <$> flat_map (val_subs ∘ snd)
         (filter (λ p, ¬ (kind_of t = KExprPostfix ∧ p.1 = FPost)) (fields t)).
Proof.
  intros Ht Hh He Hi. exists (addr ∘ ann <$> listed t). split.
  - rewrite Children_ok by done. by rewrite <-list_fmap_compose.
  - rewrite (listed_perm t Ht). apply reflexive_eq. f_equal. unfold subs_listed.
    induction (fields t) as [|[f v] fs IH]; [done|]. rewrite filter_cons. simpl. rewrite IH. clear IH.
    unfold skipped. repeat case_decide; case_bool_decide; try done; tauto.
Qed.

(** ** UpdateParentRefs *)
Lemma reparent_root h p t : holds h (reparent p t) → parent_in h (addr (ann t)) p.
Proof. destruct t as [a k fs]. intros [Ha _]%holds_unfold. eexists _, _, _. exact Ha. Qed.
Lemma reparent_val_subs h p v : holds_val h (reparent_val p v) → ∀ c, c ∈ val_subs v → holds h (reparent p c).
Proof.
  destruct v as [s|b|[[b l]|]|[[b l]|]|[t|]|t|[[b l]|]]; simpl; try by intros _ ? ?%elem_of_nil.
  - by intros ? ? ->%elem_of_list_singleton.
  - by intros ? ? ->%elem_of_list_singleton.
  - intros Hl c Hc. apply (holds_list_unfold h b) in Hl as [_ Hl].
    rewrite Forall_fmap, Forall_forall in Hl.
    apply elem_of_list_omap in Hc as (o&Ho&E). unfold id in E. subst o. by apply (Hl _ Ho).
Qed.
Lemma nodes_sub (t m : mnode) : m ∈ nodes t → m = t ∨ ∃ c, c ∈ subs t ∧ m ∈ nodes c.
Proof.
  destruct t as [a k fs]. simpl. intros [->|Hm]%elem_of_cons; [by left|right].
  apply elem_of_list_In, in_flat_map in Hm as (p&Hp&Hm%elem_of_list_In). unfold subs. simpl.
  assert (∃ c, c ∈ val_subs p.2 ∧ m ∈ nodes c) as (c&Hc&?).
  { destruct p as [f [s|b|[[b l]|]|[[b l]|]|[t|]|t|[[b l]|]]]; simpl in *; try by apply elem_of_nil in Hm.
    - exists t. split; [by left|done].
    - exists t. split; [by left|done].
    - apply elem_of_list_In, in_flat_map in Hm as ([t|]&Ho%elem_of_list_In&Hm%elem_of_list_In);
        [|by apply elem_of_nil in Hm]. exists t. split; [|done]. apply elem_of_list_omap. by exists (Some t). }
  exists c. split; [|done]. apply elem_of_list_In, in_flat_map. exists p. split; [done|].
  by apply elem_of_list_In.
Qed.
Lemma reparent_sub h p t c :
  typed t = true → (kind_of t = KExprPostfix → get FPost t = Some (VPtr None)) →
  holds h (reparent p t) → c ∈ subs t → holds h (reparent (Some (addr (ann t))) c).
Proof.
  destruct t as [a k fs]. intros Ht Hp [_ Hfs]%holds_unfold Hc. rewrite Forall_fmap, Forall_forall in Hfs.
  pose proof (typed_nodup _ _ _ Ht) as HU.
  unfold subs in Hc. apply elem_of_list_In, in_flat_map in Hc as ([f v]&Hin%elem_of_list_In&Hc%elem_of_list_In).
  specialize (Hfs _ Hin). simpl in Hfs, Hc. simpl. unfold get in Hp. simpl in Hp, Hin.
  destruct (decide (k = KExprPostfix ∧ f = FPost)) as [[-> ->]|].
  - specialize (Hp eq_refl). rewrite (assoc_elem FPost v) in Hp by done. simplify_eq. by apply elem_of_nil in Hc.
  - by apply (reparent_val_subs h _ v).
Qed.
Lemma reparent_all h :
  ∀ n t p, height t ≤ n → typed t = true → post_free t → holds h (reparent p t) →
  ∀ m c, m ∈ nodes t → c ∈ subs m → parent_in h (addr (ann c)) (Some (addr (ann m))).
Proof.
  induction n as [|n IH]; intros t p Hn Ht Hp Hh m c Hm Hc; [destruct t; simpl in Hn; lia|].
  assert (t ∈ nodes t) as Hself by (destruct t; by left).
  destruct (nodes_sub t m Hm) as [->|(d&Hd&Hm')].
  - eapply reparent_root, reparent_sub; [done|by apply Hp|done|done].
  - eapply (IH d); [pose proof (height_sub t d Hd); lia|by eapply typed_sub| | |done|done].
    + intros m' Hm2. apply Hp. by eapply sub_in_nodes.
    + eapply reparent_sub; [done|by apply Hp|done|done].
Qed.

Lemma strip_reparent :
  (∀ t p, strip (reparent p t) = strip t) ∧ (∀ v p, strip_val (reparent_val p v) = strip_val v).
Proof.
  apply tree_val_ind; try done.
  - intros a k fs IH p. unfold strip. simpl. f_equal. rewrite map_map. apply map_ext_in.
    intros [f v] Hin%elem_of_list_In. rewrite Forall_forall in IH. simpl. f_equal.
    case_decide; [done|]. by apply (IH (f, v)).
  - intros t IH p. unfold strip_val. simpl. do 2 f_equal. apply IH.
  - intros t IH p. unfold strip_val. simpl. f_equal. apply IH.
  - intros b l IH p. unfold strip_val. simpl. do 3 f_equal. rewrite map_map. apply map_ext_in.
    intros [t|] Hin%elem_of_list_In; [|done]. f_equal. rewrite Forall_forall in IH. by apply (IH (Some t)).
Qed.
(*P C55_update_parent_refs_exactly *)
(** The AST after UpdateParentRefs: the items and all nodes below them have got their
    parents as [reparent] says, all else is as before.  [n] bounds the depth. *)
Lemma p55 n h a (fs : list (fld * mval)) :
  typed (T a KAST fs) = true → holds h (T a KAST fs) → NoDup (addrs (T a KAST fs)) →
  well_formed (T a KAST fs) → height (T a KAST fs) ≤ S n →
  ∃ h', UpdateParentRefs n (addr a) h = Ok (tt, h') ∧
    holds h' (T a KAST (map (λ p, (p.1, reparent_val None p.2)) fs)) ∧
    ∀ x, x ∉ node_addrs (T a KAST fs) → h' !! x = h !! x.
Proof.
  intros Ht Hh HU Hw Hn. destruct (UpdateParentRefs_ok n a fs h) as (h'&E&Hh'&Hf); [done|done|].
  exists h'. split; [done|]. split; [done|]. intros x Hx. apply Hf. by left.
Qed.

(*P C29_parents_after_update_partial *)
(** Missing: an AST with an ExprPostfix with a Post ([post_free] excludes it), for which
    it is false (C29_parents_after_update_refuted).  Full statement: the same without
    [post_free], and for every AST the parser returns. *)
Lemma p29 n h (t : mnode) :
  kind_of t = KAST → typed t = true → holds h t → NoDup (addrs t) → well_formed t → height t ≤ S n →
  post_free t →
  ∃ h', UpdateParentRefs n (addr (ann t)) h = Ok (tt, h') ∧
    (∀ c, c ∈ subs t → parent_in h' (addr (ann c)) None) ∧
    (∀ i m c, i ∈ subs t → m ∈ nodes i → c ∈ subs m →
       parent_in h' (addr (ann c)) (Some (addr (ann m)))) ∧
    (∃ t', addr (ann t') = addr (ann t) ∧ holds h' t' ∧ strip t' = strip t) ∧
    (∀ x, x ∉ node_addrs t → h' !! x = h !! x).
Proof.
  destruct t as [a k fs]. simpl. intros -> Ht Hh HU Hw Hn Hp.
  destruct (UpdateParentRefs_ok n a fs h) as (h'&E&Hh'&Hf); [done|done|].
  assert (∀ c, c ∈ subs (T a KAST fs) → holds h' (reparent None c)) as Hitems.
  { intros c Hc. apply holds_unfold in Hh' as [_ Hfs]. rewrite Forall_fmap, Forall_forall in Hfs.
    unfold subs in Hc. apply elem_of_list_In, in_flat_map in Hc as ([f v]&Hin%elem_of_list_In&Hc%elem_of_list_In).
    by apply (reparent_val_subs h' None v (Hfs _ Hin)). }
  exists h'. split; [done|]. split; [|split; [|split]].
  - intros c Hc. by eapply reparent_root, Hitems.
  - intros i m c Hi Hm Hc. eapply (reparent_all h' (height i) i None); [done|by eapply typed_sub| |by apply Hitems|done|done].
    intros m' Hm'. apply Hp. by eapply sub_in_nodes.
  - eexists. split; [|split; [exact Hh'|]]; [done|]. unfold strip. simpl. f_equal. rewrite map_map.
    apply map_ext. intros [f v]. simpl. f_equal. apply strip_reparent.
  - intros x Hx. apply Hf. by left.
Qed.
