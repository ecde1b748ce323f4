(** * Proofs about Clone *)
From stdpp Require Import base list option strings gmap relations.
From Verif Require Import GoBase EtxAst EtxHeap EtxHeapSpec.

(** ** Unfolding *)
Lemma holds_unfold h a k fs :
  holds h (T a k fs) ↔
  h !! addr a = Some (CNode k (at_pos a) (par a) (map shallow_field fs)) ∧
  Forall (λ p, holds_val h p.2) fs.
Proof.
  simpl. apply and_iff_compat_l. induction fs as [|p fs IH]; [done|].
  rewrite Forall_cons. by rewrite <-IH.
Qed.
Definition holds_opt (h : heap) (o : option mnode) : Prop :=
  match o with Some t => holds h t | None => True end.
Lemma holds_list_unfold h b l :
  holds_val h (VList (Some (b, l))) ↔
  h !! b = Some (CArrP (map (fmap (addr ∘ ann)) l)) ∧ Forall (holds_opt h) l.
Proof.
  simpl. apply and_iff_compat_l. induction l as [|p l IH]; [done|].
  rewrite Forall_cons. by rewrite <-IH.
Qed.
Definition typed_field {A B} (p : fld * ftype) (q : fld * val A B) : Prop :=
  p.1 = q.1 ∧ typed_val p.2 q.2 = true.
Lemma typed_unfold {A B} (a : A) k (fs : list (fld * val A B)) :
  typed (T a k fs) = true ↔ Forall2 typed_field (schema k) fs.
Proof.
  cbn [typed]. generalize (schema k). intros sc. revert sc.
  induction fs as [|[f v] fs IH]; intros [|[f' ty] sc].
  - split; [intros _; apply List.Forall2_nil|done].
  - split; [done|]. by inversion 1.
  - split; [done|]. by inversion 1.
  - rewrite !andb_true_iff, bool_decide_eq_true, IH. split.
    + intros [[-> ?] ?]. by constructor.
    + inversion 1 as [|???? [??]]; subst. simpl in *. naive_solver.
Qed.
Definition typed_opt {A B} (k : kind) (o : option (tree A B)) : Prop :=
  match o with Some t => kind_of t = k ∧ typed t = true | None => True end.
Lemma typed_list_unfold {A B} k b (l : list (option (tree A B))) :
  typed_val (TList k) (VList (Some (b, l))) = true ↔ Forall (typed_opt k) l.
Proof.
  unfold typed_val; fold (@typed A B). rewrite forallb_forall. setoid_rewrite <-elem_of_list_In. rewrite Forall_forall.
  apply forall_proper. intros [t|]; [|done]. unfold typed_opt.
  by rewrite andb_true_iff, bool_decide_eq_true.
Qed.

Lemma holds_mono h h' :
  h ⊆ h' → (∀ t, holds h t → holds h' t) ∧ (∀ v, holds_val h v → holds_val h' v).
Proof.
  intros Hs. pose proof (λ x c, lookup_weaken h h' x c) as Hw. apply tree_val_ind.
  - intros a k fs IH. rewrite !holds_unfold. intros [? Hfs]. split; [eauto|].
    rewrite Forall_forall in *. eauto.
  - done.
  - done.
  - intros [[b l]|]; simpl; eauto.
  - intros [[b l]|]; simpl; eauto.
  - done.
  - done.
  - done.
  - done.
  - intros b l IH. rewrite !holds_list_unfold. intros [? Hl]. split; [eauto|].
    rewrite Forall_forall in *. intros o Ho. specialize (IH o Ho). specialize (Hl o Ho).
    destruct o; [by apply IH|done].
Qed.

Ltac no_elem := let x := fresh in let Hx := fresh in intros x Hx; simpl in Hx; by apply elem_of_nil in Hx.
Lemma holds_addrs h :
  (∀ t, holds h t → ∀ x, x ∈ addrs t → x ∈ dom h) ∧
  (∀ v, holds_val h v → ∀ x, x ∈ addrs_val v → x ∈ dom h).
Proof.
  apply tree_val_ind.
  - intros a k fs IH. rewrite !holds_unfold. intros [? Hfs] x. simpl. rewrite elem_of_cons.
    intros [->|Hx]; [by apply elem_of_dom|].
    apply elem_of_list_In, in_flat_map in Hx as (p&Hp%elem_of_list_In&Hx%elem_of_list_In).
    rewrite Forall_forall in *. eauto.
  - intros s _. no_elem.
  - intros s _. no_elem.
  - intros [[b l]|]; simpl; intros Hb; [|no_elem]. intros x Hx.
    apply elem_of_list_singleton in Hx as ->. by apply elem_of_dom.
  - intros [[b l]|]; simpl; intros Hb; [|no_elem]. intros x Hx.
    apply elem_of_list_singleton in Hx as ->. by apply elem_of_dom.
  - intros _. no_elem.
  - done.
  - done.
  - intros _. no_elem.
  - intros b l IH. rewrite !holds_list_unfold. intros [? Hl] x. simpl. rewrite elem_of_cons.
    intros [->|Hx]; [by apply elem_of_dom|].
    apply elem_of_list_In, in_flat_map in Hx as (o&Ho%elem_of_list_In&Hx%elem_of_list_In).
    rewrite Forall_forall in *. specialize (IH o Ho). specialize (Hl o Ho).
    destruct o; [by apply IH|]. by apply elem_of_nil in Hx.
Qed.

Lemma nodes_addrs :
  (∀ (t : mnode) m, m ∈ nodes t → addr (ann m) ∈ addrs t) ∧
  (∀ (v : mval) m, m ∈ nodes_val v → addr (ann m) ∈ addrs_val v).
Proof.
  apply tree_val_ind; try no_elem; try (intros ?; no_elem); try done.
  - intros a k fs IH m. simpl. rewrite !elem_of_cons. intros [->|Hm]; [by left|right].
    apply elem_of_list_In, in_flat_map in Hm as (p&Hp&Hm%elem_of_list_In).
    apply elem_of_list_In, in_flat_map. exists p. split; [done|]. apply elem_of_list_In.
    apply elem_of_list_In in Hp. rewrite Forall_forall in IH. by apply IH.
  - intros b l IH m. simpl. intros Hm.
    apply elem_of_list_In, in_flat_map in Hm as (o&Ho&Hm%elem_of_list_In).
    apply elem_of_cons. right. apply elem_of_list_In, in_flat_map. exists o. split; [done|].
    apply elem_of_list_In. apply elem_of_list_In in Ho. rewrite Forall_forall in IH.
    specialize (IH _ Ho). destruct o; [by apply IH|]. by apply elem_of_nil in Hm.
Qed.

Definition shared_field (k : kind) (p : fld * mval) : list loc :=
  if decide (k = KFuncDecl ∧ p.1 = FType) then addrs_val p.2
  else if decide (k = KValue ∧ p.1 = FHeredoc)
       then match p.2 with VPtr (Some t) => inside t | _ => [] end
  else shared_val p.2.
Lemma shared_unfold a k fs : shared (T a k fs) = flat_map (shared_field k) fs.
Proof. done. Qed.
Lemma inside_addrs t x : x ∈ inside t → x ∈ addrs t.
Proof. destruct t as [a k fs]. unfold inside. simpl. rewrite elem_of_cons. by right. Qed.
Lemma shared_addrs :
  (∀ t x, x ∈ shared t → x ∈ addrs t) ∧ (∀ v x, x ∈ shared_val v → x ∈ addrs_val v).
Proof.
  apply tree_val_ind; try no_elem; try (intros ?; no_elem); try done.
  - intros a k fs IH x. rewrite shared_unfold. simpl. intros Hx.
    apply elem_of_list_In, in_flat_map in Hx as (p&Hp&Hx%elem_of_list_In).
    apply elem_of_cons. right. apply elem_of_list_In, in_flat_map. exists p. split; [done|].
    apply elem_of_list_In. unfold shared_field in Hx. repeat case_decide; [done|..].
    + destruct p as [? [| | | |[t|]| |]]; simpl in *; try by apply elem_of_nil in Hx. by apply inside_addrs.
    + apply elem_of_list_In in Hp. rewrite Forall_forall in IH. eauto.
  - intros b l IH x. simpl. intros Hx.
    apply elem_of_list_In, in_flat_map in Hx as (o&Ho&Hx%elem_of_list_In).
    apply elem_of_cons. right. apply elem_of_list_In, in_flat_map. exists o. split; [done|].
    apply elem_of_list_In. apply elem_of_list_In in Ho. rewrite Forall_forall in IH.
    specialize (IH _ Ho). destruct o; [by apply IH|done].
Qed.

(** ** What a piece of cloning does

    [A], [S], [N] are the addresses, shared addresses and copied Heredocs of the source, [A'] and
    [N'] the addresses and nodes of the result. *)
Definition parent_ok (N : list mnode) (S : list loc) (m : mnode) : Prop :=
  par (ann m) = None ∨ addr (ann m) ∈ S ∨
  ∃ m0, m0 ∈ N ∧ strip m = strip m0 ∧ par (ann m) = par (ann m0).
Record cloned (h h' : heap) (A S : list loc) (N : list mnode) (A' : list loc) (N' : list mnode) : Prop := {
  cl_grow : h ⊆ h';
  cl_dom : ∀ x, x ∈ A' → x ∈ dom h';
  cl_new : ∀ x, x ∈ A' → x ∉ dom h ∨ x ∈ S;
  cl_keep : ∀ x, x ∈ S → x ∈ A';
  cl_nodup : NoDup A → NoDup A';
  cl_par : ∀ m, m ∈ N' → parent_ok N S m;
  cl_cop : ∀ m0, m0 ∈ N → ∃ m, m ∈ N' ∧ strip m = strip m0 ∧ par (ann m) = par (ann m0) ∧
                               addr (ann m) ∉ dom h }.
Arguments cl_grow {_ _ _ _ _ _ _} _.
Arguments cl_dom {_ _ _ _ _ _ _} _.
Arguments cl_new {_ _ _ _ _ _ _} _.
Arguments cl_keep {_ _ _ _ _ _ _} _.
Arguments cl_nodup {_ _ _ _ _ _ _} _.
Arguments cl_par {_ _ _ _ _ _ _} _.
Arguments cl_cop {_ _ _ _ _ _ _} _.

Lemma parent_ok_mono N1 N2 S1 S2 m : N1 ⊆ N2 → S1 ⊆ S2 → parent_ok N1 S1 m → parent_ok N2 S2 m.
Proof. unfold parent_ok. set_solver. Qed.

Lemma cloned_nil h : cloned h h [] [] [] [] [].
Proof. split; intros; set_solver. Qed.
Lemma cloned_app h1 h2 h3 A1 S1 N1 A1' N1' A2 S2 N2 A2' N2' :
  (∀ x, x ∈ A1 ++ A2 → x ∈ dom h1) → S1 ⊆ A1 → S2 ⊆ A2 →
  cloned h1 h2 A1 S1 N1 A1' N1' → cloned h2 h3 A2 S2 N2 A2' N2' →
  cloned h1 h3 (A1 ++ A2) (S1 ++ S2) (N1 ++ N2) (A1' ++ A2') (N1' ++ N2').
Proof.
  intros Hdom HS1 HS2 [g1 d1 n1 k1 u1 p1 c1] [g2 d2 n2 k2 u2 p2 c2].
  pose proof (subseteq_dom _ _ g1) as G1. pose proof (subseteq_dom _ _ g2) as G2. split.
  - by etrans.
  - intros x [Hx|Hx]%elem_of_app; [|by eauto]. apply G2. eauto.
  - intros x [Hx|Hx]%elem_of_app.
    + destruct (n1 _ Hx); set_solver.
    + destruct (n2 _ Hx); set_solver.
  - set_solver.
  - intros (U1&Hd&U2)%NoDup_app. apply NoDup_app. split; [by eauto|]. split; [|by eauto].
    intros x Hx Hx2. specialize (d1 _ Hx). destruct (n2 _ Hx2) as [Hn|Hs]; [done|].
    destruct (n1 _ Hx) as [Hn|Hs1].
    + apply Hn, Hdom. set_solver.
    + apply (Hd x); [by apply HS1|by apply HS2].
  - intros m [Hm|Hm]%elem_of_app.
    + eapply parent_ok_mono; [| |by eauto]; set_solver.
    + eapply parent_ok_mono; [| |by eauto]; set_solver.
  - intros m0 [Hm|Hm]%elem_of_app.
    + destruct (c1 m0 Hm) as (m&?&?&?&?). exists m. set_solver.
    + destruct (c2 m0 Hm) as (m&?&?&?&?). exists m. set_solver.
Qed.
Lemma fresh_notin (h : heap) : h !! fresh (dom h) = None.
Proof. apply not_elem_of_dom, is_fresh. Qed.
(** Allocating one more cell in front. *)
Lemma cloned_alloc h1 h2 a A S N A' N' c :
  a ∈ dom h1 → S ⊆ A → (∀ x, x ∈ A → x ∈ dom h1) →
  cloned h1 h2 A S N A' N' →
  cloned h1 (<[fresh (dom h2) := c]> h2) (a :: A) S N (fresh (dom h2) :: A') N'.
Proof.
  intros Ha HS HA [g d n k u p cp]. pose proof (subseteq_dom _ _ g) as G.
  pose proof (is_fresh (dom h2)) as Hf. split.
  - etrans; [done|]. apply insert_subseteq, fresh_notin.
  - intros x. rewrite dom_insert. set_solver.
  - intros x [->|Hx]%elem_of_cons; [left; set_solver|eauto].
  - set_solver.
  - intros [Hn U]%NoDup_cons. constructor; [|by eauto]. intros Hx. set_solver.
  - done.
  - done.
Qed.
(** ** Lists of fields *)
Lemma assoc_elem {X} f (v : X) fs : NoDup fs.*1 → (f, v) ∈ fs → assoc f fs = Some v.
Proof.
  induction fs as [|[f' v'] fs IH]; simpl; [by intros _ ?%elem_of_nil|].
  intros [Hn U]%NoDup_cons [[= -> ->]|Hin]%elem_of_cons; [by rewrite decide_True|].
  rewrite decide_False; [by apply IH|]. intros ->. apply Hn, elem_of_list_fmap. by exists (f', v).
Qed.
Lemma assoc_map {X Y} (g : X → Y) f fs : assoc f (map (λ p, (p.1, g p.2)) fs) = g <$> assoc f fs.
Proof. induction fs as [|[f' v'] fs IH]; simpl; [done|]. by case_decide. Qed.

Definition all_kinds : list kind :=
  [KAST; KRootItem; KParameterType; KFuncSignature; KDecl; KFunc; KFuncParameter; KFuncStatement;
   KFuncDecl; KLambda; KLambdaParameter; KType; KTypeEnum; KTypeEnumItem; KTypeObject; KTypeObjectItem;
   KBlock; KBlockItem; KAttribute; KComment; KIdent; KValue; KValueBool; KValueNumber; KHeredoc;
   KHeredocFragment; KValueString; KStringFragment; KValueList; KListItem; KValueMap; KMapItem; KMapKey;
   KExpr; KExprIf; KExprSwitch; KExprCase; KExprConditional; KExprLogicalOr; KExprLogicalAnd;
   KExprBitwiseOr; KExprBitwiseXor; KExprBitwiseAnd; KExprEquality; KExprRelational; KExprShift;
   KExprAdditive; KExprMultiplicative; KExprUnary; KExprPostfix; KExprPrimary; KExprInvocationParams].
Lemma for_all_kinds (P : kind → bool) : forallb P all_kinds = true → ∀ k, P k = true.
Proof. rewrite forallb_forall. intros HP k. apply HP. destruct k; cbv; tauto. Qed.
Lemma schema_nodup k : NoDup (schema k).*1.
Proof.
  apply (bool_decide_eq_true_1 (NoDup (schema k).*1)). revert k. apply for_all_kinds. by vm_compute.
Qed.
Lemma typed_names {A B} sc (fs : list (fld * val A B)) : Forall2 typed_field sc fs → fs.*1 = sc.*1.
Proof. induction 1 as [|[??] [??] ?? [??] ? IH]; simpl in *; [done|]. f_equal; [by symmetry|done]. Qed.
Lemma typed_nodup {A B} (a : A) k (fs : list (fld * val A B)) : typed (T a k fs) = true → NoDup fs.*1.
Proof. intros H%typed_unfold. rewrite (typed_names _ _ H). apply schema_nodup. Qed.

(** The line of the struct literal fits the type of the field. *)
Definition special (k : kind) (f : fld) : bool :=
  bool_decide (k = KFuncDecl ∧ f = FType) || bool_decide (k = KValue ∧ f = FHeredoc).
Definition fits (k : kind) (p : fld * ftype) : bool :=
  match assoc p.1 (clone_body k), p.2 with
  | Some ECopy, (TStr | TBool) => true
  | Some EStrings, TStrs | Some EFloat, TFloat | Some EClone, TPtr _ | Some EDeref, TEmb _
  | Some EColl, TList _ => negb (special k p.1)
  | Some ECopy, TPtr _ => bool_decide (k = KFuncDecl ∧ p.1 = FType)
  | Some EShallow, TPtr k' => bool_decide (k = KValue ∧ p.1 = FHeredoc ∧ k' = KHeredoc)
  | _, _ => false
  end.
Lemma all_fit k p : p ∈ schema k → fits k p = true.
Proof.
  intros Hp%elem_of_list_In. revert p Hp. apply forallb_forall. revert k. apply for_all_kinds. by vm_compute.
Qed.

Definition copied_field (k : kind) (p : fld * mval) : list mnode :=
  if decide (k = KFuncDecl ∧ p.1 = FType) then []
  else if decide (k = KValue ∧ p.1 = FHeredoc) then val_subs p.2
  else copied_val p.2.
Lemma copied_false k f v : special k f = false → copied_field k (f, v) = copied_val v.
Proof.
  unfold special, copied_field. rewrite orb_false_iff, !bool_decide_eq_false. simpl.
  intros [??]. by rewrite !decide_False.
Qed.
Lemma special_false k f v : special k f = false → shared_field k (f, v) = shared_val v.
Proof.
  unfold special, shared_field. rewrite orb_false_iff, !bool_decide_eq_false. simpl.
  intros [??]. by rewrite !decide_False.
Qed.

(** ** Clone *)
Definition clone_ok (clone : loc → H loc) (n : nat) : Prop :=
  ∀ t h, typed t = true → holds h t → height t ≤ n →
  ∃ h' t', clone (addr (ann t)) h = Ok (addr (ann t'), h') ∧ holds h' t' ∧ strip t' = strip t ∧
           cloned h h' (addrs t) (shared t) (copied t) (addrs t') (nodes t').

Lemma hbind_ok {A B} (m : H A) (f : A → H B) h a h' : m h = Ok (a, h') → hbind m f h = f a h'.
Proof. intros E. unfold hbind. by rewrite E. Qed.

Lemma hload_ok l c h : h !! l = Some c → hload l h = Ok (c, h).
Proof. intros E. unfold hload. by rewrite E. Qed.
Definition opt_addrs (o : option mnode) := match o with Some t => addrs t | None => [] end.
Definition opt_shared (o : option mnode) := match o with Some t => shared t | None => [] end.
Definition opt_copied (o : option mnode) := match o with Some t => copied t | None => [] end.
Definition opt_nodes (o : option mnode) := match o with Some t => nodes t | None => [] end.
Definition opt_height (o : option mnode) := match o with Some t => height t | None => 0 end.

Section clone_ok.
Context (clone : loc → H loc) (n : nat) (Hclone : clone_ok clone n).

Lemma clone_ptr_ok k o h :
  typed_opt k o → holds_opt h o → opt_height o ≤ n →
  ∃ h' o', clone_ptr clone (addr ∘ ann <$> o) h = Ok (addr ∘ ann <$> o', h') ∧ holds_opt h' o' ∧
    strip <$> o' = strip <$> o ∧
    cloned h h' (opt_addrs o) (opt_shared o) (opt_copied o) (opt_addrs o') (opt_nodes o').
Proof.
  destruct o as [t|]; simpl.
  - intros [_ Ht] Hh Hn. destruct (Hclone t h Ht Hh Hn) as (h'&t'&E&Hh'&Hs&Hc).
    exists h', (Some t'). rewrite (hbind_ok _ _ _ _ _ E). simpl. split; [done|]. split; [done|].
    by rewrite Hs.
  - intros _ _ _. exists h, None. do 3 (split; [done|]). apply cloned_nil.
Qed.

Lemma opt_addrs_dom h l : Forall (holds_opt h) l → ∀ x, x ∈ flat_map opt_addrs l → x ∈ dom h.
Proof.
  intros Hl x (o&Ho%elem_of_list_In&Hx%elem_of_list_In)%elem_of_list_In%in_flat_map.
  rewrite Forall_forall in Hl. specialize (Hl _ Ho). destruct o; [by eapply (proj1 (holds_addrs h))|].
  by apply elem_of_nil in Hx.
Qed.
Lemma opt_shared_addrs l : flat_map opt_shared l ⊆ flat_map opt_addrs l.
Proof.
  intros x (o&Ho&Hx%elem_of_list_In)%elem_of_list_In%in_flat_map.
  apply elem_of_list_In, in_flat_map. exists o. split; [done|]. apply elem_of_list_In.
  destruct o; [by apply shared_addrs|done].
Qed.
Lemma holds_opt_mono h h' l : h ⊆ h' → Forall (holds_opt h) l → Forall (holds_opt h') l.
Proof.
  intros Hs Hl. eapply Forall_impl; [exact Hl|]. intros [t|]; [|done]. by apply (holds_mono h h').
Qed.

Lemma clone_list_ok k l h :
  Forall (typed_opt k) l → Forall (holds_opt h) l → Forall (λ o, opt_height o ≤ n) l →
  ∃ h' l', hmap (clone_ptr clone) (map (fmap (addr ∘ ann)) l) h =
             Ok (map (fmap (addr ∘ ann)) l', h') ∧ Forall (holds_opt h') l' ∧
    map (fmap strip) l' = map (fmap strip) l ∧
    cloned h h' (flat_map opt_addrs l) (flat_map opt_shared l) (flat_map opt_copied l)
      (flat_map opt_addrs l') (flat_map opt_nodes l').
Proof.
  revert h. induction l as [|o l IH]; intros h Ht Hh Hn.
  - exists h, []. do 3 (split; [done|]). apply cloned_nil.
  - apply Forall_cons in Ht as [Ht1 Ht], Hn as [Hn1 Hn]. pose proof Hh as Hh0.
    apply Forall_cons in Hh as [Hh1 Hh].
    destruct (clone_ptr_ok k o h Ht1 Hh1 Hn1) as (h1&o'&E1&Ho'&Hs1&C1).
    assert (Forall (holds_opt h1) l) as Hh2 by (eapply holds_opt_mono; [apply (cl_grow C1)|done]).
    destruct (IH h1 Ht Hh2 Hn) as (h2&l'&E2&Hl'&Hs2&C2).
    exists h2, (o' :: l'). cbn [hmap map].
    rewrite (hbind_ok _ _ _ _ _ E1), (hbind_ok _ _ _ _ _ E2).
    split; [done|]. split; [|split].
    + apply Forall_cons. split; [|done].
      pose proof (holds_opt_mono h1 h2 [o'] (cl_grow C2)) as Hm.
      rewrite !Forall_singleton in Hm. by apply Hm.
    + by rewrite Hs1, Hs2.
    + cbn [flat_map]. eapply cloned_app; [..|exact C1|exact C2].
      * by apply (opt_addrs_dom h (o :: l)).
      * pose proof (opt_shared_addrs [o]). simpl in *. by rewrite !app_nil_r in *.
      * apply opt_shared_addrs.
Qed.

Lemma list_max_bound (l : list nat) m : list_max l ≤ m → Forall (λ x, x ≤ m) l.
Proof.
  induction l as [|x l IH]; simpl; [constructor|]. intros Hm. constructor; [lia|]. apply IH. lia.
Qed.

Lemma tmap_strip_opt (l : list (option mnode)) :
  map (λ o, match o with Some t => Some (tmap at_pos (λ _, tt) t) | None => None end) l = map (fmap strip) l.
Proof. apply map_ext. by intros [?|]. Qed.

Lemma typed_ptr {A B} k (o : option (tree A B)) : typed_val (TPtr k) (VPtr o) = true → typed_opt k o.
Proof.
  destruct o as [t|]; [|done]. unfold typed_val. fold (@typed A B).
  by rewrite andb_true_iff, bool_decide_eq_true.
Qed.
Lemma typed_emb {A B} k (t : tree A B) : typed_val (TEmb k) (VEmb t) = true → kind_of t = k ∧ typed t = true.
Proof.
  unfold typed_val. fold (@typed A B). by rewrite andb_true_iff, bool_decide_eq_true.
Qed.

(** One field of the struct literal. *)
Lemma eval_clone_ok k f ty v h :
  fits k (f, ty) = true → typed_val ty v = true → holds_val h v → height_val v ≤ n →
  ∃ e h' v', assoc f (clone_body k) = Some e ∧
    eval_clone clone e (shallow v) h = Ok (shallow v', h') ∧ holds_val h' v' ∧
    strip_val v' = strip_val v ∧
    cloned h h' (addrs_val v) (shared_field k (f, v)) (copied_field k (f, v)) (addrs_val v') (nodes_val v').
Proof.
  intros Hfit Hty Hh Hn. unfold fits in Hfit. cbn [fst snd] in Hfit.
  destruct (assoc f (clone_body k)) as [e|]; [|done]. exists e.
  destruct e, ty, v; try done;
    try (apply negb_true_iff in Hfit; rewrite (special_false k f _ Hfit), (copied_false k f _ Hfit)).
  - (* string *) exists h, (VStr s). split; [done|]. split; [done|]. split; [done|]. split; [done|].
    unfold shared_field, copied_field. simpl. repeat case_decide; apply cloned_nil.
  - (* bool *) exists h, (VBool b). split; [done|]. split; [done|]. split; [done|]. split; [done|].
    unfold shared_field, copied_field. simpl. repeat case_decide; apply cloned_nil.
  - (* shared pointer *)
    apply bool_decide_eq_true in Hfit. exists h, (VPtr o). do 4 (split; [done|]).
    unfold shared_field, copied_field. cbn [fst snd]. rewrite !decide_True by done.
    split; [done|by apply (holds_addrs h)|by right|done|done| |by intros ? ?%elem_of_nil].
    intros m Hm. right. left. by apply nodes_addrs.
  - (* pointer *)
    destruct (clone_ptr_ok k0 o h) as (h'&o'&E&Ho'&Hs&C); [by apply typed_ptr|done|by destruct o|].
    exists h', (VPtr o'). split; [done|]. cbn [shallow eval_clone].
    rewrite (hbind_ok _ _ _ _ _ E). split; [done|]. split; [by destruct o'|].
    split; [|by destruct o, o'].
    unfold strip_val. simpl. f_equal. by destruct o, o'.
  - (* embedded *)
    apply typed_emb in Hty as [_ Ht]. destruct (Hclone t h Ht Hh Hn) as (h'&t'&E&Hh'&Hs&C).
    exists h', (VEmb t'). split; [done|]. cbn [shallow eval_clone].
    rewrite (hbind_ok _ _ _ _ _ E). split; [done|]. split; [done|]. split; [|done].
    unfold strip_val. simpl. by f_equal.
  - (* list *)
    destruct o as [[b l]|].
    2: { exists h, (VList None). do 4 (split; [done|]). apply cloned_nil. }
    apply typed_list_unfold in Hty. apply holds_list_unfold in Hh as [Hb Hh].
    destruct (clone_list_ok k0 l h) as (h'&l'&E&Hl'&Hs&C); [done|done| |].
    { apply list_max_bound in Hn. rewrite Forall_fmap in Hn. done. }
    exists (<[fresh (dom h') := CArrP (map (fmap (addr ∘ ann)) l')]> h'),
      (VList (Some (fresh (dom h'), l'))).
    split; [done|]. cbn [shallow eval_clone fmap option_fmap option_map fst].
    rewrite (hbind_ok _ _ _ _ _ (hload_ok _ _ _ Hb)).
    rewrite (hbind_ok _ _ _ _ _ E). split; [done|]. split.
    { apply holds_list_unfold. rewrite lookup_insert. split; [done|].
      eapply holds_opt_mono; [|done]. apply insert_subseteq, fresh_notin. }
    split.
    { unfold strip_val. simpl. by rewrite !tmap_strip_opt, Hs. }
    eapply cloned_alloc; [|apply opt_shared_addrs|by apply opt_addrs_dom|exact C].
    by apply elem_of_dom.
  - (* strings *)
    destruct o as [[b l]|].
    2: { exists h, (VStrs None). do 4 (split; [done|]). apply cloned_nil. }
    simpl in Hh. exists (<[fresh (dom h) := CArrS l]> h), (VStrs (Some (fresh (dom h), l))).
    split; [done|]. cbn [shallow eval_clone fmap option_fmap option_map fst].
    rewrite (hbind_ok _ _ _ _ _ (hload_ok _ _ _ Hh)).
    split; [done|]. split; [apply lookup_insert|]. split; [done|].
    eapply cloned_alloc; [by apply elem_of_dom|done|by intros ? ?%elem_of_nil|apply cloned_nil].
  - (* number *)
    destruct o as [[b l]|].
    2: { exists h, (VFloat None). do 4 (split; [done|]). apply cloned_nil. }
    simpl in Hh. exists (<[fresh (dom h) := CBig l]> h), (VFloat (Some (fresh (dom h), l))).
    split; [done|]. cbn [shallow eval_clone fmap option_fmap option_map fst].
    rewrite (hbind_ok _ _ _ _ _ (hload_ok _ _ _ Hh)).
    split; [done|]. split; [apply lookup_insert|]. split; [done|].
    eapply cloned_alloc; [by apply elem_of_dom|done|by intros ? ?%elem_of_nil|apply cloned_nil].
  - (* shallow copy *)
    apply bool_decide_eq_true in Hfit as (->&->&->).
    destruct (clone_ptr_ok KHeredoc o h) as (h1&o1&E&Ho1&Hs&C); [by apply typed_ptr|done|by destruct o|].
    destruct o as [t|].
    2: { exists h1, (VPtr None). split; [done|]. cbn [shallow eval_clone]. rewrite (hbind_ok _ _ _ _ _ E).
         destruct o1; [done|]. do 3 (split; [done|]). 
         unfold shared_field, copied_field. simpl. exact C. }
    apply typed_ptr in Hty as [Hk _]. destruct t as [a k fs]. simpl in Hk. subst k.
    simpl in Hh. fold holds_val in Hh. apply (holds_unfold h) in Hh as [Ha Hfs].
    set (c := CNode KHeredoc (at_pos a) (par a) (map shallow_field fs)) in *.
    set (l' := fresh (dom h1)).
    assert (h ⊆ <[l' := c]> h1) as Hsub.
    { etrans; [apply (cl_grow C)|]. apply insert_subseteq, fresh_notin. }
    exists (<[l' := c]> h1), (VPtr (Some (T (Hdr l' (at_pos a) (par a)) KHeredoc fs))).
    split; [done|]. cbn [shallow eval_clone]. rewrite (hbind_ok _ _ _ _ _ E).
    cbn [fmap option_fmap option_map ann compose].
    rewrite (hbind_ok _ _ h1 c h1).
    2: { unfold hload. pose proof (lookup_weaken h h1 _ _ Ha (cl_grow C)) as E1.
         unfold compose. simpl. by rewrite E1. }
    split; [done|]. split.
    { simpl. fold holds_val. apply (holds_unfold _ (Hdr l' (at_pos a) (par a)) KHeredoc fs).
      rewrite lookup_insert. split; [done|]. eapply Forall_impl; [exact Hfs|].
      intros p. simpl. by apply (holds_mono h). }
    split; [done|].
    assert (l' ∉ dom h) as Hl'.
    { intros Hx. apply (is_fresh (dom h1)), (subseteq_dom _ _ (cl_grow C)), Hx. }
    assert (∀ x, x ∈ flat_map (λ p : fld * mval, addrs_val p.2) fs → x ∈ dom h) as Hdom.
    { intros x Hx. apply (proj1 (holds_addrs h) (T a KHeredoc fs)); [by apply holds_unfold|].
      simpl. apply elem_of_cons. by right. }
    unfold shared_field, copied_field. simpl. unfold inside. simpl. split.
    + done.
    + intros x [->|Hx]%elem_of_cons; [rewrite dom_insert; set_solver|].
      apply (subseteq_dom _ _ Hsub). eauto.
    + intros x [->|Hx]%elem_of_cons; [by left|by right].
    + intros x Hx. apply elem_of_cons. by right.
    + intros [_ U]%NoDup_cons. constructor; [|done]. eauto.
    + intros m [->|Hm]%elem_of_cons.
      * right. right. exists (T a KHeredoc fs). split; [by left|done].
      * right. left. apply elem_of_list_In, in_flat_map in Hm as (p&Hp&Hm%elem_of_list_In).
        apply elem_of_list_In, in_flat_map. exists p. split; [done|]. by apply elem_of_list_In, nodes_addrs.
    + intros m0 ->%elem_of_list_singleton. eexists. split; [by left|]. done.
Qed.

Definition field_addrs (p : fld * mval) := addrs_val p.2.
Definition field_nodes (p : fld * mval) := nodes_val p.2.

Lemma field_addrs_dom h fs :
  Forall (λ p, holds_val h p.2) fs → ∀ x, x ∈ flat_map field_addrs fs → x ∈ dom h.
Proof.
  intros Hl x (p&Hp%elem_of_list_In&Hx%elem_of_list_In)%elem_of_list_In%in_flat_map.
  rewrite Forall_forall in Hl. by apply (proj2 (holds_addrs h) p.2 (Hl _ Hp)).
Qed.
Lemma shared_field_addrs k p : shared_field k p ⊆ field_addrs p.
Proof.
  intros x. unfold shared_field. repeat case_decide; [done|..].
  - destruct p as [? [| | | |[t|]| |]]; simpl; try by intros ?%elem_of_nil. apply inside_addrs.
  - apply shared_addrs.
Qed.
Lemma shared_fields_addrs k fs : flat_map (shared_field k) fs ⊆ flat_map field_addrs fs.
Proof.
  intros x (p&Hp&Hx%elem_of_list_In)%elem_of_list_In%in_flat_map.
  apply elem_of_list_In, in_flat_map. exists p. split; [done|]. apply elem_of_list_In.
  by eapply shared_field_addrs.
Qed.
Lemma holds_fields_mono h h' fs :
  h ⊆ h' → Forall (λ p : fld * mval, holds_val h p.2) fs → Forall (λ p, holds_val h' p.2) fs.
Proof.
  intros Hs Hl. eapply Forall_impl; [exact Hl|]. intros p. simpl. by apply (holds_mono h h').
Qed.
Definition strip_field (p : fld * mval) : fld * aval := (p.1, strip_val p.2).

Lemma clone_fields_ok k all sc fs h :
  NoDup all.*1 → (∀ p, p ∈ fs → p ∈ all) → (∀ p, p ∈ sc → p ∈ schema k) →
  Forall2 typed_field sc fs → Forall (λ p, holds_val h p.2) fs → Forall (λ p, height_val p.2 ≤ n) fs →
  ∃ h' fs', hmap (clone_field clone k (map shallow_field all)) sc h = Ok (map shallow_field fs', h') ∧
    Forall (λ p, holds_val h' p.2) fs' ∧ map strip_field fs' = map strip_field fs ∧
    cloned h h' (flat_map field_addrs fs) (flat_map (shared_field k) fs) (flat_map (copied_field k) fs)
      (flat_map field_addrs fs') (flat_map field_nodes fs').
Proof.
  intros HU Hall Hsc Hty. revert h Hall Hsc.
  induction Hty as [|[f ty] [f' v] sc fs [Hf Hv] Hty IH]; intros h Hall Hsc Hh Hn.
  - exists h, []. do 3 (split; [done|]). apply cloned_nil.
  - simpl in Hf, Hv. subst f'. pose proof Hh as Hh0.
    apply Forall_cons in Hh as [Hh1 Hh]. apply Forall_cons in Hn as [Hn1 Hn].
    destruct (eval_clone_ok k f ty v h) as (e&h1&v'&Ee&E1&Hh'&Hs1&C1);
      [apply all_fit, Hsc; by left|done|done|done|].
    destruct (IH h1) as (h2&fs'&E2&Hfs'&Hs2&C2).
    { intros p Hp. apply Hall. by right. }
    { intros p Hp. apply Hsc. by right. }
    { eapply holds_fields_mono; [apply (cl_grow C1)|done]. }
    { done. }
    assert (assoc f (map shallow_field all) = Some (shallow v)) as Ev.
    { change (map shallow_field all) with (map (λ p, (p.1, shallow p.2)) all).
      rewrite assoc_map, (assoc_elem f v); [done|done|]. apply Hall. by left. }
    assert (clone_field clone k (map shallow_field all) (f, ty) h = Ok ((f, shallow v'), h1)) as E3.
    { unfold clone_field. rewrite Ee, Ev. by rewrite (hbind_ok _ _ _ _ _ E1). }
    exists h2, ((f, v') :: fs'). cbn [hmap]. rewrite (hbind_ok _ _ _ _ _ E3), (hbind_ok _ _ _ _ _ E2).
    split; [done|]. split; [|split].
    + apply Forall_cons. split; [|done]. by apply (proj2 (holds_mono h1 h2 (cl_grow C2))).
    + simpl. unfold strip_field at 1 3. simpl. by rewrite Hs1, Hs2.
    + cbn [flat_map]. eapply cloned_app; [..|exact C1|exact C2].
      * by apply (field_addrs_dom h ((f, v) :: fs)).
      * apply (shared_field_addrs k (f, v)).
      * apply shared_fields_addrs.
Qed.

Lemma clone_node_ok : clone_ok (clone_node clone) (S n).
Proof.
  intros t h Ht Hh Hn. pose proof Hh as Hh0. destruct t as [a k fs].
  apply holds_unfold in Hh as [Ha Hfs]. pose proof (typed_nodup _ _ _ Ht) as HU.
  apply typed_unfold in Ht.
  destruct (clone_fields_ok k fs (schema k) fs h) as (h1&fs'&E&Hh'&Hs&C);
    [done|done|done|done|done| |].
  { simpl in Hn. apply le_S_n, list_max_bound in Hn. by rewrite Forall_fmap in Hn. }
  set (c := CNode k (at_pos a) None (map shallow_field fs')).
  exists (<[fresh (dom h1) := c]> h1), (T (Hdr (fresh (dom h1)) (at_pos a) None) k fs').
  unfold clone_node. rewrite (hbind_ok _ _ _ _ _ (hload_ok _ _ _ Ha)). rewrite (hbind_ok _ _ _ _ _ E).
  split; [done|]. split.
  { apply holds_unfold. simpl. rewrite lookup_insert. split; [done|].
    eapply holds_fields_mono; [|done]. apply insert_subseteq, fresh_notin. }
  split.
  { unfold strip. simpl. f_equal. exact Hs. }
  assert (cloned h (<[fresh (dom h1) := c]> h1) (addr a :: flat_map field_addrs fs)
    (flat_map (shared_field k) fs) (flat_map (copied_field k) fs)
    (fresh (dom h1) :: flat_map field_addrs fs') (flat_map field_nodes fs')) as C'.
  { eapply cloned_alloc; [by apply elem_of_dom|apply shared_fields_addrs| |exact C].
    by apply field_addrs_dom. }
  destruct C' as [g d nw kp u p cp]. split; [done|done|done|done|done|..].
  - simpl. intros m [->|Hm]%elem_of_cons; [by left|]. by apply p.
  - intros m0 Hm0. destruct (cp m0 Hm0) as (m&?&?). exists m. split; [by right|done].
Qed.
End clone_ok.

Lemma Clone_ok n : clone_ok (Clone n) n.
Proof.
  induction n as [|n IH].
  - intros [a k fs] h _ _ Hn. simpl in Hn. lia.
  - by apply clone_node_ok.
Qed.
