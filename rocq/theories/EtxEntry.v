(** * Parse, ParseString and ParseBytes, with the AST in memory *)
From stdpp Require Import base list option strings gmap.
From Coq Require Import Ascii Lia.
From Verif Require Import GoBase EtxAst EtxHeap EtxHeapSpec EtxText EtxLex EtxUtil EtxGram EtxParse EtxParseSpec
  EtxParseTyped EtxParsePropProofs EtxClone EtxChildren EtxPlace EtxHeapPropProofs EtxOrder.

(** parser.go:22-56.  The three functions differ in where the text comes from; reading
    cannot fail here.  [put] is where the parser allocates the AST of this call; the
    result is nil on an error. *)
Definition ParseString (put : ast → mnode) (s : text) : H (option loc) := λ h,
  match parse s with
  | Ok (Some r) =>
      let t := put r in
      match UpdateParentRefs (height t) (addr (ann t)) (heap_of t ∪ h) with
      | Ok (_, h') => Ok (Some (addr (ann t)), h')
      | Panic => Panic
      | OutOfFuel => OutOfFuel
      end
  | Ok None => Ok (None, h)
  | Panic => Panic
  | OutOfFuel => OutOfFuel
  end.
(** New memory for everything, and no parent yet. *)
Definition allocates (h : heap) (put : ast → mnode) : Prop :=
  ∀ r, strip (put r) = r ∧ NoDup (addrs (put r)) ∧ (∀ x, x ∈ addrs (put r) → h !! x = None) ∧
    ∀ m, m ∈ nodes (put r) → par (ann m) = None.

(** The nodes below the items of a file, those below ExprPostfix.Post left out. *)
Inductive reached (t : mnode) : mnode → Prop :=
| reached_item i : i ∈ subs t → reached t i
| reached_sub m f v c :
    reached t m → (f, v) ∈ fields m → c ∈ val_subs v → ¬ (kind_of m = KExprPostfix ∧ f = FPost) → reached t c.
(** What UpdateParentRefs leaves behind in the AST [t] of a file. *)
Definition parents_set (t : mnode) : Prop :=
  par (ann t) = None ∧
  (∀ i, i ∈ subs t → par (ann i) = None) ∧
  (∀ m f v c, reached t m → (f, v) ∈ fields m → c ∈ val_subs v →
     ¬ (kind_of m = KExprPostfix ∧ f = FPost) → par (ann c) = Some (addr (ann m))) ∧
  (∀ m v c, reached t m → kind_of m = KExprPostfix → (FPost, v) ∈ fields m → c ∈ nodes_val v → par (ann c) = None).

(** ** Proofs *)
Lemma strip_nodes :
  (∀ (t m : mnode), m ∈ nodes t → strip m ∈ nodes (strip t)) ∧
  (∀ (v : mval) m, m ∈ nodes_val v → strip m ∈ nodes_val (strip_val v)).
Proof.
  apply tree_val_ind; try (intros; by match goal with H : _ ∈ nodes_val _ |- _ => apply elem_of_nil in H end).
  - intros a k fs IH m [->|Hm]%elem_of_cons; [by left|]. right.
    apply elem_of_list_In, in_flat_map in Hm as ([f v] & H1 & H2). apply elem_of_list_In in H1, H2.
    apply elem_of_list_In, in_flat_map. exists (f, strip_val v).
    split; [apply in_map_iff; exists (f, v); split; [done|by apply elem_of_list_In]|].
    rewrite Forall_forall in IH. by apply elem_of_list_In, (IH _ H1).
  - intros t IH m Hm. by apply IH.
  - intros t IH m Hm. by apply IH.
  - intros b l IH m Hm. apply elem_of_list_In, in_flat_map in Hm as ([t|] & H1 & H2); [|done].
    apply elem_of_list_In in H1, H2. unfold strip_val. cbn [vmap nodes_val]. rewrite tmap_strip_opt.
    apply elem_of_list_In, in_flat_map. exists (Some (strip t)).
    split; [apply in_map_iff; exists (Some t); split; [done|by apply elem_of_list_In]|].
    rewrite Forall_forall in IH. by apply elem_of_list_In, (IH _ H1).
Qed.
Lemma well_formed_strip (t : mnode) : well_formed (strip t) → well_formed t.
Proof.
  intros H m Hm. destruct (H (strip m)) as [H1 H2]; [by apply strip_nodes|].
  split; [by apply exclusive_strip|by apply no_nil_strip].
Qed.

Definition root_after (a : hdr) (fs : list (fld * mval)) : mnode :=
  T a KAST (map (λ p, (p.1, reparent_val None p.2)) fs).
Lemma reparent_val_sub p v c : c ∈ val_subs (reparent_val p v) → ∃ c', c = reparent p c' ∧ c' ∈ val_subs v.
Proof.
  destruct v as [| | | |[t|]|t|[[b l]|]]; cbn [reparent_val val_subs]; try by intros ?%elem_of_nil.
  - intros ->%elem_of_list_singleton. exists t. split; [done|by left].
  - intros ->%elem_of_list_singleton. exists t. split; [done|by left].
  - intros (o & Ho & E)%elem_of_list_omap. unfold id in E. subst o. apply elem_of_list_fmap in Ho as ([t|] & E & Ho); [|done].
    injection E as ->. exists t. split; [done|]. apply elem_of_list_omap. by exists (Some t).
Qed.
Lemma reparent_field p t f v :
  (f, v) ∈ fields (reparent p t) →
  ∃ v', (f, v') ∈ fields t ∧
    (kind_of t = KExprPostfix ∧ f = FPost ∧ v = v' ∨
     ¬ (kind_of t = KExprPostfix ∧ f = FPost) ∧ v = reparent_val (Some (addr (ann t))) v').
Proof.
  destruct t as [a k fs]. cbn [reparent fields]. intros ([f' v'] & E & H)%elem_of_list_fmap. cbn in E. injection E as -> ->.
  exists v'. split; [done|]. cbn. destruct (decide _) as [[-> ->]|]; [by left|by right].
Qed.
Lemma kind_reparent p t : kind_of (reparent p t) = kind_of t.
Proof. by destruct t. Qed.
Lemma ann_reparent p t : addr (ann (reparent p t)) = addr (ann t) ∧ par (ann (reparent p t)) = p.
Proof. by destruct t. Qed.
Lemma field_sub_node (t c : mnode) f v : (f, v) ∈ fields t → c ∈ val_subs v → c ∈ subs t.
Proof. intros H1 H2. unfold subs. apply elem_of_list_In, in_flat_map. exists (f, v). split; by apply elem_of_list_In. Qed.
Lemma self_node (t : mnode) : t ∈ nodes t.
Proof. destruct t. by left. Qed.
Lemma field_node (t c : mnode) f v : (f, v) ∈ fields t → c ∈ nodes_val v → c ∈ nodes t.
Proof.
  destruct t as [a k fs]. intros H1 H2. right. apply elem_of_list_In, in_flat_map. exists (f, v). split; by apply elem_of_list_In.
Qed.
Lemma mnodes_trans :
  (∀ t c m : mnode, c ∈ nodes t → m ∈ nodes c → m ∈ nodes t) ∧
  (∀ (v : mval) c m, c ∈ nodes_val v → m ∈ nodes c → m ∈ nodes_val v).
Proof.
  apply tree_val_ind; try (intros; by match goal with H : _ ∈ nodes_val _ |- _ => apply elem_of_nil in H end).
  - intros a k fs IH c m [->|Hc]%elem_of_cons Hm; [done|]. right.
    apply elem_of_list_In, in_flat_map in Hc as ([f v] & H1 & H2). apply elem_of_list_In, in_flat_map. exists (f, v).
    split; [done|]. apply elem_of_list_In in H1, H2. apply elem_of_list_In. rewrite Forall_forall in IH. by apply (IH _ H1 c).
  - intros t IH c m. apply IH.
  - intros t IH c m. apply IH.
  - intros b l IH c m Hc Hm.
    apply elem_of_list_In, in_flat_map in Hc as ([t|] & H1 & H2); [|done]. apply elem_of_list_In, in_flat_map. exists (Some t).
    split; [done|]. apply elem_of_list_In in H1, H2. apply elem_of_list_In. rewrite Forall_forall in IH. by apply (IH _ H1 c).
Qed.
Lemma root_sub a fs i : i ∈ subs (root_after a fs) → ∃ i', i = reparent None i' ∧ i' ∈ subs (T a KAST fs).
Proof.
  unfold subs, root_after. cbn [fields]. intros ([f v] & H1 & H2)%elem_of_list_In%in_flat_map.
  apply in_map_iff in H1 as ([f' v'] & E & H1). cbn in E. injection E as -> <-. apply elem_of_list_In in H2. cbn in H2.
  apply reparent_val_sub in H2 as (i' & -> & H2). exists i'. split; [done|]. apply elem_of_list_In, in_flat_map. exists (f, v').
  split; [done|by apply elem_of_list_In].
Qed.
Lemma reached_reparent a fs m :
  reached (root_after a fs) m → ∃ p m', m = reparent p m' ∧ m' ∈ nodes (T a KAST fs).
Proof.
  induction 1 as [i Hi|m f v c _ IH Hf Hc Hp].
  - apply root_sub in Hi as (i' & -> & Hi). exists None, i'. split; [done|]. by eapply sub_in_nodes, self_node.
  - destruct IH as (p & m' & -> & Hm). apply reparent_field in Hf as (v' & Hf & [(H1 & H2 & _)|[_ ->]]).
    { destruct Hp. by rewrite kind_reparent. }
    apply reparent_val_sub in Hc as (c' & -> & Hc). eexists _, c'. split; [done|].
    eapply (proj1 mnodes_trans); [exact Hm|]. eapply sub_in_nodes; [by eapply field_sub_node|apply self_node].
Qed.
Lemma parents_after a fs :
  (∀ m, m ∈ nodes (T a KAST fs) → par (ann m) = None) → parents_set (root_after a fs).
Proof.
  intros H. split_and!.
  - apply (H (T a KAST fs)). by left.
  - intros i (i' & -> & _)%root_sub. apply ann_reparent.
  - intros m f v c Hr Hf Hc Hp. apply reached_reparent in Hr as (p & m' & -> & Hm).
    apply reparent_field in Hf as (v' & Hf & [(H1 & H2 & _)|[_ ->]]); [destruct Hp; by rewrite kind_reparent|].
    apply reparent_val_sub in Hc as (c' & -> & Hc). by rewrite (proj1 (ann_reparent _ _)), (proj2 (ann_reparent _ _)).
  - intros m v c Hr Hk Hf Hc. apply reached_reparent in Hr as (p & m' & -> & Hm). rewrite kind_reparent in Hk.
    apply reparent_field in Hf as (v' & Hf & [(_ & _ & ->)|[Hp _]]); [|by destruct Hp].
    apply H. eapply (proj1 mnodes_trans); [exact Hm|]. by eapply field_node.
Qed.
Lemma strip_root a fs : strip (root_after a fs) = strip (T a KAST fs).
Proof. unfold strip. cbn. f_equal. rewrite map_map. apply map_ext. intros [f v]. cbn. f_equal. apply strip_reparent. Qed.
Lemma addrs_root a fs : addrs (root_after a fs) = addrs (T a KAST fs).
Proof.
  cbn. f_equal. induction fs as [|[f v] fs IH]; [done|]. cbn. by rewrite IH, (proj2 addrs_reparent).
Qed.

(*P C67_parse_in_memory *)
(** Every call returns: nil, if the text is not accepted, with the memory unchanged; or the
    AST of the text, in memory of its own in which no two nodes share anything, with the
    parents set.  No memory that was in use is changed. *)
Lemma p67 h put s :
  allocates h put →
  (parse s = Ok None ∧ ParseString put s h = Ok (None, h)) ∨
  ∃ t h', parse s = Ok (Some (strip t)) ∧ ParseString put s h = Ok (Some (addr (ann t)), h') ∧
    holds h' t ∧ NoDup (addrs t) ∧ (∀ x, x ∈ addrs t → h !! x = None) ∧ parents_set t ∧
    ∀ x, x ∉ addrs t → h' !! x = h !! x.
Proof.
  intros Hput. destruct (p45_total s) as [[r|] Hp]; [right|by left; unfold ParseString; rewrite Hp].
  destruct (Hput r) as (Hs & Hnd & Hnew & Hpar).
  destruct (p60_well_formed _ _ Hp) as (Hk & Ht & Hw). rewrite <- Hs in Hk, Ht, Hw.
  unfold ParseString. rewrite Hp. destruct (put r) as [a k fs] eqn:E. rewrite kind_strip in Hk. cbn [kind_of] in Hk. subst k.
  apply typed_of_strip in Ht. apply well_formed_strip in Hw.
  assert (Hh : holds (heap_of (T a KAST fs) ∪ h) (T a KAST fs)).
  { eapply holds_mono; [apply map_union_subseteq_l|]. by apply heap_of_holds. }
  destruct (p55 (height (T a KAST fs)) _ a fs Ht Hh Hnd Hw ltac:(lia)) as (h' & E' & Hh' & Hframe).
  fold (root_after a fs) in Hh'. exists (root_after a fs), h'.
  rewrite strip_root, Hs, addrs_root. split_and!; [done| |done|done|done|by apply parents_after|].
  - cbn [ann] in *. by rewrite E'.
  - intros x Hx. rewrite Hframe.
    + apply lookup_union_r. destruct (heap_of (T a KAST fs) !! x) as [c|] eqn:Ec; [|done]. destruct Hx.
      unfold heap_of in Ec. apply elem_of_list_to_map_2 in Ec. rewrite <- (proj1 cells_addrs).
      apply elem_of_list_fmap. by exists (x, c).
    + intros Hx'. apply Hx. by apply node_addrs_in.
Qed.

Lemma mapS_Forall {X Y} (f : X → loc → Y * loc) (Q : Y → Prop) l n :
  (∀ x n, x ∈ l → Q (f x n).1) → Forall Q (mapS f l n).1.
Proof.
  revert n. induction l as [|x l IH]; intros n H; cbn; [constructor|].
  pose proof (H x n ltac:(by left)) as Hx. destruct (f x n) as [y n1].
  pose proof (IH n1 ltac:(intros; apply H; by right)) as Hl. destruct (mapS f l n1) as [ys n2]. by constructor.
Qed.
Lemma placed_orphans :
  (∀ t n m, m ∈ nodes (place t n).1 → par (ann m) = None) ∧
  (∀ v n m, m ∈ nodes_val (place_val v n).1 → par (ann m) = None).
Proof.
  apply tree_val_ind; try (intros; by match goal with H : _ ∈ nodes_val _ |- _ => apply elem_of_nil in H end).
  - intros p k fs IH n m. rewrite Forall_forall in IH. cbn [place].
    set (f := λ (q : fld * aval) n, let '(v, n0) := place_val q.2 n in (q.1, v, n0)).
    assert (Forall (λ q : fld * mval, ∀ m, m ∈ nodes_val q.2 → par (ann m) = None) (mapS f fs (Pos.succ n)).1) as H.
    { apply mapS_Forall. intros [fl v] i Hx. unfold f. cbn. specialize (IH _ Hx i). cbn in IH.
      destruct (place_val v i) as [v' i']. exact IH. }
    destruct (mapS f fs (Pos.succ n)) as [fs' n']. cbn [fst]. intros [->|Hm]%elem_of_cons; [done|].
    apply elem_of_list_In, in_flat_map in Hm as (q & H1 & H2). apply elem_of_list_In in H1, H2.
    rewrite Forall_forall in H. by apply (H _ H1).
  - intros [[b l]|] n m H; by apply elem_of_nil in H.
  - intros [[b l]|] n m H; by apply elem_of_nil in H.
  - intros t IH n m. cbn. specialize (IH n m). destruct (place t n) as [t' n']. exact IH.
  - intros t IH n m. cbn. specialize (IH n m). destruct (place t n) as [t' n']. exact IH.
  - intros b l IH n m. rewrite Forall_forall in IH. cbn [place_val].
    set (f := λ (o : option ast) n, match o with
              | Some t => let '(t0, n0) := place t n in (Some t0, n0) | None => (None, n) end).
    assert (Forall (λ o : option mnode, ∀ t m, o = Some t → m ∈ nodes t → par (ann m) = None) (mapS f l (Pos.succ n)).1) as H.
    { apply mapS_Forall. intros [t|] i Hx t' m'; unfold f; [|done]. specialize (IH _ Hx i m'). cbn in IH.
      destruct (place t i) as [t0 i']. cbn. intros [= <-]. exact IH. }
    destruct b. destruct (mapS f l (Pos.succ n)) as [l' n']. cbn [fst nodes_val]. intros Hm.
    apply elem_of_list_In, in_flat_map in Hm as ([t|] & H1 & H2); [|done]. apply elem_of_list_In in H1, H2.
    rewrite Forall_forall in H. by apply (H _ H1 t).
Qed.
(** A place in memory after all that is in use. *)
Definition next_free (h : heap) : loc := Pos.succ (foldr Pos.max 1%positive (elements (dom h))).
Lemma next_free_above h x : (next_free h <= x)%positive → h !! x = None.
Proof.
  intros Hx. destruct (h !! x) as [c|] eqn:E; [|done]. exfalso.
  assert (x ∈ elements (dom h)) as Hin by (apply elem_of_elements, elem_of_dom; by exists c).
  unfold next_free in Hx. induction (elements (dom h)) as [|y l IH]; [by apply elem_of_nil in Hin|].
  cbn [foldr] in Hx. apply elem_of_cons in Hin as [->|Hin]; [lia|]. apply IH; [|done]. lia.
Qed.
(*P C67_allocation_is_possible *)
(** In every memory there is room: the hypothesis of C67_parse_in_memory can be met. *)
Lemma p67_room h : allocates h (λ r, (place r (next_free h)).1).
Proof.
  intros r. destruct (proj1 place_ok r (next_free h)) as [(_ & Hnd & Hx) Hs]. split_and!; [done|done| |].
  - intros x Hin%Hx. apply next_free_above. lia.
  - intros m. apply placed_orphans.
Qed.
(*P C67_parsing_twice *)
(** Parsing a text again gives an AST of the same value that shares nothing with the
    first, which stays as it is. *)
Lemma p67_twice h put put' s l h' :
  allocates h put → ParseString put s h = Ok (Some l, h') → allocates h' put' →
  ∃ t t' h'', ParseString put' s h' = Ok (Some (addr (ann t')), h'') ∧ addr (ann t) = l ∧
    holds h'' t ∧ holds h'' t' ∧ strip t' = strip t ∧ (∀ x, x ∈ addrs t → x ∉ addrs t').
Proof.
  intros Hput E Hput'. destruct (p67 h put s Hput) as [[_ E']|(t & h1 & Hp & E' & Hh & _ & Hnew & _ & Hf)];
    rewrite E in E'; [done|]. injection E' as -> <-.
  destruct (p67 h' put' s Hput') as [[E2 _]|(t' & h2 & Hp2 & E2 & Hh2 & _ & Hnew2 & _ & Hf2)]; [by rewrite Hp in E2|].
  rewrite Hp in Hp2. injection Hp2 as Hs.
  assert (Hdis : ∀ x, x ∈ addrs t → x ∉ addrs t').
  { intros x Hx Hx'. apply Hnew2 in Hx'. apply (proj1 (holds_addrs h') t Hh), elem_of_dom in Hx as [c Hc]. by rewrite Hc in Hx'. }
  exists t, t', h2. split_and!; [done|done| |done|done|done].
  apply (holds_agree h'); [|done]. intros x Hx. apply Hf2. by apply Hdis.
Qed.
