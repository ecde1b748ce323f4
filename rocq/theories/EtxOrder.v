(** * The children of parsed nodes come in the order of the text *)
From stdpp Require Import base list option strings sorting.
From Coq Require Import Ascii Lia.
From Verif Require Import GoBase EtxAst EtxHeap EtxHeapSpec EtxText EtxLex EtxLexSpec EtxLexFacts EtxLexPropProofs EtxUtil
  EtxGram EtxParse EtxParseBase EtxParseSpec EtxParseStore EtxParseTyped EtxParsePropProofs EtxParseParts EtxClone EtxChildren EtxShape.

(** ** Trees in the order of the text *)
(** [in_order e us ts]: the trees [ts] are built from disjoint stretches of the tokens
    [us], one after the other; [e] is the position after [us]. *)
Inductive in_order (e : pos) : list token → list ast → Prop :=
| io_nil us : in_order e us []
| io_cons pre us post t ts :
    builds (first_pos e post) (kind_of t) us t → in_order e post ts → in_order e (pre ++ us ++ post) (t :: ts).

Lemma in_order_skip e us vs ts : in_order e vs ts → in_order e (us ++ vs) ts.
Proof. destruct 1; [constructor|]. rewrite app_assoc. by constructor. Qed.
Lemma in_order_app e us vs ts ts' :
  in_order (first_pos e vs) us ts → in_order e vs ts' → in_order e (us ++ vs) (ts ++ ts').
Proof.
  intros H H'. induction H as [us|pre us post t ts Hb _ IH]; [by apply in_order_skip|].
  rewrite <- !app_assoc. cbn [app]. constructor; [by rewrite first_pos_app|done].
Qed.
Lemma in_order_sublist e us ts ts' : ts' `sublist_of` ts → in_order e us ts → in_order e us ts'.
Proof.
  intros Hs. revert us. induction Hs as [|t ts' ts Hs IH|t ts' ts Hs IH]; intros us H; [done|..].
  - inversion H as [|pre vs post t' ts'' Hb H']; subst. constructor; [done|by apply IH].
  - inversion H as [|pre vs post t' ts'' Hb H']; subst. by apply IH, in_order_skip, in_order_skip.
Qed.

Lemma captures_in_order p g us cs l : derives p g us cs l → in_order p us (trees_of (map snd cs)).
Proof.
  revert p g us cs l.
  enough ((∀ p g us cs l, derives p g us cs l → in_order p us (trees_of (map snd cs))) ∧
    (∀ p k us t, builds p k us t → True)) by tauto.
  apply (derivation_ind (λ p g us cs l, in_order p us (trees_of (map snd cs))) (λ p k us t, True)); try done; try constructor.
  - intros p f k us t H _. cbn. rewrite <- (app_nil_l us), <- (app_nil_r us).
    constructor; [|constructor]. cbn. by rewrite (builds_kind _ _ _ _ H).
  - intros p f g us cs l _ IH. rewrite map_app, trees_of_app. cbn. by rewrite app_nil_r.
  - intros p g gs us vs cs ds l m _ IH1 _ IH2. rewrite map_app, trees_of_app. by apply in_order_app.
  - intros p g us vs cs ds l m _ IH1 _ IH2. rewrite map_app, trees_of_app. by apply in_order_app.
  - intros p g us vs cs ds l m _ IH1 _ IH2. rewrite map_app, trees_of_app. by apply in_order_app.
Qed.

(** ** The order of the fields in the grammar *)
Definition none_of (fs : list fld) (g : gexp) : bool := forallb (λ f, bool_decide (f ∉ gfields g)) fs.
(** [g] cannot capture [f] after one of [fs]. *)
Fixpoint before (f : fld) (fs : list fld) (g : gexp) : bool :=
  match g with
  | GLit _ | GTok _ | GSub _ _ => true
  | GCap _ g => bool_decide (gfields g = [])
  | GOpt g => before f fs g
  | GMany g | GSome g => none_of [f] g || none_of fs g
  | GAlt gs => forallb (before f fs) gs
  | GSeq gs =>
      (fix go gs := match gs with
       | [] => true
       | g :: gs => before f fs g && go gs && (none_of fs g || none_of [f] (GSeq gs))
       end) gs
  end.
Fixpoint ordered (fs : list fld) (g : gexp) : bool :=
  match fs with [] => true | f :: fs => before f fs g && ordered fs g end.
(** Children visits the fields in the order of the grammar. *)
Lemma visited_ordered k : ordered (visited k) (grammar k) = true.
Proof. revert k. apply for_all_kinds. vm_compute. reflexivity. Qed.

Definition free_of (fs : list fld) (cs : list capture) : Prop := ∀ f, f ∈ fs → captures_of f cs = [].
Definition parted (f : fld) (fs : list fld) (cs : list capture) : Prop :=
  ∃ cs1 cs2, cs = cs1 ++ cs2 ∧ free_of fs cs1 ∧ free_of [f] cs2.
Lemma free_of_nil fs : free_of fs [].
Proof. by intros f _. Qed.
Lemma free_of_app fs cs ds : free_of fs cs → free_of fs ds → free_of fs (cs ++ ds).
Proof. intros H1 H2 f Hf. by rewrite captures_of_app, (H1 f Hf), (H2 f Hf). Qed.
Lemma none_of_free p g us cs l fs : derives p g us cs l → none_of fs g = true → free_of fs cs.
Proof.
  intros Hd H f Hf. unfold none_of in H. rewrite forallb_forall in H.
  apply elem_of_list_In, H, bool_decide_eq_true in Hf.
  eapply (captures_none (λ _, True)); [|exact Hf].
  by apply (proj2 (builds_ind3 (λ _, True) ltac:(done)) p g us cs l).
Qed.
Lemma parted_free_fs f fs cs : free_of fs cs → parted f fs cs.
Proof. intros H. exists cs, []. rewrite app_nil_r. split_and!; [done..|apply free_of_nil]. Qed.
Lemma parted_free_f f fs cs : free_of [f] cs → parted f fs cs.
Proof. intros H. exists [], cs. split_and!; [done| |done]. apply free_of_nil. Qed.
Lemma parted_one f fs c : f ∉ fs → parted f fs [c].
Proof.
  intros Hf. destruct c as [f' c]. destruct (decide (f' = f)) as [->|Hne].
  - apply parted_free_fs. intros f' Hf'. rewrite captures_of_cons, decide_False; [done|]. by intros ->.
  - apply parted_free_f. intros f'' ->%elem_of_list_singleton. by rewrite captures_of_cons, decide_False.
Qed.
Lemma before_seq f fs g gs :
  before f fs (GSeq (g :: gs)) = before f fs g && before f fs (GSeq gs) && (none_of fs g || none_of [f] (GSeq gs)).
Proof. done. Qed.
Lemma before_parted f fs p g us cs l :
  f ∉ fs → derives p g us cs l → before f fs g = true → parted f fs cs.
Proof.
  intros Hf. revert p g us cs l.
  enough ((∀ p g us cs l, derives p g us cs l → before f fs g = true → parted f fs cs) ∧
    (∀ p k us t, builds p k us t → True)) by tauto.
  assert (Hnil : parted f fs []) by (apply parted_free_fs, free_of_nil).
  apply (derivation_ind (λ p g us cs l, before f fs g = true → parted f fs cs) (λ p k us t, True)); try done.
  - intros p f' k us t _ _ _. by apply parted_one.
  - intros p f' g us cs l Hd _ H. cbn [before] in H. apply bool_decide_eq_true in H.
    assert (∀ f, captures_of f cs = []) as Hcs.
    { intros f0. apply (none_of_free _ _ _ _ _ [f0] Hd); [|by left]. cbn. rewrite bool_decide_true; [done|].
      rewrite H. apply not_elem_of_nil. }
    destruct (parted_one f fs (f', Texts l) Hf) as (cs1 & cs2 & E & H1 & H2).
    exists (cs ++ cs1), cs2. rewrite <- app_assoc, <- E. split_and!; [done| |done].
    apply free_of_app; [|done]. intros f0 _. apply Hcs.
  - intros p g gs us vs cs ds l m Hd1 IH1 Hd2 IH2 H. rewrite before_seq in H.
    apply andb_true_iff in H as [[H1 H2]%andb_true_iff H3].
    destruct (IH1 H1) as (cs1 & cs2 & -> & Hc1 & Hc2). destruct (IH2 H2) as (ds1 & ds2 & -> & Hd1' & Hd2').
    apply orb_true_iff in H3 as [H3|H3].
    + exists ((cs1 ++ cs2) ++ ds1), ds2. rewrite app_assoc. split_and!; [done| |done].
      apply free_of_app; [|done]. by apply (none_of_free _ _ _ _ _ _ Hd1).
    + exists cs1, (cs2 ++ ds1 ++ ds2). rewrite app_assoc. split_and!; [by rewrite !app_assoc|done|].
      apply free_of_app; [done|]. by apply (none_of_free _ _ _ _ _ _ Hd2).
  - intros p g gs us cs l Hg _ IH H. cbn [before] in H. rewrite forallb_forall in H. by apply IH, H, elem_of_list_In.
  - intros p g us vs cs ds l m Hd1 _ Hd2 _ H. cbn [before] in H. apply orb_true_iff in H as [H|H].
    + apply parted_free_f, free_of_app; [by apply (none_of_free _ _ _ _ _ _ Hd1)|by apply (none_of_free _ _ _ _ _ _ Hd2)].
    + apply parted_free_fs, free_of_app; [by apply (none_of_free _ _ _ _ _ _ Hd1)|by apply (none_of_free _ _ _ _ _ _ Hd2)].
  - intros p g us vs cs ds l m Hd1 _ Hd2 _ H. cbn [before] in H. apply orb_true_iff in H as [H|H].
    + apply parted_free_f, free_of_app; [by apply (none_of_free _ _ _ _ _ _ Hd1)|by apply (none_of_free _ _ _ _ _ _ Hd2)].
    + apply parted_free_fs, free_of_app; [by apply (none_of_free _ _ _ _ _ _ Hd1)|by apply (none_of_free _ _ _ _ _ _ Hd2)].
Qed.

(** The captures of fields in the order of the grammar are in the order of the text. *)
Definition captured_in (fs : list fld) (cs : list capture) : list captured := flat_map (λ f, captures_of f cs) fs.
Lemma free_of_drop fs cs1 cs2 : free_of fs cs1 → captured_in fs (cs1 ++ cs2) = captured_in fs cs2.
Proof.
  intros H. induction fs as [|f fs IH]; [done|]. cbn. rewrite captures_of_app, (H f) by (by left). cbn. f_equal.
  apply IH. intros f' Hf'. apply H. by right.
Qed.
Lemma captures_of_sublist f cs : captures_of f cs `sublist_of` map snd cs.
Proof.
  unfold captures_of. induction cs as [|[f' c] cs IH]; [constructor|]. rewrite filter_cons. cbn.
  destruct (decide _); cbn; by constructor.
Qed.
Fixpoint all_parted (fs : list fld) (cs : list capture) : Prop :=
  match fs with [] => True | f :: fs => parted f fs cs ∧ all_parted fs cs end.
Lemma parted_drop f fs cs1 cs2 : parted f fs (cs1 ++ cs2) → parted f fs cs2.
Proof.
  intros (ds1 & ds2 & E & H1 & H2). apply app_eq_inv in E as [(l & -> & ->)|(l & -> & ->)].
  - apply parted_free_f. intros f' Hf'. specialize (H2 f' Hf'). rewrite captures_of_app in H2. by apply app_nil in H2 as [_ H2].
  - exists l, ds2. split_and!; [done| |done]. intros f' Hf'. specialize (H1 f' Hf'). rewrite captures_of_app in H1.
    by apply app_nil in H1 as [_ H1].
Qed.
Lemma all_parted_drop fs cs1 cs2 : all_parted fs (cs1 ++ cs2) → all_parted fs cs2.
Proof. induction fs as [|f fs IH]; [done|]. intros [H1 H2]. split; [by eapply parted_drop|by apply IH]. Qed.
Lemma parted_sublist fs cs : all_parted fs cs → captured_in fs cs `sublist_of` map snd cs.
Proof.
  revert cs. induction fs as [|f fs IH]; intros cs; [intros _; apply sublist_nil_l|].
  intros [(cs1 & cs2 & -> & H1 & H2) H]. cbn [captured_in flat_map]. fold (captured_in fs (cs1 ++ cs2)).
  rewrite captures_of_app, (H2 f) by (by left). rewrite app_nil_r, free_of_drop by done.
  rewrite map_app. apply sublist_app; [apply captures_of_sublist|]. apply IH. by eapply all_parted_drop.
Qed.
Lemma ordered_parted fs p g us cs l :
  NoDup fs → derives p g us cs l → ordered fs g = true → all_parted fs cs.
Proof.
  intros Hnd Hd. induction Hnd as [|f fs Hf _ IH]; [done|]. cbn. intros [H1 H2]%andb_true_iff. split; [|by apply IH].
  by eapply before_parted.
Qed.
Lemma trees_of_sublist cs ds : cs `sublist_of` ds → trees_of cs `sublist_of` trees_of ds.
Proof.
  induction 1 as [|c cs ds _ IH|c cs ds _ IH]; [constructor|..]; destruct c; cbn; try done; by constructor.
Qed.
Lemma visited_nodup k : NoDup (visited k).
Proof. apply (bool_decide_eq_true_1 (NoDup (visited k))). revert k. apply for_all_kinds. by vm_compute. Qed.

(** ** The values of the fields *)
#[global] Instance pos_eq_dec : EqDecision pos.
Proof. solve_decision. Defined.
(** The nodes with a position: all but the two captured structs and the two missing ones. *)
Definition placed_nodes (l : list ast) : list ast := filter (λ t, ann t ≠ no_pos) l.
Lemma placed_sublist l : placed_nodes l `sublist_of` l.
Proof. induction l as [|t l IH]; [constructor|]. unfold placed_nodes. rewrite filter_cons. destruct (decide _); by constructor. Qed.
Lemma omap_id_Some {X} (l : list X) : omap id (map Some l) = l.
Proof. induction l as [|x l IH]; [done|]. cbn. by rewrite IH. Qed.
Lemma last_sublist {X} (l : list X) x : last l = Some x → [x] `sublist_of` l.
Proof.
  intros H%last_elem. apply elem_of_list_split in H as (l1 & l2 & ->).
  apply sublist_inserts_l, sublist_skip, sublist_nil_l.
Qed.
Lemma field_subs_trees k f ty cs v :
  k ≠ KValueNumber → (f, ty) ∈ schema k → field_value k f ty cs = Some v →
  placed_nodes (val_subs v) `sublist_of` trees_of (captures_of f cs).
Proof.
  intros Hk Hty Hv.
  assert (Hplain : plain_value k f ty (captures_of f cs) = Some v → placed_nodes (val_subs v) `sublist_of` trees_of (captures_of f cs)).
  { clear Hv. generalize (captures_of f cs). intros ds H. destruct ty; cbn [plain_value] in H.
    1-3: injection H as <-; apply sublist_nil_l.
    - exfalso. by apply no_floats in Hty.
    - injection H as <-. destruct (last _) as [t|] eqn:E; [|apply sublist_nil_l].
      etrans; [apply placed_sublist|]. by apply last_sublist.
    - destruct (last _) as [t|] eqn:E.
      + injection H as <-. etrans; [apply placed_sublist|]. by apply last_sublist.
      + pose proof (zero_emb _ _ _ Hty) as Hz. cbv beta iota in Hz. rewrite Hz in H. injection H as <-. cbn. apply sublist_nil_l.
    - injection H as <-. destruct (decide _); [apply sublist_nil_l|]. etrans; [apply placed_sublist|].
      cbn [val_subs]. by rewrite omap_id_Some. }
  destruct (special_kind k) eqn:Hs; [|apply Hplain; by rewrite <- field_value_plain].
  destruct k; try done; destruct f; try (by apply Hplain); cbn [field_value] in Hv.
  - destruct (captures_of FBool cs) as [|[[|w [|? ?]]|t] [|? ?]]; try done; injection Hv as <-; apply sublist_nil_l.
  - destruct (captures_of FNumber cs) as [|[[|w [|? ?]]|t] [|? ?]]; try done; [injection Hv as <-; apply sublist_nil_l|].
    destruct (capture_number w); [|done]. injection Hv as <-. apply sublist_nil_l.
  - destruct (captures_of FDelimiter cs) as [|[[|w [|? ?]]|t] [|? ?]]; try done.
    destruct (capture_delimiter w); [|done]. injection Hv as <-. apply sublist_nil_l.
  - destruct (captures_of FDelimiter cs) as [|[[|w [|? ?]]|t] [|? ?]]; try done.
    destruct (capture_delimiter w); [|done]. injection Hv as <-. apply sublist_nil_l.
Qed.
(** The nodes Children lists. *)
Definition ast_listed (t : ast) : list ast :=
  flat_map (λ f, match get f t with Some v => val_subs v | None => [] end) (visited (kind_of t)).
Lemma placed_app l1 l2 : placed_nodes (l1 ++ l2) = placed_nodes l1 ++ placed_nodes l2.
Proof. apply filter_app. Qed.
Lemma trees_captured fs cs : trees_of (captured_in fs cs) = flat_map (λ f, trees_of (captures_of f cs)) fs.
Proof. induction fs as [|f fs IH]; [done|]. cbn [captured_in flat_map]. by rewrite trees_of_app, <- IH. Qed.
Lemma built_in_order p k us t : builds p k us t → in_order p us (placed_nodes (ast_listed t)).
Proof.
  intros H. destruct H as [p k us cs l fs Hd [Hf1 Hf2]].
  assert (Hnum : k ≠ KValueNumber).
  { intros ->. cbn in Hd. apply derives_alt_inv in Hd as (g & Hg & _). by apply elem_of_nil in Hg. }
  eapply in_order_sublist; [|by eapply captures_in_order].
  etrans; [|apply trees_of_sublist, (parted_sublist (visited k)), (ordered_parted _ p (grammar k) us cs l); [apply visited_nodup|done|apply visited_ordered]].
  rewrite trees_captured. unfold ast_listed, get. cbn [kind_of fields].
  induction (visited k) as [|f vs IH]; [constructor|]. cbn [flat_map]. rewrite placed_app. apply sublist_app; [|exact IH].
  destruct (assoc f fs) as [v|] eqn:E; [|apply sublist_nil_l].
  assert (∃ ty, (f, ty) ∈ schema k) as [ty Hty].
  { assert (f ∈ map fst fs) as Hm.
    { clear -E. induction fs as [|[f' w] fs IH]; [done|]. cbn in *. destruct (decide _) as [->|]; [by left|]. right. by apply IH. }
    rewrite Hf1 in Hm. apply elem_of_list_fmap in Hm as ([f' ty] & -> & ?). by exists ty. }
  destruct (Hf2 f ty Hty) as [_ Hv]. rewrite E in Hv. by apply (field_subs_trees k f ty).
Qed.

(** ** Nodes in memory *)
Lemma tmap_subs (v : mval) : val_subs (strip_val v) = strip <$> val_subs v.
Proof.
  destruct v as [| | | |[t|]|t|[[b l]|]]; try done. unfold strip_val. cbn [vmap val_subs].
  rewrite tmap_strip_opt. induction l as [|[t|] l IH]; [done|..]; cbn; by rewrite IH.
Qed.
Lemma get_strip f (t : mnode) : get f (strip t) = strip_val <$> get f t.
Proof. destruct t as [a k fs]. unfold get. apply (assoc_map strip_val). Qed.
Lemma kind_strip (t : mnode) : kind_of (strip t) = kind_of t.
Proof. by destruct t. Qed.
Lemma ann_strip (t : mnode) : ann (strip t) = at_pos (ann t).
Proof. by destruct t. Qed.
Lemma listed_strip t : ast_listed (strip t) = strip <$> listed t.
Proof.
  unfold ast_listed, listed. rewrite kind_strip. induction (visited (kind_of t)) as [|f fs IH]; [done|].
  cbn [flat_map]. rewrite fmap_app, <- IH. f_equal. rewrite get_strip. unfold field_subs. fold (get f t).
  destruct (get f t); [apply tmap_subs|done].
Qed.
Lemma exclusive_strip (t : mnode) : exclusive (strip t) → exclusive t.
Proof.
  unfold exclusive. rewrite kind_strip. assert (∀ f, is_set (strip t) f = is_set t f) as H.
  { intros f. unfold is_set. rewrite get_strip. destruct (get f t) as [[| | | |[]| |]|]; done. }
  assert (filter (λ f, is_set (strip t) f = true) (one_of (kind_of t)) = filter (λ f, is_set t f = true) (one_of (kind_of t))) as ->;
    [|done].
  induction (one_of (kind_of t)) as [|f l IH]; [done|]. rewrite !filter_cons, IH. destruct (decide _) as [H1|H1];
    rewrite H in H1; destruct (decide _); done.
Qed.
Lemma no_nil_strip (t : mnode) : no_nil_items (strip t) → no_nil_items t.
Proof.
  intros H f b l E Hl. apply (H f tt (map (fmap strip) l)); [|apply elem_of_list_fmap; by exists None].
  rewrite get_strip, E. cbn. unfold strip_val. cbn [vmap]. by rewrite tmap_strip_opt.
Qed.
Lemma typed_strip :
  (∀ t : mnode, typed (strip t) = true → typed t = true) ∧
  (∀ (v : mval) ty, typed_val ty (strip_val v) = true → typed_val ty v = true).
Proof.
  apply tree_val_ind; try (intros; by destruct ty).
  - intros a k fs IH H. apply typed_unfold. apply (typed_unfold (at_pos a)) in H. revert H. generalize (schema k).
    induction IH as [|[f v] fs Hv _ IH]; intros sc H; [by inversion H|]. inversion H as [|[f' ty] ? ? ? [H1 H2] H3]; subst.
    constructor; [|by apply IH]. split; [exact H1|]. by apply Hv.
  - intros t IH ty H. destruct ty; try done. unfold strip_val in H. cbn in H. fold (strip t) in H. rewrite kind_strip in H.
    apply andb_true_iff in H as [H1 H2]. apply andb_true_iff. split; [exact H1|by apply IH].
  - intros t IH ty H. destruct ty; try done. unfold strip_val in H. cbn in H. fold (strip t) in H. rewrite kind_strip in H.
    apply andb_true_iff in H as [H1 H2]. apply andb_true_iff. split; [exact H1|by apply IH].
  - intros b l IH ty H. destruct ty; try done. unfold strip_val in H. cbn [vmap] in H. rewrite tmap_strip_opt in H.
    cbn [typed_val] in *. rewrite forallb_forall in *. intros [t|] Ht; [|done].
    assert (In (Some (strip t)) (map (fmap strip) l)) as Hin by (apply in_map_iff; by exists (Some t)).
    apply H in Hin. rewrite kind_strip in Hin. apply andb_true_iff in Hin as [H1 H2]. rewrite H1.
    rewrite Forall_forall in IH. apply elem_of_list_In in Ht. by apply (IH (Some t)).
Qed.
Lemma typed_of_strip (t : mnode) : typed (strip t) = true → typed t = true.
Proof. apply typed_strip. Qed.

(** ** The statement *)
Lemma in_order_part e us pre vs post ts :
  us = pre ++ vs ++ post → in_order (first_pos e post) vs ts → in_order e us ts.
Proof. intros -> H. apply in_order_skip. rewrite <- (app_nil_r ts). apply in_order_app; [done|constructor]. Qed.
Lemma loose_listed t : loose t → typed t = true → ast_listed t = [].
Proof.
  intros Hl Ht. unfold ast_listed. induction (visited (kind_of t)) as [|f fs IH]; [done|]. cbn [flat_map].
  rewrite IH, app_nil_r. destruct (get f t) as [v|] eqn:E; [|done].
  assert ((f, v) ∈ fields t) as Hin.
  { unfold get in E. clear -E. induction (fields t) as [|[f' w] l IH]; [done|]. cbn in E. destruct (decide _) as [->|]; [|right; by apply IH].
    injection E as ->. by left. }
  destruct (val_subs v) as [|c l] eqn:Ev; [done|]. exfalso. apply (loose_subs t f v c Hl Ht Hin). rewrite Ev. by left.
Qed.
Lemma typed_node :
  (∀ t m : ast, m ∈ nodes t → typed t = true → typed m = true) ∧
  (∀ (v : aval) m ty, m ∈ nodes_val v → typed_val ty v = true → typed m = true).
Proof.
  apply tree_val_ind; try (intros; by match goal with H : _ ∈ nodes_val _ |- _ => apply elem_of_nil in H end).
  - intros a k fs IH m [->|Hm]%elem_of_cons Ht; [done|].
    apply elem_of_list_In, in_flat_map in Hm as ([f v] & H1 & H2). apply elem_of_list_In in H1, H2.
    destruct (typed_fields _ _ _ Ht H1) as (ty & _ & Hv). rewrite Forall_forall in IH. by apply (IH _ H1 m ty).
  - intros t IH m ty Hm H. destruct ty; try done. apply andb_true_iff in H as [_ H]. by apply IH.
  - intros t IH m ty Hm H. destruct ty; try done. apply andb_true_iff in H as [_ H]. by apply IH.
  - intros b l IH m ty Hm H. destruct ty; try done. cbn [typed_val] in H. rewrite forallb_forall in H.
    apply elem_of_list_In, in_flat_map in Hm as ([t|] & H1 & H2); [|done]. pose proof (H _ H1) as [_ Ht]%andb_true_iff.
    apply elem_of_list_In in H1, H2. rewrite Forall_forall in IH. by apply (IH _ H1).
Qed.
Lemma node_in_order p k us t m : builds p k us t → m ∈ nodes t → in_order p us (placed_nodes (ast_listed m)).
Proof.
  intros H Hm. pose proof (builds_good _ _ _ _ H) as [_ [Hty _]].
  destruct (nodes_within _ _ _ _ _ H Hm) as [(pre & vs & post & -> & Hb)|Hl].
  - eapply in_order_part; [done|]. by eapply built_in_order.
  - rewrite loose_listed; [constructor|done|]. by eapply (proj1 typed_node).
Qed.
Lemma sub_of_listed (t c : ast) : c ∈ ast_listed t → ∃ f v, (f, v) ∈ fields t ∧ c ∈ val_subs v.
Proof.
  unfold ast_listed. intros (f & _ & H)%elem_of_list_In%in_flat_map. apply elem_of_list_In in H.
  destruct (get f t) as [v|] eqn:E; [|by apply elem_of_nil in H]. exists f, v. split; [|done].
  unfold get in E. clear -E. induction (fields t) as [|[f' w] l IH]; [done|]. cbn in E.
  destruct (decide _) as [->|]; [|right; by apply IH]. injection E as ->. by left.
Qed.
Lemma sub_node (t c : ast) f v : (f, v) ∈ fields t → c ∈ val_subs v → c ∈ nodes t.
Proof.
  destruct t as [a k fs]. cbn [fields nodes]. intros H1 H2. right. apply elem_of_list_In, in_flat_map. exists (f, v).
  split; [by apply elem_of_list_In|]. cbn [snd]. apply elem_of_list_In.
  assert (Hc : ∀ t : ast, t ∈ nodes t) by (intros [? ? ?]; by left).
  destruct v as [| | | |[x|]|x|[[b xs]|]]; try (by apply elem_of_nil in H2); cbn [val_subs nodes_val] in *.
  - apply elem_of_list_singleton in H2 as ->. apply Hc.
  - apply elem_of_list_singleton in H2 as ->. apply Hc.
  - apply elem_of_list_omap in H2 as (o & Ho & E). unfold id in E. subst o.
    apply elem_of_list_In, in_flat_map. exists (Some c). split; [by apply elem_of_list_In|]. apply elem_of_list_In, Hc.
Qed.
Lemma nodes_trans :
  (∀ t c m : ast, c ∈ nodes t → m ∈ nodes c → m ∈ nodes t) ∧
  (∀ (v : aval) c m, c ∈ nodes_val v → m ∈ nodes c → m ∈ nodes_val v).
Proof.
  apply tree_val_ind; try (intros; by match goal with H : _ ∈ nodes_val _ |- _ => apply elem_of_nil in H end).
  - intros a k fs IH c m [->|Hc]%elem_of_cons Hm; [done|]. right.
    apply elem_of_list_In, in_flat_map in Hc as ([f v] & H1 & H2). apply elem_of_list_In, in_flat_map. exists (f, v).
    split; [done|]. apply elem_of_list_In in H1, H2. apply elem_of_list_In. rewrite Forall_forall in IH. by apply (IH _ H1 c).
  - intros t IH c m. apply IH.
  - intros t IH c m. apply IH.
  - intros b l IH c m Hc Hm.
    apply elem_of_list_In, in_flat_map in Hc as ([t|] & H1 & H2); [|done]. apply elem_of_list_In, in_flat_map. exists (Some t).
    split; [done|]. apply elem_of_list_In in H1, H2. apply elem_of_list_In. rewrite Forall_forall in IH. by apply (IH _ H1 c).
Qed.
Lemma placed_strip l : strip <$> filter (λ c, at_pos (ann c) ≠ no_pos) l = placed_nodes (strip <$> l).
Proof.
  induction l as [|c l IH]; [done|]. unfold placed_nodes in *. rewrite fmap_cons, !filter_cons, <- IH.
  rewrite ann_strip. destruct (decide _); done.
Qed.
Lemma children_of_node s r (t : mnode) h :
  parse s = Ok (Some r) → strip t ∈ nodes r → holds h t →
  Children (addr (ann t)) h = Ok (Some ∘ addr ∘ ann <$> listed t, h).
Proof.
  intros Hp Hm Hh. pose proof (p60_well_formed _ _ Hp) as (_ & Ht & Hw). destruct (Hw _ Hm) as [He Hn].
  apply Children_ok; [|done|by apply exclusive_strip|by apply no_nil_strip].
  apply typed_of_strip. by eapply (proj1 typed_node).
Qed.

(*P C66_children_in_source_order *)
(** Children lists the sub-nodes in the order of the text: those with a position are
    built from disjoint stretches of the file's tokens, one after the other. *)
Lemma p66 s r (t : mnode) h :
  parse s = Ok (Some r) → strip t ∈ nodes r → holds h t →
  ∃ cs ts st, Children (addr (ann t)) h = Ok (Some ∘ addr ∘ ann <$> cs, h) ∧
    lex "" s = Ok (Lexed ts st) ∧
    in_order (advance (start_pos "") s) (elide ts) (strip <$> filter (λ c, at_pos (ann c) ≠ no_pos) cs).
Proof.
  intros Hp Hm Hh. destruct (parse_built _ _ Hp) as (ts & st & Hl & Hb).
  exists (listed t), ts, st. split_and!; [by eapply children_of_node|done|].
  rewrite placed_strip, <- listed_strip. by eapply node_in_order.
Qed.

(** *** Positions *)
Definition ty_kind (ty : ftype) : option kind := match ty with TPtr k | TEmb k | TList k => Some k | _ => None end.
Lemma starts_sorted (ts : list token) n :
  (∀ i t, ts !! i = Some t → offset (start t) = n + length (concat (map value (take i ts))))%nat →
  StronglySorted (λ t t', offset (start t) ≤ offset (start t'))%nat ts ∧ Forall (λ t, n ≤ offset (start t))%nat ts.
Proof.
  revert n. induction ts as [|t ts IH]; intros n H; [split; constructor|].
  pose proof (H 0%nat t eq_refl) as H0. cbn in H0.
  destruct (IH (n + length (value t))%nat) as [H1 H2].
  { intros i t' Ht'. rewrite (H (S i) t' Ht'). cbn. rewrite app_length. lia. }
  split; constructor; [done| |lia|].
  - eapply Forall_impl; [exact H2|]. intros x. cbn. lia.
  - eapply Forall_impl; [exact H2|]. intros x. cbn. lia.
Qed.
Lemma sorted_sublist {X} (R : X → X → Prop) l l' : l' `sublist_of` l → StronglySorted R l → StronglySorted R l'.
Proof.
  intros Hs. induction Hs as [|x l' l Hs IH|x l' l Hs IH]; intros H; [done|..]; inversion H as [|? ? H1 H2]; subst.
  - constructor; [by apply IH|]. rewrite Forall_forall in *. intros y Hy. apply H2. by eapply (elem_of_submseteq l'), sublist_submseteq.
  - by apply IH.
Qed.
Lemma filter_sublist' {X} (P : X → Prop) `{∀ x, Decision (P x)} (l : list X) : filter P l `sublist_of` l.
Proof. induction l as [|x l IH]; [constructor|]. rewrite filter_cons. destruct (decide _); by constructor. Qed.
Definition ordered_tokens (e : pos) (us : list token) : Prop :=
  StronglySorted (λ t t', offset (start t) ≤ offset (start t'))%nat us ∧
  Forall (λ t, offset (start t) ≤ offset e ∧ line (start t) ≠ 0)%nat us.
Lemma lexed_ordered s ts st :
  lex "" s = Ok (Lexed ts st) → ordered_tokens (advance (start_pos "") s) (elide ts).
Proof.
  intros H. assert (Hs : ∀ i t, ts !! i = Some t → offset (start t) = (0 + length (concat (map value (take i ts))))%nat).
  { intros i t Ht. destruct (p38 "" s _ i t H Ht) as (pre & post & _ & -> & ->). done. }
  split.
  - eapply sorted_sublist; [apply filter_sublist'|]. by apply (starts_sorted ts 0).
  - apply Forall_forall. intros t [_ Ht]%elem_of_list_filter. apply elem_of_list_lookup in Ht as [i Ht].
    destruct (p38 "" s _ i t H Ht) as (pre & post & -> & _ & ->). cbn. rewrite app_length. lia.
Qed.
Lemma ordered_suffix e us vs : ordered_tokens e (us ++ vs) → ordered_tokens e vs.
Proof. intros [H1 [_ H2]%Forall_app]. split; [|done]. by apply StronglySorted_app_inv_r in H1. Qed.
Lemma first_pos_mono e us vs :
  ordered_tokens e (us ++ vs) → (offset (first_pos e (us ++ vs)) ≤ offset (first_pos e vs))%nat.
Proof.
  intros [H1 H2]. destruct us as [|u us]; [done|]. cbn [app first_pos] in *.
  destruct vs as [|v vs]; cbn [first_pos].
  - by inversion H2 as [|? ? [? _]].
  - inversion H1 as [|? ? _ H3]; subst. rewrite Forall_forall in H3. apply H3. apply elem_of_app. right. by left.
Qed.
Lemma in_order_sorted e us ts :
  in_order e us ts → ordered_tokens e us → Forall (λ t, ann t ≠ no_pos) ts →
  StronglySorted (λ t t', offset (ann t) ≤ offset (ann t'))%nat ts ∧
  Forall (λ t, offset (first_pos e us) ≤ offset (ann t))%nat ts.
Proof.
  intros H. induction H as [us|pre us post t ts Hb _ IH]; intros Ho Hp; [split; constructor|].
  inversion Hp as [|? ? Hp1 Hp2]; subst.
  pose proof (ordered_suffix _ _ _ Ho) as Ho1. pose proof (ordered_suffix _ _ _ Ho1) as Ho2.
  destruct (IH Ho2 Hp2) as [H1 H2].
  pose proof (first_pos_mono _ _ _ Ho) as M1. pose proof (first_pos_mono _ _ _ Ho1) as M2.
  assert (ann t = first_pos e (us ++ post)) as Ha.
  { rewrite first_pos_app. destruct Hb as [p k us cs l fs _ _]. cbn in *. by destruct k. }
  split; constructor; [done| |by rewrite Ha|].
  - eapply Forall_impl; [exact H2|]. intros x. cbn. rewrite Ha. lia.
  - eapply Forall_impl; [exact H2|]. intros x. cbn. lia.
Qed.
Lemma sorted_fmap {X Y} (f : X → Y) (R : Y → Y → Prop) l :
  StronglySorted R (f <$> l) → StronglySorted (λ x y, R (f x) (f y)) l.
Proof.
  induction l as [|x l IH]; [constructor|]. cbn. intros H. inversion H as [|? ? H1 H2]; subst. constructor; [by apply IH|].
  apply Forall_forall. intros y Hy. rewrite Forall_forall in H2. apply H2, elem_of_list_fmap. by exists y.
Qed.
Lemma listed_subs t c : c ∈ listed t → c ∈ subs t.
Proof.
  unfold listed, subs. intros (f & _ & H)%elem_of_list_In%in_flat_map. apply elem_of_list_In in H. unfold field_subs in H.
  destruct (assoc f (fields t)) as [v|] eqn:E; [|by apply elem_of_nil in H].
  apply elem_of_list_In, in_flat_map. exists (f, v). split; [|by apply elem_of_list_In].
  apply elem_of_list_In. clear -E. induction (fields t) as [|[f' w] l IH]; [done|]. cbn in E.
  destruct (decide _) as [->|]; [|right; by apply IH]. injection E as ->. by left.
Qed.
(*P C66_positions_never_decrease *)
(** In particular, the positions of the children never go back. *)
Lemma p66_positions s r (t : mnode) h :
  parse s = Ok (Some r) → strip t ∈ nodes r → holds h t →
  ∃ cs, Children (addr (ann t)) h = Ok (Some ∘ addr ∘ ann <$> cs, h) ∧ Forall (holds h) cs ∧
    StronglySorted (λ c c', offset (at_pos (ann c)) ≤ offset (at_pos (ann c')))%nat
      (filter (λ c, at_pos (ann c) ≠ no_pos) cs).
Proof.
  intros Hp Hm Hh. destruct (parse_built _ _ Hp) as (ts & st & Hl & Hb). exists (listed t).
  split_and!; [by eapply children_of_node| |].
  { apply Forall_forall. intros c Hc. by eapply holds_sub, listed_subs. }
  pose proof (node_in_order _ _ _ _ _ Hb Hm) as Hi. rewrite listed_strip, <- placed_strip in Hi.
  apply in_order_sorted in Hi as [Hi _]; [|by eapply lexed_ordered|].
  - apply sorted_fmap in Hi. clear -Hi. induction Hi as [|c l Hc IH Hf]; constructor; [done|].
    eapply Forall_impl; [exact Hf|]. intros c'. cbn. by rewrite !ann_strip.
  - apply Forall_fmap, Forall_forall. intros c [Hc _]%elem_of_list_filter. cbn. by rewrite ann_strip.
Qed.
(*P C66_children_without_position *)
(** The only children without a position are truth values and numbers, and the empty
    structs that stand for the missing value or type of a comment or an empty line. *)
Lemma p66_unplaced s r (t : mnode) h :
  parse s = Ok (Some r) → strip t ∈ nodes r → holds h t →
  ∃ cs, Children (addr (ann t)) h = Ok (Some ∘ addr ∘ ann <$> cs, h) ∧
    ∀ c, c ∈ cs → at_pos (ann c) = no_pos →
      kind_of c = KValueBool ∨ kind_of c = KValueNumber ∨
      strip c = zero no_pos KExpr ∨ strip c = zero no_pos KParameterType.
Proof.
  intros Hp Hm Hh. destruct (parse_built _ _ Hp) as (ts & st & Hl & Hb). exists (listed t).
  split; [by eapply children_of_node|]. intros c Hc Hpos.
  assert (Hc' : strip c ∈ ast_listed (strip t)) by (rewrite listed_strip; apply elem_of_list_fmap; by exists c).
  destruct (sub_of_listed _ _ Hc') as (f & v & Hf & Hv). pose proof (sub_node _ _ _ _ Hf Hv) as Hn.
  pose proof (proj1 nodes_trans _ _ _ Hm Hn) as Hn'.
  destruct (nodes_within _ _ _ _ _ Hb Hn') as [(pre & us & post & E & Hcb)|Hloose];
    [|unfold loose in Hloose; by rewrite kind_strip in Hloose]. exfalso.
  pose proof (lexed_ordered _ _ _ Hl) as [_ Hlo]. rewrite E in Hlo.
  assert (Hk : kind_of (strip c) ≠ KAST).
  { pose proof (p60_well_formed _ _ Hp) as (_ & Ht & _). apply (proj1 typed_node _ _ Hm) in Ht.
    destruct (typed_fields _ _ _ Ht Hf) as (ty & Hty & Htv). intros Hk.
    assert (ty_kind ty ≠ Some KAST) as Hne.
    { pose proof (for_all_kinds (λ k, forallb (λ q : fld * ftype, bool_decide (ty_kind q.2 ≠ Some KAST)) (schema k))
        ltac:(by vm_compute) (kind_of (strip t))) as H. cbv beta in H. rewrite forallb_forall in H.
      apply elem_of_list_In, H in Hty. by apply bool_decide_eq_true in Hty. }
    apply Hne. clear -Hv Htv Hk. destruct v as [| | | |[x|]|x|[[b xs]|]]; try (by apply elem_of_nil in Hv);
      destruct ty; try done; cbn [val_subs] in Hv.
    - apply elem_of_list_singleton in Hv as <-. apply andb_true_iff in Htv as [H%bool_decide_eq_true _]. cbn. by rewrite <- H, Hk.
    - apply elem_of_list_singleton in Hv as <-. apply andb_true_iff in Htv as [H%bool_decide_eq_true _]. cbn. by rewrite <- H, Hk.
    - apply elem_of_list_omap in Hv as (o & Ho & E). unfold id in E. subst o. cbn [typed_val] in Htv. rewrite forallb_forall in Htv.
      apply elem_of_list_In, Htv in Ho. apply andb_true_iff in Ho as [Ho _]. apply bool_decide_eq_true in Ho. cbn. by rewrite <- Ho, Hk. }
  assert (ann (strip c) = first_pos (advance (start_pos "") s) (us ++ post)) as Ha.
  { rewrite first_pos_app. destruct Hcb as [p k us cs l fs _ _]. cbn in *. by destruct k. }
  rewrite ann_strip, Hpos in Ha. apply Forall_app in Hlo as [_ Hlo]. destruct (us ++ post) as [|u w]; [done|].
  inversion Hlo as [|? ? [_ H1] _]; subst. cbn in Ha. rewrite <- Ha in H1. done.
Qed.
