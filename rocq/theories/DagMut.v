(** * Adding and deleting edges, deleting vertices *)
From stdpp Require Import base list gmap relations.
From Verif Require Import GoBase SetModel DagModel DagSpec DagWp RelFacts DagInv DagOps.

Section mut.
Context {K T : Type} `{Countable K} `{Inhabited T}.
Notation graph := (graph K T).
Implicit Types g : graph.

(** A cache stays right when the entries whose closure may change are dropped. *)
Lemma cache_restrict (R R' : relation K) (V V' : gmap K T) c c' (P : K → Prop) :
  cache_ok R V c →
  (∀ x y, ¬ P x → R x y ↔ R' x y) →
  (∀ x y, ¬ P x → R x y → ¬ P y) →
  (∀ v, ¬ P v → is_Some (V !! v) → is_Some (V' !! v)) →
  (∀ v s, c' !! v = Some s ↔ c !! v = Some s ∧ ¬ P v) →
  cache_ok R' V' c'.
Proof.
  intros [Hc1 Hc2] HR HP HV Hc'.
  assert (∀ v w, ¬ P v → tc R v w ↔ tc R' v w) as Htc.
  { intros v w Hv. split; intros Hvw; revert Hv.
    - induction Hvw as [x y Hxy|x y z Hxy _ IH]; intros Hx.
      + apply tc_once. by apply HR.
      + eapply tc_l; [by apply HR|]. eauto.
    - induction Hvw as [x y Hxy|x y z Hxy _ IH]; intros Hx.
      + apply tc_once. by apply HR.
      + apply HR in Hxy; [|done]. eapply tc_l; [done|]. eauto. }
  split.
  - intros v s [Hv HPv]%Hc'. destruct (Hc1 v s Hv) as (?&?&Hs). split_and!; [done|auto|].
    intros w. rewrite Hs. by apply Htc.
  - intros v w [s [Hs HPv]%Hc'] Hvw. apply HR in Hvw; [|done].
    destruct (Hc2 v w) as [s' Hs']; [by eexists|done|].
    exists s'. apply Hc'. eauto.
Qed.

(** Dropping the entries of [x] and of a list. *)
Lemma lookup_dropped (c : gmap K (goset K)) x l v s :
  delete x (delete_all l c) !! v = Some s ↔ c !! v = Some s ∧ ¬ (v = x ∨ v ∈ l).
Proof.
  rewrite lookup_delete_Some, lookup_delete_all.
  destruct (decide (v ∈ l)); naive_solver.
Qed.

(** Edges after [m[k] = m[k] + v], [m[k] = m[k] - v]. *)
Lemma adj_insert_add (m : gmap K (goset K)) k v s t :
  adj (<[k := set_add v (read m k)]> m) s t ↔ adj m s t ∨ (s = k ∧ t = v).
Proof.
  unfold adj. unfold read at 1. destruct (decide (k = s)) as [->|Hne].
  - rewrite lookup_insert. simpl. rewrite mem_add. naive_solver.
  - rewrite lookup_insert_ne by done. fold (read m s). naive_solver.
Qed.
Lemma adj_alter_delete (m : gmap K (goset K)) k v s t :
  adj (alter (set_delete v) k m) s t ↔ adj m s t ∧ ¬ (s = k ∧ t = v).
Proof.
  unfold adj. unfold read at 1. destruct (decide (k = s)) as [->|Hne].
  - rewrite lookup_alter. unfold read. destruct (m !! s) as [x|]; simpl.
    + rewrite mem_delete. naive_solver.
    + split; [by intros ?%mem_empty|by intros [?%mem_empty _]].
  - rewrite lookup_alter_ne by done. fold (read m s). naive_solver.
Qed.
Lemma adj_alter_all_delete (m : gmap K (goset K)) l v s t :
  NoDup l → adj (alter_all (set_delete v) l m) s t ↔ adj m s t ∧ ¬ (s ∈ l ∧ t = v).
Proof.
  intros Hl. unfold adj. unfold read at 1. rewrite lookup_alter_all by done.
  destruct (decide (s ∈ l)) as [Hs|Hs].
  - unfold read. destruct (m !! s) as [x|]; simpl.
    + rewrite mem_delete. naive_solver.
    + split; [by intros ?%mem_empty|by intros [?%mem_empty _]].
  - fold (read m s). naive_solver.
Qed.
Lemma adj_delete (m : gmap K (goset K)) k s t :
  adj (delete k m) s t ↔ adj m s t ∧ s ≠ k.
Proof.
  unfold adj. unfold read at 1. destruct (decide (k = s)) as [->|Hne].
  - rewrite lookup_delete. simpl. split; [by intros ?%mem_empty|naive_solver].
  - rewrite lookup_delete_ne by done. fold (read m s). naive_solver.
Qed.
Lemma wfsets_insert_add m k v : wfsets (K:=K) m → wfsets (<[k := set_add v (read m k)]> m).
Proof.
  intros Hm k' s. rewrite lookup_insert_Some. intros [[<- <-]|[_ Hs]].
  - by apply wfset_add, read_wf.
  - by eapply Hm.
Qed.
Lemma wfsets_alter_delete m k v : wfsets (K:=K) m → wfsets (alter (set_delete v) k m).
Proof.
  intros Hm k' s. rewrite lookup_alter_Some. intros [(<-&x&Hx&->)|[_ Hs]].
  - apply wfset_delete. by eapply Hm.
  - by eapply Hm.
Qed.
Lemma wfsets_alter_all_delete m l v : wfsets (K:=K) m → wfsets (alter_all (set_delete v) l m).
Proof.
  unfold alter_all. revert m. induction l as [|x l IH]; intros m Hm; simpl; [done|].
  by apply IH, wfsets_alter_delete.
Qed.
Lemma wfsets_delete m k : wfsets (K:=K) m → wfsets (delete k m).
Proof. intros Hm k' s. rewrite lookup_delete_Some. intros [_ Hs]. by eapply Hm. Qed.

(** Ranging over a set. *)
Lemma range_mem σ (s : goset K) g n (Q : list K → graph → nat → Prop) :
  legal σ → (∀ ks, NoDup ks → (∀ k, k ∈ ks ↔ mem k s) → Q ks g (S n)) → wp (range σ s) g n Q.
Proof.
  intros Hσ HQ. apply wp_range; [done|]. intros ks Hks. apply HQ.
  - rewrite Hks. apply NoDup_fst_map_to_list.
  - intros k. rewrite Hks. apply map_keys_elem.
Qed.
Lemma rangev_mem σ (s : goset K) g n (Q : list K → graph → nat → Prop) :
  legal σ → wfset s → (∀ ks, NoDup ks → (∀ k, k ∈ ks ↔ mem k s) → Q ks g (S n)) →
  wp (rangev σ s) g n Q.
Proof.
  intros Hσ Hs HQ. apply wp_rangev; [done..|]. intros ks Hks. apply HQ.
  - rewrite Hks. apply NoDup_fst_map_to_list.
  - intros k. rewrite Hks. apply map_keys_elem.
Qed.

Context (isz : K → bool).
Notation inv := (inv isz).

(** Querying both closures, as the mutators do first. *)
Lemma closures_wp {A} σ x y (f : err + goset K → err + goset K → M (K:=K) (T:=T) A) g n
    (Q : A → graph → nat → Prop) :
  legal σ → inv g → is_Some (vertices g !! x) → is_Some (vertices g !! y) →
  (∀ D U g' n', inv g' → vertices g' = vertices g → inboundEdges g' = inboundEdges g →
     outboundEdges g' = outboundEdges g → wfset D → wfset U →
     (∀ w, mem w D ↔ tc (E g) x w) → (∀ w, mem w U ↔ tc (E g) w y) →
     wp (f (inr D) (inr U)) g' n' Q) →
  wp (bind (descendantsOf isz σ x) (λ d, bind (ancestorsOf isz σ y) (f d))) g n Q.
Proof.
  intros Hσ Hg Hx Hy HQ. apply wp_bind. eapply wp_mono; [by apply descendantsOf_wp|].
  intros r g1 n1 Hr. pose proof Hr as (Hg1&(Hv1&Hi1&Ho1&_)&_).
  destruct (desc_post_exact isz g x r g1 Hr Hx Hg) as (D&->&HDwf&HD).
  apply wp_bind. eapply wp_mono; [by apply ancestorsOf_wp|].
  intros r g2 n2 Hr2. pose proof Hr2 as (Hg2&(Hv2&Hi2&Ho2&_)&_).
  destruct (anc_post_exact isz g1 y r g2 Hr2) as (U&->&HUwf&HU); [by rewrite Hv1|done|].
  apply HQ; try done; try congruence.
  intros w. rewrite HU. unfold E. by rewrite Ho1.
Qed.

(** ** AddEdge *)
Lemma AddEdge_ok σ s t : refines (T:=T) isz σ (OpAddEdge s t) (AddEdge isz σ s t) RErr.
Proof.
  intros g n Hσ Hg. apply wp_bind, wp_get. unfold spec_step. rewrite edge_err_abs.
  destruct (checkEdgeIDs isz g s t) eqn:Hc; [by apply wp_ret|].
  rewrite isEdge_spec by done. simpl.
  destruct (decide _) as [Hin|Hin].
  { rewrite bool_decide_eq_true_2 by done. by apply wp_ret. }
  rewrite bool_decide_eq_false_2 by done.
  apply checkEdgeIDs_None in Hc as (Hne&Hs&Ht&Hzs&Hzt).
  apply closures_wp; [done..|]. intros D U g1 n1 Hg1 Hv Hi Ho HDwf HUwf HD HU. simpl.
  destruct (set_includes D s) eqn:Hloop.
  { apply set_includes_true, HD in Hloop. apply wp_ret. split; [done|]. left.
    rewrite path_abs. split; [done|]. split; [done|]. by apply abs_same. }
  apply set_includes_false in Hloop. rewrite HD in Hloop.
  set (g2 := set_outbound (<[s := set_add t (read (outboundEdges g1) s)]>) g1).
  set (g3 := set_inbound (<[t := set_add s (read (inboundEdges g1) t)]>) g2).
  apply wp_bind, wp_get, wp_bind.
  eapply (wp_mono _ _ _ (λ _ g' _, ∃ S, outboundEdges g' !! s = Some S ∧
     S = read (outboundEdges g1) s ∧
     set_outbound (<[s := set_add t S]>) g' = g2)).
  { unfold g2. destruct (outboundEdges g1 !! s) as [S|] eqn:HS.
    - apply wp_ret. exists S. unfold read. by rewrite HS.
    - apply wp_modify. exists ∅. unfold read. rewrite HS. simpl. split; [apply lookup_insert|].
      split; [done|]. unfold set_outbound. simpl. by rewrite insert_insert. }
  intros _ g1' n1' (S1&HS1&->&Heq1).
  apply wp_bind. unfold add_outbound. apply wp_bind, wp_get. rewrite HS1. apply wp_modify.
  rewrite Heq1. apply wp_bind, wp_get, wp_bind.
  eapply (wp_mono _ _ _ (λ _ g' _, ∃ S, inboundEdges g' !! t = Some S ∧
     S = read (inboundEdges g1) t ∧
     set_inbound (<[t := set_add s S]>) g' = g3)).
  { unfold g3. change (inboundEdges g2) with (inboundEdges g1).
    destruct (inboundEdges g1 !! t) as [S|] eqn:HS.
    - apply wp_ret. exists S. unfold read. by rewrite HS.
    - apply wp_modify. exists ∅. unfold read. rewrite HS. simpl. split; [apply lookup_insert|].
      split; [done|]. unfold set_inbound. simpl. by rewrite insert_insert. }
  intros _ g2' n2' (S2&HS2&->&Heq2).
  apply wp_bind. unfold add_inbound. apply wp_bind, wp_get. rewrite HS2. apply wp_modify.
  rewrite Heq2.
  apply wp_bind, range_mem; [done|]. intros ds Hds Hds'.
  apply wp_bind, wp_for_each_modify. rewrite foldl_set_anc.
  apply wp_bind, wp_modify.
  apply wp_bind, range_mem; [done|]. intros us Hus Hus'.
  apply wp_bind, wp_for_each_modify. rewrite foldl_set_desc.
  apply wp_bind, wp_modify, wp_ret.
  clear g1' n1' HS1 Heq1 g2' n2' HS2 Heq2.
  assert (∀ x y, E g1 x y ↔ E g x y) as HE1. { intros. unfold E. by rewrite Ho. }
  assert (∀ x y, tc (E g1) x y ↔ tc (E g) x y) as Htc1. { intros. by apply tc_iff. }
  set (gf := set_desc _ _).
  assert (∀ x y, E gf x y ↔ E g1 x y ∨ (x = s ∧ y = t)) as HEf.
  { intros x y. apply adj_insert_add. }
  split.
  - split; simpl.
    + apply wfsets_insert_add, Hg1.
    + apply wfsets_insert_add, Hg1.
    + intros x y. rewrite !adj_insert_add. rewrite (inv_mirror isz g1 Hg1). naive_solver.
    + intros x y [Hxy|[-> ->]]%HEf; [by apply (inv_dom isz g1 Hg1)|]. by rewrite Hv.
    + apply Hg1.
    + eapply (acyclic_add (E g1)); [exact HEf|done| |apply Hg1]. by rewrite Htc1.
    + eapply (cache_restrict (E g1) _ (vertices g1) _ (descendantsCache g1) _
        (λ v, v = s ∨ v ∈ us)); [apply Hg1| | |done|].
      * intros x y Hx. rewrite HEf. naive_solver.
      * intros x y Hx Hxy Hy. apply Hx. right. apply Hus', HU, Htc1.
        destruct Hy as [->|Hy]; [by apply tc_once|].
        apply Hus', HU, Htc1 in Hy. by eapply tc_l.
      * intros v x. apply lookup_dropped.
    + eapply (cache_restrict (flip (E g1)) _ (vertices g1) _ (ancestorsCache g1) _
        (λ v, v = t ∨ v ∈ ds)); [apply Hg1| | |done|].
      * intros x y Hx. unfold flip. rewrite HEf. naive_solver.
      * intros x y Hx Hxy Hy. apply Hx. right. apply Hds', HD, Htc1.
        destruct Hy as [->|Hy]; [by apply tc_once|].
        apply Hds', HD, Htc1 in Hy. by eapply tc_r.
      * intros v x. apply lookup_dropped.
  - right. rewrite path_abs. split; [done|]. split; [done|].
    apply abs_eq; [done|]. intros x y. rewrite HEf, HE1, <-ae_abs. set_solver.
Qed.

(** ** DeleteEdge *)
Lemma DeleteEdge_ok σ s t : refines (T:=T) isz σ (OpDeleteEdge s t) (DeleteEdge isz σ s t) RErr.
Proof.
  intros g n Hσ Hg. apply wp_bind, wp_get. unfold spec_step. rewrite edge_err_abs.
  destruct (checkEdgeIDs isz g s t) eqn:Hc; [by apply wp_ret|].
  rewrite isEdge_spec by done. simpl.
  destruct (decide _) as [Hin|Hin].
  2: { rewrite bool_decide_eq_false_2 by done. by apply wp_ret. }
  rewrite bool_decide_eq_true_2 by done. simpl.
  apply checkEdgeIDs_None in Hc as (Hne&Hs&Ht&Hzs&Hzt).
  apply closures_wp; [done..|]. intros D U g1 n1 Hg1 Hv Hi Ho HDwf HUwf HD HU. simpl.
  apply wp_bind, wp_modify, wp_bind, wp_modify.
  apply wp_bind, range_mem; [done|]. intros ds Hds Hds'.
  apply wp_bind, wp_for_each_modify. rewrite foldl_set_anc.
  apply wp_bind, wp_modify.
  apply wp_bind, range_mem; [done|]. intros us Hus Hus'.
  apply wp_bind, wp_for_each_modify. rewrite foldl_set_desc.
  apply wp_bind, wp_modify, wp_ret.
  assert (∀ x y, E g1 x y ↔ E g x y) as HE1. { intros. unfold E. by rewrite Ho. }
  assert (∀ x y, tc (E g1) x y ↔ tc (E g) x y) as Htc1. { intros. by apply tc_iff. }
  set (gf := set_desc _ _).
  assert (∀ x y, E gf x y ↔ E g1 x y ∧ ¬ (x = s ∧ y = t)) as HEf.
  { intros x y. apply adj_alter_delete. }
  assert (E g1 s t) as Hst. { by apply HE1, ae_abs. }
  split.
  - split; simpl.
    + apply wfsets_alter_delete, Hg1.
    + apply wfsets_alter_delete, Hg1.
    + intros x y. rewrite !adj_alter_delete. rewrite (inv_mirror isz g1 Hg1). naive_solver.
    + intros x y [Hxy _]%HEf. by apply (inv_dom isz g1 Hg1).
    + apply Hg1.
    + intros v Hv'. apply (inv_acyclic isz g1 Hg1 v). revert Hv'. apply tc_mono. naive_solver.
    + eapply (cache_restrict (E g1) _ (vertices g1) _ (descendantsCache g1) _
        (λ v, v = t ∨ v ∈ us)); [apply Hg1| | |done|].
      * intros x y Hx. rewrite HEf. split; [|naive_solver]. intros Hxy. split; [done|].
        intros [-> ->]. apply Hx. right. apply Hus', HU, Htc1. by apply tc_once.
      * intros x y Hx Hxy Hy. apply Hx. right. apply Hus', HU, Htc1.
        destruct Hy as [->|Hy]; [by apply tc_once|].
        apply Hus', HU, Htc1 in Hy. by eapply tc_l.
      * intros v x. apply lookup_dropped.
    + eapply (cache_restrict (flip (E g1)) _ (vertices g1) _ (ancestorsCache g1) _
        (λ v, v = s ∨ v ∈ ds)); [apply Hg1| | |done|].
      * intros x y Hx. unfold flip. rewrite HEf. split; [|naive_solver]. intros Hxy. split; [done|].
        intros [-> ->]. apply Hx. right. apply Hds', HD, Htc1. by apply tc_once.
      * intros x y Hx Hxy Hy. apply Hx. right. apply Hds', HD, Htc1.
        destruct Hy as [->|Hy]; [by apply tc_once|].
        apply Hds', HD, Htc1 in Hy. by eapply tc_r.
      * intros v x. apply lookup_dropped.
  - split; [done|].
    apply abs_eq; [done|]. intros x y. rewrite HEf, HE1, <-ae_abs. set_solver.
Qed.

(** ** DeleteVertex *)
Lemma delete_from_neighbours_out σ id (m : gmap K (goset K)) g n (Q : unit → graph → nat → Prop) :
  legal σ →
  (∀ l n', NoDup l → (∀ k, k ∈ l ↔ adj m id k) →
    Q tt (set_outbound (alter_all (set_delete id) l) g) n') →
  wp (match m !! id with
      | None => ret tt
      | Some parents =>
          bind (range σ parents) (λ ks,
          for_each ks (λ _ parent, modify (set_outbound (alter (set_delete id) parent))) tt)
      end) g n Q.
Proof.
  intros Hσ HQ. destruct (m !! id) as [ps|] eqn:Hm.
  - apply wp_bind, range_mem; [done|]. intros ks Hks Hks'.
    apply wp_for_each_modify. rewrite foldl_set_outbound. apply HQ; [done|].
    intros k. rewrite Hks'. unfold adj, read. by rewrite Hm.
  - apply wp_ret. assert (g = set_outbound (alter_all (set_delete id) []) g) as Hg by (by destruct g).
    rewrite Hg. apply HQ; [constructor|]. intros k. unfold adj, read. rewrite Hm. simpl.
    split; [by intros ?%elem_of_nil|by intros ?%mem_empty].
Qed.
Lemma delete_from_neighbours_in σ id (m : gmap K (goset K)) g n (Q : unit → graph → nat → Prop) :
  legal σ →
  (∀ l n', NoDup l → (∀ k, k ∈ l ↔ adj m id k) →
    Q tt (set_inbound (alter_all (set_delete id) l) g) n') →
  wp (match m !! id with
      | None => ret tt
      | Some children =>
          bind (range σ children) (λ ks,
          for_each ks (λ _ child, modify (set_inbound (alter (set_delete id) child))) tt)
      end) g n Q.
Proof.
  intros Hσ HQ. destruct (m !! id) as [ps|] eqn:Hm.
  - apply wp_bind, range_mem; [done|]. intros ks Hks Hks'.
    apply wp_for_each_modify. rewrite foldl_set_inbound. apply HQ; [done|].
    intros k. rewrite Hks'. unfold adj, read. by rewrite Hm.
  - apply wp_ret. assert (g = set_inbound (alter_all (set_delete id) []) g) as Hg by (by destruct g).
    rewrite Hg. apply HQ; [constructor|]. intros k. unfold adj, read. rewrite Hm. simpl.
    split; [by intros ?%elem_of_nil|by intros ?%mem_empty].
Qed.

Lemma DeleteVertex_ok σ id : refines (T:=T) isz σ (OpDeleteVertex id) (DeleteVertex isz σ id) RErr.
Proof.
  intros g n Hσ Hg. apply wp_bind, wp_get. unfold spec_step. rewrite vertex_err_abs.
  destruct (checkVertexID isz g id) eqn:Hc; [by apply wp_ret|].
  apply checkVertexID_None in Hc; [|done].
  apply closures_wp; [done..|]. intros D U g1 n1 Hg1 Hv Hi Ho HDwf HUwf HD HU. simpl.
  apply wp_bind, wp_get, wp_bind, delete_from_neighbours_out; [done|]. intros ps n2 Hps Hps'.
  apply wp_bind, wp_get, wp_bind. apply delete_from_neighbours_in; [done|]. intros cs n3 Hcs Hcs'.
  apply wp_bind, wp_modify, wp_bind, wp_modify.
  apply wp_bind, rangev_mem; [done..|]. intros ds Hds Hds'.
  apply wp_bind, wp_for_each_modify. rewrite foldl_set_anc.
  apply wp_bind, wp_modify.
  apply wp_bind, rangev_mem; [done..|]. intros us Hus Hus'.
  apply wp_bind, wp_for_each_modify. rewrite foldl_set_desc.
  apply wp_bind, wp_modify, wp_bind, wp_modify, wp_ret.
  assert (∀ x y, E g1 x y ↔ E g x y) as HE1. { intros. unfold E. by rewrite Ho. }
  assert (∀ x y, tc (E g1) x y ↔ tc (E g) x y) as Htc1. { intros. by apply tc_iff. }
  set (gf := set_vertices _ _).
  assert (∀ k, k ∈ ps ↔ E g1 k id) as Hps''.
  { intros k. rewrite Hps'. symmetry. apply (inv_mirror isz g1 Hg1). }
  assert (∀ k, k ∈ cs ↔ E g1 id k) as Hcs''.
  { intros k. rewrite Hcs'. simpl. rewrite adj_alter_all_delete by done.
    split; [naive_solver|]. intros Hk. split; [done|]. intros [Hid _].
    apply Hps'' in Hid. by apply (inv_acyclic isz g1 Hg1 id), tc_once. }
  assert (∀ x y, E gf x y ↔ E g1 x y ∧ x ≠ id ∧ y ≠ id) as HEf.
  { intros x y. unfold E, gf. simpl. rewrite adj_delete, adj_alter_all_delete by done.
    rewrite Hps''. unfold E. naive_solver. }
  assert (∀ x y, adj (inboundEdges gf) x y ↔ adj (inboundEdges g1) x y ∧ x ≠ id ∧ y ≠ id) as HIf.
  { intros x y. unfold gf. simpl. rewrite adj_delete, adj_alter_all_delete by done.
    rewrite Hcs''. unfold E. rewrite (inv_mirror isz g1 Hg1). naive_solver. }
  split.
  - split; simpl.
    + apply wfsets_delete, wfsets_alter_all_delete, Hg1.
    + apply wfsets_delete, wfsets_alter_all_delete, Hg1.
    + intros x y. fold (E gf x y). change (adj _ y x) with (adj (inboundEdges gf) y x).
      change (adj _ x y) with (E gf x y).
      rewrite HIf, HEf, <-(inv_mirror isz g1 Hg1). unfold E. naive_solver.
    + intros x y (Hxy&Hx&Hy)%HEf. rewrite !lookup_delete_ne by done.
      by apply (inv_dom isz g1 Hg1).
    + intros v. rewrite lookup_delete_is_Some. intros [_ ?]. by apply Hg1.
    + intros v Hv'. apply (inv_acyclic isz g1 Hg1 v). revert Hv'. apply tc_mono.
      intros x y. rewrite HEf. naive_solver.
    + eapply (cache_restrict (E g1) _ (vertices g1) _ (descendantsCache g1) _
        (λ v, v = id ∨ v ∈ us)); [apply Hg1| | | |].
      * intros x y Hx. rewrite HEf. split; [|naive_solver]. intros Hxy. split; [done|].
        split; [naive_solver|]. intros ->. apply Hx. right. apply Hus', HU, Htc1. by apply tc_once.
      * intros x y Hx Hxy Hy. apply Hx. right. apply Hus', HU, Htc1.
        destruct Hy as [->|Hy]; [by apply tc_once|].
        apply Hus', HU, Htc1 in Hy. by eapply tc_l.
      * intros v Hx. rewrite lookup_delete_ne; naive_solver.
      * intros v x. apply lookup_dropped.
    + eapply (cache_restrict (flip (E g1)) _ (vertices g1) _ (ancestorsCache g1) _
        (λ v, v = id ∨ v ∈ ds)); [apply Hg1| | | |].
      * intros x y Hx. unfold flip. rewrite HEf. split; [|naive_solver]. intros Hxy. split; [done|].
        split; [|naive_solver]. intros ->. apply Hx. right. apply Hds', HD, Htc1. by apply tc_once.
      * intros x y Hx Hxy Hy. apply Hx. right. apply Hds', HD, Htc1.
        destruct Hy as [->|Hy]; [by apply tc_once|].
        apply Hds', HD, Htc1 in Hy. by eapply tc_r.
      * intros v Hx. rewrite lookup_delete_ne; naive_solver.
      * intros v x. apply lookup_dropped.
  - split; [done|]. apply abs_eq; [simpl; by rewrite Hv|].
    intros x y. rewrite HEf, HE1, elem_of_filter, <-ae_abs. simpl. naive_solver.
Qed.

End mut.
