(** * Every operation but the walks and the reduction refines the specification *)
From stdpp Require Import base list gmap relations strings pretty.
From Verif Require Import GoBase SetModel DagModel DagSpec DagWp RelFacts DagInv.

Section ops.
Context {K T : Type} `{Countable K} `{Inhabited T}.
Notation graph := (graph K T).
Notation agraph := (agraph K T).
Implicit Types g : graph.

(** ** Abstraction *)
Definition edge_list (f : K → list K) (ks : list K) : list (K * K) :=
  concat (map (λ k, map (pair k) (f k)) ks).
Definition keys {V} (m : gmap K V) : list K := (map_to_list m).*1.
Definition abs g : agraph :=
  AGraph (vertices g)
    (list_to_set (edge_list (λ k, keys (read (outboundEdges g) k)) (keys (outboundEdges g)))).

Lemma elem_of_edge_list f ks s t : (s, t) ∈ edge_list f ks ↔ s ∈ ks ∧ t ∈ f s.
Proof.
  unfold edge_list. rewrite elem_of_list_In, in_concat. setoid_rewrite in_map_iff. split.
  - intros (l&(k&<-&Hk)&Hl). apply in_map_iff in Hl as (x&[= -> ->]&Hx).
    by rewrite !elem_of_list_In.
  - rewrite !elem_of_list_In. intros [Hs Ht].
    eexists. split; [by exists s|]. by apply in_map.
Qed.
Lemma NoDup_edge_list f ks : NoDup ks → (∀ k, NoDup (f k)) → NoDup (edge_list f ks).
Proof.
  intros Hks Hf. induction Hks as [|k ks Hk Hks IH]; [constructor|].
  change (edge_list f (k :: ks)) with (map (pair k) (f k) ++ edge_list f ks).
  apply NoDup_app. split_and!; [|intros [s t]|done].
  - change (map (pair k) (f k)) with (pair k <$> f k).
    apply NoDup_fmap_2; [|done]. by intros ?? [= ->].
  - intros Hx. apply (elem_of_list_fmap_2 (pair k)) in Hx as (y&[= -> ->]&_).
    rewrite elem_of_edge_list. naive_solver.
Qed.
Lemma edge_list_length f (h : K → nat) ks :
  (∀ k, length (f k) = h k) →
  length (edge_list f ks) = foldl (λ n k, n + h k) 0 ks.
Proof.
  intros Hh. unfold edge_list.
  assert (∀ m, foldl (λ n k, n + h k) m ks
          = m + length (concat (map (λ k, map (pair k) (f k)) ks))) as Hgen; [|by rewrite Hgen].
  induction ks as [|k ks IH]; intros m; simpl; [lia|].
  rewrite IH, app_length, map_length, Hh. lia.
Qed.
Lemma NoDup_keys {V} (m : gmap K V) : NoDup (keys m).
Proof. apply NoDup_fst_map_to_list. Qed.
Lemma length_keys {V} (m : gmap K V) : length (keys m) = size m.
Proof. unfold keys. by rewrite fmap_length. Qed.

Lemma edge_abs g s t : edge (abs g) s t ↔ E g s t.
Proof.
  unfold edge, abs. simpl. rewrite elem_of_list_to_set, elem_of_edge_list.
  unfold keys. rewrite !map_keys_elem. unfold E, adj. fold (mem t (read (outboundEdges g) s)).
  split; [naive_solver|]. intros Hst. split; [|done].
  unfold read in Hst. destruct (outboundEdges g !! s); [by eexists|by apply mem_empty in Hst].
Qed.
Lemma ae_abs g s t : (s, t) ∈ ae (abs g) ↔ E g s t.
Proof. apply edge_abs. Qed.
Lemma path_abs g s t : path (abs g) s t ↔ tc (E g) s t.
Proof. apply tc_iff. intros. apply edge_abs. Qed.
Lemma abs_eq g (V : gmap K T) (es : gset (K * K)) :
  vertices g = V → (∀ s t, E g s t ↔ (s, t) ∈ es) → abs g = AGraph V es.
Proof.
  intros <- Hes. unfold abs. f_equal. apply set_eq. intros [s t].
  rewrite <-Hes. apply ae_abs.
Qed.
Lemma abs_same g g' :
  vertices g' = vertices g → outboundEdges g' = outboundEdges g → abs g' = abs g.
Proof. intros Hv Ho. unfold abs. by rewrite Hv, Ho. Qed.

(** Whatever order the loops take, a list of all edges. *)
Lemma edge_list_elements g f ks :
  ks ≡ₚ keys (outboundEdges g) →
  (∀ k, f k ≡ₚ keys (read (outboundEdges g) k)) →
  edge_list f ks ≡ₚ elements (ae (abs g)).
Proof.
  intros Hks Hf. apply NoDup_Permutation.
  - apply NoDup_edge_list; [rewrite Hks; apply NoDup_keys|].
    intros k. rewrite Hf. apply NoDup_keys.
  - apply NoDup_elements.
  - intros [s t]. rewrite elem_of_elements. simpl. rewrite elem_of_list_to_set, !elem_of_edge_list.
    by rewrite Hks, Hf.
Qed.

(** Loops that collect vertices with their payload. *)
Definition collected g (P : K → Prop) (m : gmap K T) : Prop :=
  ∀ k x, m !! k = Some x ↔ P k ∧ vertices g !! k = Some x.
Lemma store_vertex_collected g (P : K → Prop) m k :
  is_Some (vertices g !! k) → collected g P m →
  collected g (λ k', P k' ∨ k' = k) (store_vertex g m k).
Proof.
  intros [y Hy] Hm k' x. unfold store_vertex, vertex. rewrite Hy. simpl.
  rewrite lookup_insert_Some, (Hm k' x). split; [naive_solver|].
  intros [Hp Hx]. destruct (decide (k = k')); naive_solver.
Qed.
Lemma collected_iff g (P Q : K → Prop) m :
  (∀ k, is_Some (vertices g !! k) → P k ↔ Q k) → collected g P m → collected g Q m.
Proof.
  intros HPQ Hm k x. rewrite (Hm k x). split; intros [? Hx]; (split; [|done]); apply HPQ; eauto.
Qed.
Lemma collected_empty g (P : K → Prop) : (∀ k, ¬ P k) → collected g P ∅.
Proof. intros HP k x. rewrite lookup_empty. naive_solver. Qed.
Lemma foldl_store_collected g ks :
  (∀ k, k ∈ ks → is_Some (vertices g !! k)) →
  collected g (λ k, k ∈ ks) (foldl (store_vertex g) ∅ ks).
Proof.
  induction ks as [|k ks IH] using rev_ind; intros Hks.
  { apply collected_empty. set_solver. }
  rewrite foldl_app. simpl.
  eapply collected_iff; [|apply store_vertex_collected; [apply Hks; set_solver|apply IH; set_solver]].
  intros ? _. set_solver.
Qed.
Lemma selects_collected g (P Q : K → Prop) m :
  (∀ k, is_Some (vertices g !! k) → P k ↔ Q k) → collected g P m → selects (abs g) Q m.
Proof. intros HPQ Hm. by apply (collected_iff g P Q). Qed.

(** Reading a set of neighbours. *)
Lemma size_read (m : gmap K (goset K)) k : size (read m k) = 0 ↔ ∀ t, ¬ adj m k t.
Proof.
  unfold adj, mem. rewrite map_size_empty_iff, map_empty.
  split; intros Hm t; specialize (Hm t); rewrite eq_None_not_Some in *; done.
Qed.
Lemma collect_empty_neighbours_wp σ g n (m : gmap K (goset K)) (Q : gmap K T → graph → nat → Prop) :
  legal σ →
  (∀ r n', collected g (λ k, ∀ t, ¬ adj m k t) r → Q r g n') →
  wp (bind (range σ (vertices g)) (λ ks, for_each ks (λ leaves k,
    match m !! k with
    | Some targetIDs =>
        if decide (size targetIDs = 0) then ret (store_vertex g leaves k) else ret leaves
    | None => ret (store_vertex g leaves k)
    end) ∅)) g n Q.
Proof.
  intros Hσ HQ. apply wp_bind, wp_range; [done|]. intros ks Hks.
  assert (∀ k, k ∈ ks ↔ is_Some (vertices g !! k)) as Hks'.
  { intros k. rewrite Hks. apply map_keys_elem. }
  apply (wp_for_each _ _ (λ pre acc g' _, g' = g ∧
    collected g (λ k, k ∈ pre ∧ ∀ t, ¬ adj m k t) acc)).
  - intros pre k post acc g' n' Heq [-> Hacc].
    assert (is_Some (vertices g !! k)) as Hk. { apply Hks'. set_solver. }
    assert (∀ targetIDs, read m k = targetIDs →
      wp (if decide (size targetIDs = 0) then ret (store_vertex g acc k) else ret acc) g n'
        (λ acc' g' _, g' = g ∧ collected g (λ k', k' ∈ pre ++ [k] ∧ ∀ t, ¬ adj m k' t) acc')) as Hbody.
    { intros ts <-. destruct (decide _) as [Hz|Hz]; apply wp_ret; (split; [done|]).
      - rewrite size_read in Hz. eapply collected_iff; [|by apply store_vertex_collected].
        intros k' _. simpl. rewrite elem_of_app, elem_of_list_singleton. naive_solver.
      - rewrite size_read in Hz. eapply collected_iff; [|done].
        intros k' _. simpl. rewrite elem_of_app, elem_of_list_singleton. naive_solver. }
    unfold read in Hbody.
    destruct (m !! k) as [ts|] eqn:Hm; simpl in Hbody; [by apply Hbody|].
    specialize (Hbody ∅ eq_refl). by rewrite decide_True in Hbody by done.
  - split; [done|]. apply collected_empty. set_solver.
  - intros acc g' n' [-> Hacc]. apply HQ. eapply collected_iff; [|done].
    intros k Hk. simpl. rewrite Hks'. naive_solver.
Qed.

(** Collecting the neighbours listed in a set. *)
Lemma collect_set_wp σ g n (s : goset K) (Q : gmap K T → graph → nat → Prop) :
  legal σ → (∀ k, mem k s → is_Some (vertices g !! k)) →
  (∀ r n', collected g (λ k, mem k s) r → Q r g n') →
  wp (bind (range σ s) (λ ks, for_each ks (λ acc k, ret (store_vertex g acc k)) ∅)) g n Q.
Proof.
  intros Hσ Hs HQ. apply wp_bind, wp_range; [done|]. intros ks Hks.
  assert (∀ k, k ∈ ks ↔ mem k s) as Hks'.
  { intros k. rewrite Hks. apply map_keys_elem. }
  apply wp_for_each_pure. apply HQ.
  eapply collected_iff; [|apply foldl_store_collected].
  - intros k _. simpl. apply Hks'.
  - intros k Hk. apply Hs. by apply Hks'.
Qed.
Lemma bind_assoc {A B C} (m : M (K:=K) (T:=T) A) (f : A → M B) (h : B → M C) g n :
  bind (bind m f) h g n = bind m (λ a, bind (f a) h) g n.
Proof. unfold bind. by destruct (m g n) as [[[??]?]| |]. Qed.
Lemma wp_assoc {A B C} (m : M (K:=K) (T:=T) A) (f : A → M B) (h : B → M C) g n (Q : C → graph → nat → Prop) :
  wp (bind (bind m f) h) g n Q → wp (bind m (λ a, bind (f a) h)) g n Q.
Proof. unfold wp. by rewrite bind_assoc. Qed.

Context (isz : K → bool).
Notation inv := (inv isz).

(** ** Error conditions *)
Lemma vertex_err_abs g id : vertex_err isz (abs g) id = checkVertexID isz g id.
Proof.
  unfold vertex_err, checkVertexID. simpl. destruct (isz id); [done|].
  destruct (vertices g !! id) as [x|] eqn:Hx.
  - by rewrite bool_decide_eq_false_2 by (apply elem_of_dom_2 in Hx; naive_solver).
  - by rewrite bool_decide_eq_true_2 by (by apply not_elem_of_dom).
Qed.
Lemma edge_err_abs g s t : edge_err isz (abs g) s t = checkEdgeIDs isz g s t.
Proof.
  unfold edge_err, checkEdgeIDs. simpl. destruct (isz s); [done|]. destruct (isz t); [done|].
  destruct (decide (s = t)) as [->|Hne].
  { by rewrite bool_decide_eq_true_2. }
  rewrite bool_decide_eq_false_2 by done.
  destruct (vertices g !! s) as [x|] eqn:Hx.
  2: { by rewrite bool_decide_eq_true_2 by (by apply not_elem_of_dom). }
  rewrite bool_decide_eq_false_2 by (apply elem_of_dom_2 in Hx; naive_solver).
  destruct (vertices g !! t) as [y|] eqn:Hy.
  2: { by rewrite bool_decide_eq_true_2 by (by apply not_elem_of_dom). }
  by rewrite bool_decide_eq_false_2 by (apply elem_of_dom_2 in Hy; naive_solver).
Qed.
Lemma checkEdgeIDs_None g s t :
  checkEdgeIDs isz g s t = None →
  s ≠ t ∧ is_Some (vertices g !! s) ∧ is_Some (vertices g !! t) ∧ isz s = false ∧ isz t = false.
Proof.
  unfold checkEdgeIDs. destruct (isz s), (isz t), (decide (s = t)); try done.
  destruct (vertices g !! s), (vertices g !! t); naive_solver.
Qed.
Lemma isEdge_spec g s t :
  checkEdgeIDs isz g s t = None → isEdge isz g s t = (bool_decide ((s, t) ∈ ae (abs g)), None).
Proof.
  intros Hc. unfold isEdge. rewrite Hc.
  destruct (outboundEdges g !! s) as [ch|] eqn:Hs.
  - destruct (set_includes ch t) eqn:Hi.
    + rewrite bool_decide_eq_true_2; [done|]. apply ae_abs.
      unfold E, adj, read. rewrite Hs. by apply set_includes_true.
    + rewrite bool_decide_eq_false_2; [done|]. rewrite ae_abs.
      unfold E, adj, read. rewrite Hs. by apply set_includes_false.
  - rewrite bool_decide_eq_false_2; [done|]. rewrite ae_abs.
    unfold E, adj, read. rewrite Hs. apply mem_empty.
Qed.

(** ** Statement *)
Definition refines {A} (σ : schedule K) (o : op K T) (m : M (K:=K) (T:=T) A) (f : A → out K T) : Prop :=
  ∀ g n, legal σ → inv g →
    wp m g n (λ r g' _, inv g' ∧ spec_step isz (abs g) o (f r) (abs g')).

(** ** Queries that do not change the graph *)
Lemma AddVertex_ok σ id v : refines σ (OpAddVertex id v) (AddVertex isz id v) RErr.
Proof.
  intros g n Hσ Hg. unfold AddVertex. apply wp_bind, wp_get. unfold spec_step. simpl.
  destruct (isz id) eqn:Hz; [by apply wp_ret|].
  destruct (vertices g !! id) as [x|] eqn:Hx.
  { apply wp_ret. split; [done|].
    rewrite bool_decide_eq_true_2 by (by apply elem_of_dom_2 in Hx). done. }
  rewrite bool_decide_eq_false_2 by (by apply not_elem_of_dom).
  apply wp_bind, wp_modify, wp_ret. split; [|done].
  assert (∀ k, is_Some (vertices g !! k) → is_Some (<[id:=v]> (vertices g) !! k)) as Hmono.
  { intros k Hk. rewrite lookup_insert_is_Some. destruct (decide (id = k)); naive_solver. }
  assert (∀ R c, cache_ok R (vertices g) c → cache_ok R (<[id:=v]> (vertices g)) c) as Hcache.
  { intros R c [H1 H2]. split; [|done]. intros k s Hk.
    destruct (H1 k s Hk) as (?&?&?). auto. }
  destruct Hg as [???????]. split; simpl; try done.
  - intros s t [??]%inv_dom. auto.
  - intros k. rewrite lookup_insert_is_Some. intros [<-|[??]]; auto.
  - by apply Hcache.
  - by apply Hcache.
Qed.

Lemma GetVertex_ok σ id : refines σ (OpGetVertex id) (GetVertex isz id) RVertex.
Proof.
  intros g n Hσ Hg. apply wp_bind, wp_get. unfold spec_step. rewrite vertex_err_abs.
  destruct (checkVertexID isz g id) eqn:Hc; [by apply wp_ret|].
  apply checkVertexID_None in Hc as [x Hx]; [|done].
  apply wp_ret. split; [done|]. split; [done|]. exists x. split; [done|].
  unfold vertex. by rewrite Hx.
Qed.

Lemma IsEdge_ok σ s t : refines σ (OpIsEdge s t) (IsEdge isz s t) RBool.
Proof.
  intros g n Hσ Hg. apply wp_bind, wp_get, wp_ret. split; [done|]. split; [done|].
  rewrite edge_err_abs. destruct (checkEdgeIDs isz g s t) eqn:Hc.
  - unfold isEdge. by rewrite Hc.
  - by rewrite isEdge_spec.
Qed.

Lemma GetOrder_ok σ : refines σ OpGetOrder GetOrder RInt.
Proof. intros g n Hσ Hg. apply wp_bind, wp_get, wp_ret. done. Qed.

Lemma GetSize_ok σ : refines σ OpGetSize (GetSize σ) RInt.
Proof.
  intros g n Hσ Hg. apply wp_bind, wp_get, wp_bind, wp_range; [done|]. intros ks Hks.
  apply wp_for_each_pure. split; [done|]. split; [done|]. f_equal.
  unfold size at 2, set_size.
  pose proof (edge_list_elements g (λ k, keys (read (outboundEdges g) k)) ks Hks (λ k, reflexivity _)) as Hp.
  simpl. rewrite <-Hp. rewrite (edge_list_length _ (λ k, size (read (outboundEdges g) k))); [done|].
  intros k. apply length_keys.
Qed.

Lemma GetLeaves_ok σ : refines σ OpGetLeaves (GetLeaves σ) RMap.
Proof.
  intros g n Hσ Hg. apply wp_bind, wp_get.
  apply collect_empty_neighbours_wp; [done|]. intros r n' Hr.
  split; [done|]. split; [done|]. exists r. split; [done|].
  eapply selects_collected; [|done]. intros k _. simpl. by setoid_rewrite edge_abs.
Qed.
Lemma GetRoots_wp σ g n (Q : gmap K T → graph → nat → Prop) :
  legal σ → inv g →
  (∀ r n', collected g (λ k, ∀ s, ¬ E g s k) r → Q r g n') → wp (GetRoots σ) g n Q.
Proof.
  intros Hσ Hg HQ. apply wp_bind, wp_get.
  apply collect_empty_neighbours_wp; [done|]. intros r n' Hr. apply HQ.
  eapply collected_iff; [|done]. intros k _. simpl. by setoid_rewrite <-(inv_mirror isz g Hg).
Qed.
Lemma GetRoots_ok σ : refines σ OpGetRoots (GetRoots σ) RMap.
Proof.
  intros g n Hσ Hg. apply GetRoots_wp; [done..|]. intros r n' Hr.
  split; [done|]. split; [done|]. exists r. split; [done|].
  eapply selects_collected; [|done]. intros k _. simpl. by setoid_rewrite edge_abs.
Qed.
Lemma GetVertices_ok σ : refines σ OpGetVertices (GetVertices σ) RMap.
Proof.
  intros g n Hσ Hg. apply wp_bind, wp_get, wp_bind, wp_range; [done|]. intros ks Hks.
  apply wp_for_each_pure. split; [done|]. split; [done|]. f_equal.
  assert (∀ k, k ∈ ks ↔ is_Some (vertices g !! k)) as Hks'.
  { intros k. rewrite Hks. apply map_keys_elem. }
  pose proof (foldl_store_collected g ks (λ k, proj1 (Hks' k))) as Hc.
  apply map_eq. intros k. apply option_eq. intros x. rewrite (Hc k x). simpl.
  rewrite Hks'. naive_solver.
Qed.

Lemma GetParents_ok σ id : refines σ (OpGetParents id) (GetParents isz σ id) RMapErr.
Proof.
  intros g n Hσ Hg. apply wp_bind, wp_get. unfold spec_step. rewrite vertex_err_abs.
  destruct (checkVertexID isz g id) eqn:Hc; [by apply wp_ret|].
  apply wp_assoc, wp_bind, collect_set_wp; [done| |].
  - intros k Hk. apply (inv_mirror isz g Hg) in Hk. by apply (inv_dom isz g Hg) in Hk as [? _].
  - intros r n' Hr. apply wp_ret. split; [done|]. split; [done|]. exists r. split; [done|].
    eapply selects_collected; [|done]. intros k _. simpl. rewrite edge_abs.
    symmetry. apply (inv_mirror isz g Hg).
Qed.
Lemma GetChildren_ok σ id : refines σ (OpGetChildren id) (GetChildren isz σ id) RMapErr.
Proof.
  intros g n Hσ Hg. apply wp_bind, wp_get. unfold spec_step. rewrite vertex_err_abs.
  destruct (checkVertexID isz g id) eqn:Hc; [by apply wp_ret|].
  apply wp_assoc, wp_bind, collect_set_wp; [done| |].
  - intros k Hk. by apply (inv_dom isz g Hg) in Hk as [_ ?].
  - intros r n' Hr. apply wp_ret. split; [done|]. split; [done|]. exists r. split; [done|].
    eapply selects_collected; [|done]. intros k _. simpl. by rewrite edge_abs.
Qed.

Lemma abs_grows g g' : grows g g' → abs g' = abs g.
Proof. intros (?&?&?&?). by apply abs_same. Qed.
Lemma abs_grows_anc g g' : grows_anc g g' → abs g' = abs g.
Proof. intros (?&?&?&?). by apply abs_same. Qed.
Lemma tc_dom g x y : inv g → tc (E g) x y → is_Some (vertices g !! x) ∧ is_Some (vertices g !! y).
Proof.
  intros Hg Hxy. split.
  - apply tc_first in Hxy as (?&Hx&_). by apply (inv_dom isz g Hg) in Hx as [? _].
  - apply tc_last in Hxy as (?&_&Hy). by apply (inv_dom isz g Hg) in Hy as [_ ?].
Qed.
Lemma GetAncestors_ok σ id : refines σ (OpGetAncestors id) (GetAncestors isz σ id) RMapErr.
Proof.
  intros g n Hσ Hg. apply wp_bind. eapply wp_mono; [by apply ancestorsOf_wp|].
  intros r g' n' Hpost. pose proof Hpost as (Hg'&Hgr&Hr).
  unfold spec_step. rewrite vertex_err_abs.
  destruct (checkVertexID isz g id) eqn:Hc.
  { destruct Hr as [-> ->]. by apply wp_ret. }
  apply checkVertexID_None in Hc; [|done].
  destruct (anc_post_exact isz g id r g' Hpost Hc Hg) as (s&->&Hwf&Hs).
  apply wp_bind. unfold loadFromCache. apply wp_bind, wp_get, collect_set_wp; [done| |].
  - intros k Hk. destruct Hgr as (->&_). apply Hs in Hk. by apply tc_dom in Hk as [? _].
  - intros m n'' Hm. apply wp_ret. split; [done|]. split; [by apply abs_grows_anc|]. exists m. split; [done|].
    rewrite <-(abs_grows_anc g g') by done.
    eapply selects_collected; [|done]. intros k _. simpl. rewrite path_abs, Hs.
    destruct Hgr as (_&_&Ho&_). unfold E. by rewrite Ho.
Qed.
Lemma GetDescendants_ok σ id : refines σ (OpGetDescendants id) (GetDescendants isz σ id) RMapErr.
Proof.
  intros g n Hσ Hg. apply wp_bind. eapply wp_mono; [by apply descendantsOf_wp|].
  intros r g' n' Hpost. pose proof Hpost as (Hg'&Hgr&Hr).
  unfold spec_step. rewrite vertex_err_abs.
  destruct (checkVertexID isz g id) eqn:Hc.
  { destruct Hr as [-> ->]. by apply wp_ret. }
  apply checkVertexID_None in Hc; [|done].
  destruct (desc_post_exact isz g id r g' Hpost Hc Hg) as (s&->&Hwf&Hs).
  apply wp_bind. unfold loadFromCache. apply wp_bind, wp_get, collect_set_wp; [done| |].
  - intros k Hk. destruct Hgr as (->&_). apply Hs in Hk. by apply tc_dom in Hk as [_ ?].
  - intros m n'' Hm. apply wp_ret. split; [done|]. split; [by apply abs_grows|]. exists m. split; [done|].
    rewrite <-(abs_grows g g') by done.
    eapply selects_collected; [|done]. intros k _. simpl. rewrite path_abs, Hs.
    destruct Hgr as (_&_&Ho&_). unfold E. by rewrite Ho.
Qed.

End ops.
