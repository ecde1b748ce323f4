(** * The implementation model refines the specification; consequences *)
From stdpp Require Import base list gmap relations sorting strings.
From Verif Require Import GoBase SetModel DagModel DagSpec DagWp RelFacts DagInv DagOps
  DagMut DagString DagBfs DagReduce DagObs.

Section refine.
Context {K T : Type} `{Countable K} `{Inhabited T} (isz : K → bool).
Notation graph := (graph K T).
Implicit Types g : graph.
Notation inv := (inv isz).
Notation has_vertex := (has_vertex isz).
Notation has_edge := (has_edge isz).
Notation reachable := (reachable isz).

Lemma refines_mapM {A} σ o (m : M (K:=K) (T:=T) A) f :
  refines isz σ o m f → refines isz σ o (mapM f m) id.
Proof.
  intros Hm g n Hσ Hg. apply wp_bind. eapply wp_mono; [by apply Hm|].
  intros r g' n' Hr. by apply wp_ret.
Qed.
Lemma exec_ok σ (o : op K T) : refines isz σ o (exec isz σ o) id.
Proof.
  destruct o; apply refines_mapM; eauto using AddVertex_ok, GetVertex_ok, DeleteVertex_ok,
    AddEdge_ok, IsEdge_ok, DeleteEdge_ok, GetOrder_ok, GetSize_ok, GetLeaves_ok, GetRoots_ok,
    GetVertices_ok, GetParents_ok, GetChildren_ok, GetAncestors_ok, GetOrderedAncestors_ok,
    GetDescendants_ok, GetOrderedDescendants_ok, ReduceTransitively_ok, StringOf_ok.
Qed.
Lemma call_ok σ (o : op K T) g :
  legal σ → inv g →
  ∃ r g', call isz σ o g = Ok (r, g') ∧ inv g' ∧ spec_step isz (abs g) o r (abs g').
Proof.
  intros Hσ Hg. pose proof (exec_ok σ o g 0 Hσ Hg) as Hwp. unfold wp in Hwp.
  unfold call. destruct (exec isz σ o g 0) as [[[r g'] n']| |]; [|done..]. naive_solver.
Qed.
Lemma call_inv σ (o : op K T) g r g' :
  legal σ → inv g → call isz σ o g = Ok (r, g') →
  inv g' ∧ spec_step isz (abs g) o r (abs g').
Proof.
  intros Hσ Hg Hc. destruct (call_ok σ o g Hσ Hg) as (r2&g2&Hc2&?&?).
  rewrite Hc in Hc2. by injection Hc2 as <- <-.
Qed.
Lemma run_ok (h : list (schedule K * op K T)) g :
  legal_history h → inv g →
  ∃ outs g', run isz h g = Ok (outs, g') ∧ inv g' ∧
    spec_run isz (abs g) (map snd h) outs (abs g').
Proof.
  intros Hh. revert g. induction Hh as [|[σ o] h Hσ Hh IH]; intros g Hg.
  { exists [], g. split_and!; [done..|constructor]. }
  destruct (call_ok σ o g Hσ Hg) as (r&g1&Hc&Hg1&Hs).
  destruct (IH g1 Hg1) as (outs&g2&Hr&Hg2&Hs2).
  exists (r :: outs), g2. simpl. rewrite Hc, Hr. split_and!; [done..|].
  econstructor; eauto.
Qed.
Lemma abs_new : abs (NewAcyclicGraph (K:=K) (T:=T)) = empty_graph.
Proof. apply abs_eq; [done|]. intros s t. split; [intros Hs; by apply adj_empty in Hs|set_solver]. Qed.

Lemma reachable_inv g : reachable g → inv g.
Proof.
  intros (h&outs&Hh&Hr). destruct (run_ok h NewAcyclicGraph Hh (inv_new isz)) as (?&?&Hr2&?&_).
  rewrite Hr in Hr2. by injection Hr2 as <- <-.
Qed.
Lemma run_app h1 h2 g outs1 g1 outs2 g2 :
  run (T:=T) isz h1 g = Ok (outs1, g1) → run isz h2 g1 = Ok (outs2, g2) →
  run isz (h1 ++ h2) g = Ok (outs1 ++ outs2, g2).
Proof.
  revert g outs1. induction h1 as [|[σ o] h1 IH]; intros g outs1; simpl.
  { by intros [= <- <-]. }
  destruct (call isz σ o g) as [[r g']| |]; [|done..].
  destruct (run isz h1 g') as [[rs g'']| |] eqn:Hr; [|done..].
  intros [= <- <-] Hr2. by rewrite (IH _ _ Hr Hr2).
Qed.
Lemma reachable_call σ o g r g' :
  legal σ → reachable g → call isz σ o g = Ok (r, g') → reachable g'.
Proof.
  intros Hσ (h&outs&Hh&Hr) Hc. exists (h ++ [(σ, o)]), (outs ++ [r]). split.
  - apply Forall_app. split; [done|]. by constructor.
  - eapply run_app; [done|]. simpl. by rewrite Hc.
Qed.

(** ** Observations *)
Lemma has_vertex_abs g k x : inv g → has_vertex g k x ↔ av (abs g) !! k = Some x.
Proof.
  intros Hg. unfold DagObs.has_vertex, call, exec, mapM, GetVertex, bind, get, ret. simpl.
  destruct (checkVertexID isz g k) eqn:Hc.
  - split; [done|]. intros Hk.
    assert (checkVertexID isz g k = None) as Hn by (apply checkVertexID_None; eauto).
    by rewrite Hn in Hc.
  - apply checkVertexID_None in Hc as [y Hy]; [|done]. unfold vertex. rewrite Hy. simpl. naive_solver.
Qed.
Lemma known_abs g k : inv g → known isz g k ↔ k ∈ dom (av (abs g)).
Proof.
  intros Hg. rewrite elem_of_dom. unfold known. setoid_rewrite has_vertex_abs; [|done]. done.
Qed.
Lemma has_edge_abs g s t : inv g → has_edge g s t ↔ edge (abs g) s t.
Proof.
  intros Hg. unfold DagObs.has_edge, call, exec, mapM, IsEdge, bind, get, ret.
  destruct (checkEdgeIDs isz g s t) as [e|] eqn:Hc.
  - unfold isEdge. rewrite Hc. split; [done|]. intros Hst. apply edge_abs in Hst.
    exfalso. pose proof (inv_dom isz g Hg s t Hst) as [Hs Ht].
    unfold checkEdgeIDs in Hc.
    rewrite (inv_nonzero isz g Hg s Hs), (inv_nonzero isz g Hg t Ht) in Hc.
    destruct (decide (s = t)) as [->|]; [by apply (inv_acyclic isz g Hg t), tc_once|].
    destruct Hs as [? Hs], Ht as [? Ht]. by rewrite Hs, Ht in Hc.
  - rewrite isEdge_spec by done. unfold edge. split.
    + intros [= Hb]. by apply bool_decide_eq_true in Hb.
    + intros Hb. by rewrite bool_decide_eq_true_2.
Qed.
Lemma tc_has_edge g s t : inv g → tc (has_edge g) s t ↔ path (abs g) s t.
Proof. intros Hg. apply tc_iff. intros. by apply has_edge_abs. Qed.
Lemma exactly_abs g P m : inv g → exactly isz g P m ↔ selects (abs g) P m.
Proof.
  intros Hg. unfold exactly, selects. by setoid_rewrite has_vertex_abs.
Qed.
Lemma selects_iff (a : agraph K T) (P Q : K → Prop) m :
  (∀ k, P k ↔ Q k) → selects a P m → selects a Q m.
Proof. intros HPQ Hm k x. rewrite (Hm k x). by rewrite HPQ. Qed.

Lemma vertex_err_None g k : inv g → vertex_err isz (abs g) k = None ↔ known isz g k.
Proof.
  intros Hg. rewrite vertex_err_abs, checkVertexID_None by done.
  unfold known. by setoid_rewrite has_vertex_abs.
Qed.
Lemma vertex_err_fv g k : inv g →
  first_violated [(isz k = true, ErrVertexIDEmpty); (¬ known isz g k, ErrVertexNotFound)]
    (vertex_err isz (abs g) k).
Proof.
  intros Hg. pose proof (known_abs g k Hg) as Hkn. unfold vertex_err, first_err.
  destruct (isz k); [by constructor|]. apply fv_next; [done|].
  destruct (decide (k ∈ dom (av (abs g)))) as [Hk|Hk].
  - rewrite bool_decide_eq_false_2 by naive_solver. apply fv_next; [naive_solver|]. constructor.
  - rewrite bool_decide_eq_true_2 by naive_solver. apply fv_here. naive_solver.
Qed.

(** ** Determinacy of the specification *)
Lemma bfs_order_same {A} `{EqDecision A} (R R' : relation A) x l1 l2 :
  (∀ x y, R x y ↔ R' x y) →
  bfs_order R x l1 → bfs_order R x l2 →
  l1 ≡ₚ l2 ∧ Forall2 (λ y z, ∀ n, dist R' x y n ↔ dist R' x z n) l1 l2.
Proof.
  intros HR (Hn1&Hl1&ds1&Hd1&Hs1) (Hn2&Hl2&ds2&Hd2&Hs2).
  assert (l1 ≡ₚ l2) as Hp.
  { apply NoDup_Permutation; [done..|]. intros y. by rewrite Hl1, Hl2. }
  split; [done|].
  assert (∀ (l l' : list A), l ≡ₚ l' → ∀ ds, Forall2 (dist R x) l ds →
    ∃ ds', Forall2 (dist R x) l' ds' ∧ ds ≡ₚ ds') as Hperm.
  { induction 1 as [|y l l' _ IH|y z l|l l' l'' _ IH1 _ IH2]; intros ds Hds.
    - inversion Hds; subst. by exists [].
    - inversion Hds as [|? d ? ds0 Hd Hds0]; subst. destruct (IH ds0 Hds0) as (ds'&?&?).
      exists (d :: ds'). split; [by constructor|]. by constructor.
    - inversion Hds as [|? d ? ds0 Hd Hds0]; subst.
      inversion Hds0 as [|? d' ? ds1' Hd' Hds1]; subst.
      exists (d' :: d :: ds1'). split; [repeat (constructor; try done)|]. by constructor.
    - destruct (IH1 ds Hds) as (ds'&?&?). destruct (IH2 ds') as (ds''&?&?); [done|].
      exists ds''. split; [done|]. by etrans. }
  destruct (Hperm l1 l2 Hp ds1 Hd1) as (ds'&Hd'&Hp').
  assert (ds' = ds2) as ->.
  { clear -Hd' Hd2. revert ds2 Hd2. induction Hd' as [|y d l ds Hd Hds IH]; intros ds2 Hd2.
    - by inversion Hd2.
    - inversion Hd2 as [|? d2 ? ds3 Hy Hds3]; subst. f_equal; [by eapply dist_unique|eauto]. }
  assert (ds1 = ds2) as ->.
  { eapply (Sorted_unique le); done. }
  clear -Hd1 Hd2 HR. revert l2 Hd2. induction Hd1 as [|y d l ds Hd Hds IH]; intros l2 Hd2.
  - inversion Hd2. constructor.
  - inversion Hd2 as [|z ? l3 ? Hz Hds3]; subst. constructor; [|by apply IH].
    apply (dist_iff _ R') in Hd; [|done]. apply (dist_iff _ R') in Hz; [|done].
    intros n. split; intros Hn.
    + by rewrite <-(dist_unique _ _ _ _ _ Hd Hn).
    + by rewrite <-(dist_unique _ _ _ _ _ Hz Hn).
Qed.

Lemma selects_unique (a : agraph K T) P m1 m2 : selects a P m1 → selects a P m2 → m1 = m2.
Proof.
  intros H1 H2. apply map_eq. intros k. apply option_eq. intros x.
  by rewrite (H1 k x), (H2 k x).
Qed.

Lemma reduction_unique (a a1 a2 : agraph K T) :
  is_reduction a a1 → is_reduction a a2 → a1 = a2.
Proof.
  intros (Hv1&Hs1&Hp1&Hm1) (Hv2&Hs2&Hp2&Hm2).
  assert (∀ (b c : agraph K T), (∀ u v, path b u v ↔ path c u v) →
    (∀ u v, edge b u v → ¬ ∃ c, edge b u c ∧ path b c v) →
    ∀ e, e ∈ ae b → e ∈ ae c) as Hgen.
  { intros b c Hpath Hmin [u v] Huv.
    apply (irredundant_necessary (edge b) (edge c) u v); [|done|by apply Hmin].
    intros. symmetry. apply Hpath. }
  destruct a1 as [v1 e1], a2 as [v2 e2]. simpl in *. f_equal; [congruence|].
  apply set_eq. intros e. split.
  - apply (Hgen (AGraph v1 e1) (AGraph v2 e2)); [|done]. intros. by rewrite Hp1, Hp2.
  - apply (Hgen (AGraph v2 e2) (AGraph v1 e1)); [|done]. intros. by rewrite Hp1, Hp2.
Qed.

Ltac det1 H1 H2 := destruct H1 as [H1 ->], H2 as [H2 ->]; split; [|done].
Ltac det2 H1 H2 := destruct H1 as [-> H1], H2 as [-> H2]; split; [|done].
Ltac det3 H1 H2 := destruct (vertex_err _ _ _); [by subst|];
  destruct H1 as (m1&->&H1), H2 as (m2&->&H2); f_equal; f_equal; by eapply selects_unique.
Lemma spec_step_det g (o : op K T) r1 r2 a1 a2 :
  inv g → spec_step isz (abs g) o r1 a1 → spec_step isz (abs g) o r2 a2 →
  same_out isz g o r1 r2 ∧ a1 = a2.
Proof.
  intros Hg H1 H2.
  assert (∀ x y, edge (abs g) x y ↔ has_edge g x y) as He.
  { intros. symmetry. by apply has_edge_abs. }
  assert (∀ x y, flip (edge (abs g)) x y ↔ flip (has_edge g) x y) as Hef.
  { intros. apply He. }
  destruct o; cbn [spec_step same_out] in *.
  - destruct (first_err _); det1 H1 H2; by subst.
  - det2 H1 H2. destruct (vertex_err _ _ _); [by subst|].
    destruct H1 as (x&Hx&->), H2 as (y&Hy&->). by simplify_eq.
  - destruct (vertex_err _ _ _); det1 H1 H2; by subst.
  - destruct (edge_err _ _ _ _); [det1 H1 H2; by subst|].
    destruct (decide _); [det1 H1 H2; by subst|].
    destruct H1 as [(?&->&->)|(?&->&->)], H2 as [(?&->&->)|(?&->&->)]; done.
  - det2 H1 H2. destruct (edge_err _ _ _ _); by subst.
  - destruct (edge_err _ _ _ _); [det1 H1 H2; by subst|].
    destruct (decide _); det1 H1 H2; by subst.
  - det2 H1 H2. by subst.
  - det2 H1 H2. by subst.
  - det2 H1 H2. destruct H1 as (m1&->&H1), H2 as (m2&->&H2). f_equal. by eapply selects_unique.
  - det2 H1 H2. destruct H1 as (m1&->&H1), H2 as (m2&->&H2). f_equal. by eapply selects_unique.
  - det2 H1 H2. by subst.
  - det2 H1 H2. det3 H1 H2.
  - det2 H1 H2. det3 H1 H2.
  - det2 H1 H2. det3 H1 H2.
  - det2 H1 H2. destruct (vertex_err _ _ _); [left; by subst|right].
    destruct H1 as (l1&->&H1), H2 as (l2&->&H2). exists l1, l2. split; [done|]. split; [done|].
    by eapply bfs_order_same.
  - det2 H1 H2. det3 H1 H2.
  - det2 H1 H2. destruct (vertex_err _ _ _); [left; by subst|right].
    destruct H1 as (l1&->&H1), H2 as (l2&->&H2). exists l1, l2. split; [done|]. split; [done|].
    by eapply bfs_order_same.
  - destruct H1 as [-> H1], H2 as [-> H2]. split; [done|]. by eapply reduction_unique.
  - det2 H1 H2. destruct H1 as (vs1&es1&Hv1&He1&->), H2 as (vs2&es2&Hv2&He2&->).
    do 2 eexists. exists vs1, vs2, es1, es2. split_and!; [by rewrite Hv1, Hv2|by rewrite He1, He2|done..].
Qed.

Lemma abs_agree h g1 g2 :
  legal_pairs h → inv g1 → inv g2 → abs g1 = abs g2 → agree isz h g1 g2.
Proof.
  intros Hh. revert g1 g2. induction Hh as [|[[σ1 σ2] o] h [Hσ1 Hσ2] Hh IH]; intros g1 g2 Hg1 Hg2 Heq; [done|].
  destruct (call_ok σ1 o g1 Hσ1 Hg1) as (r1&g1'&Hc1&Hg1'&Hs1).
  destruct (call_ok σ2 o g2 Hσ2 Hg2) as (r2&g2'&Hc2&Hg2'&Hs2).
  rewrite <-Heq in Hs2. destruct (spec_step_det _ _ _ _ _ _ Hg1 Hs1 Hs2) as [Hout Habs].
  exists r1, r2, g1', g2'. auto.
Qed.

End refine.
