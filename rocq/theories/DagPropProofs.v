(** * Proofs of the properties of [pkg/dag] *)
From stdpp Require Import base list gmap relations sorting strings.
From Verif Require Import GoBase SetModel DagModel DagSpec DagWp RelFacts DagInv DagOps
  DagMut DagString DagBfs DagReduce DagObs DagRefine.

Section props.
Context {K T : Type} `{Countable K} `{Inhabited T} (isz : K → bool).
Notation graph := (graph K T).
Implicit Types g : graph.

Lemma reach_call σ (o : op K T) g :
  reachable isz g → legal σ →
  ∃ r g', call isz σ o g = Ok (r, g') ∧ inv isz g ∧ inv isz g' ∧ spec_step isz (abs g) o r (abs g').
Proof.
  intros Hg%reachable_inv Hσ. destruct (call_ok isz σ o g Hσ Hg) as (r&g'&?&?&?). eauto 10.
Qed.
Lemma reach_call_inv σ (o : op K T) g r g' :
  reachable isz g → legal σ → call isz σ o g = Ok (r, g') →
  inv isz g ∧ inv isz g' ∧ spec_step isz (abs g) o r (abs g').
Proof. intros Hg%reachable_inv Hσ Hc. split; [done|]. by eapply call_inv. Qed.

Lemma edge_err_fv g s t : inv isz g →
  ∀ rest r, 
  match edge_err isz (abs g) s t with
  | Some e => r = Some e
  | None => first_violated rest r
  end →
  first_violated (edge_conditions isz g s t ++ rest) r.
Proof.
  intros Hg rest r. pose proof (known_abs isz g s Hg) as Hs. pose proof (known_abs isz g t Hg) as Ht.
  unfold edge_err, edge_conditions, first_err. simpl app.
  destruct (isz s); [intros ->; by apply fv_here|]. intros Hr. apply fv_next; [done|]. revert Hr.
  destruct (isz t); [intros ->; by apply fv_here|]. intros Hr. apply fv_next; [done|]. revert Hr.
  case_bool_decide; [intros ->; by apply fv_here|]. intros Hr. apply fv_next; [done|]. revert Hr.
  case_bool_decide; [intros ->; apply fv_here; naive_solver|]. intros Hr. apply fv_next; [naive_solver|]. revert Hr.
  case_bool_decide; [intros ->; apply fv_here; naive_solver|]. intros Hr. apply fv_next; [naive_solver|]. done.
Qed.
Lemma edge_err_known g s t :
  inv isz g → known isz g s → known isz g t → s ≠ t → edge_err isz (abs g) s t = None.
Proof.
  intros Hg Hs%known_abs Ht%known_abs Hne; [|done..].
  rewrite edge_err_abs. unfold checkEdgeIDs. simpl in *. rewrite elem_of_dom in Hs, Ht.
  rewrite (inv_nonzero isz g Hg s Hs), (inv_nonzero isz g Hg t Ht).
  rewrite decide_False by done. destruct Hs as [? ->], Ht as [? ->]. done.
Qed.
Lemma edge_err_edge g s t :
  inv isz g → edge (abs g) s t → edge_err isz (abs g) s t = None.
Proof.
  intros Hg Hst. apply edge_abs in Hst. pose proof (inv_dom isz g Hg s t Hst) as [Hs Ht].
  apply edge_err_known; [done|rewrite known_abs, elem_of_dom by done; done..|].
  intros ->. by apply (inv_acyclic isz g Hg t), tc_once.
Qed.
Lemma first_violated_det l r1 r2 : first_violated l r1 → first_violated l r2 → r1 = r2.
Proof.
  intros H1. revert r2. induction H1; inversion 1; subst; naive_solver.
Qed.

(*P C01_acyclic *)
Lemma p01 g v :
  reachable isz g →
  ¬ tc (has_edge isz g) v v ∧
  (∀ σ m g', legal σ → call isz σ (OpGetDescendants v) g = Ok (RMapErr (inr m), g') → m !! v = None) ∧
  (∀ σ m g', legal σ → call isz σ (OpGetAncestors v) g = Ok (RMapErr (inr m), g') → m !! v = None).
Proof.
  intros Hr. pose proof (reachable_inv isz g Hr) as Hg.
  assert (¬ path (abs g) v v) as Hac. { rewrite path_abs. apply Hg. }
  split_and!.
  - by rewrite tc_has_edge.
  - intros σ m g' Hσ Hc. destruct (reach_call_inv _ _ _ _ _ Hr Hσ Hc) as (_&_&_&Hs).
    destruct (vertex_err _ _ _); [done|]. destruct Hs as (m'&[= <-]&Hm).
    apply eq_None_not_Some. intros [x Hx]. by apply Hm in Hx as [? _].
  - intros σ m g' Hσ Hc. destruct (reach_call_inv _ _ _ _ _ Hr Hσ Hc) as (_&_&_&Hs).
    destruct (vertex_err _ _ _); [done|]. destruct Hs as (m'&[= <-]&Hm).
    apply eq_None_not_Some. intros [x Hx]. by apply Hm in Hx as [? _].
Qed.

(*P C02_loop_detection_exact *)
Lemma p02 σ g s t :
  reachable isz g → legal σ →
  known isz g s → known isz g t → s ≠ t → ¬ has_edge isz g s t →
  ∃ r g', call isz σ (OpAddEdge s t) g = Ok (RErr r, g') ∧
    (r = Some ErrEdgeLoop ↔ tc (has_edge isz g) t s) ∧
    (¬ tc (has_edge isz g) t s → r = None ∧ has_edge isz g' s t).
Proof.
  intros Hr Hσ Hs Ht Hne Hno. destruct (reach_call σ (OpAddEdge s t) g Hr Hσ) as (r&g'&Hc&Hg&Hg'&Hst).
  cbn [spec_step] in Hst. rewrite edge_err_known in Hst by done.
  rewrite has_edge_abs in Hno by done. rewrite decide_False in Hst by done.
  pose proof (tc_has_edge isz g t s Hg) as Htc.
  destruct Hst as [(Hp&->&Ha)|(Hp&->&Ha)].
  - eexists _, g'. split; [done|]. naive_solver.
  - eexists _, g'. split; [done|]. split; [naive_solver|]. intros _. split; [done|].
    rewrite has_edge_abs by done. unfold edge. rewrite Ha. set_solver.
Qed.

(*P C03_refinement *)
Lemma p03 (h : list (schedule K * op K T)) :
  legal_history h →
  ∃ outs g a, run isz h NewAcyclicGraph = Ok (outs, g) ∧
    spec_run isz empty_graph (map snd h) outs a ∧
    (∀ k x, has_vertex isz g k x ↔ av a !! k = Some x) ∧
    (∀ s t, has_edge isz g s t ↔ (s, t) ∈ ae a).
Proof.
  intros Hh. destruct (run_ok isz h NewAcyclicGraph Hh (inv_new isz)) as (outs&g&Hr&Hg&Hs).
  exists outs, g, (abs g). rewrite abs_new in Hs. split_and!; [done..| |].
  - intros. by apply has_vertex_abs.
  - intros. by apply has_edge_abs.
Qed.

(*P C04_descendants_exact *)
Lemma p04d σ g id :
  reachable isz g → legal σ →
  ∃ r g', call isz σ (OpGetDescendants id) g = Ok (RMapErr r, g') ∧
    match r with
    | inl e => first_violated (vertex_conditions isz g id) (Some e)
    | inr m => first_violated (vertex_conditions isz g id) None ∧
               exactly isz g (λ k, tc (has_edge isz g) id k) m
    end.
Proof.
  intros Hr Hσ. destruct (reach_call σ (OpGetDescendants id) g Hr Hσ) as (r&g'&Hc&Hg&Hg'&Ha&Hst).
  pose proof (vertex_err_fv isz g id Hg) as Hfv. unfold vertex_conditions.
  destruct (vertex_err _ _ _).
  - subst r. eexists _, g'. split; [done|]. done.
  - destruct Hst as (m&->&Hm). eexists _, g'. split; [done|]. split; [done|].
    apply exactly_abs; [done|]. eapply selects_iff; [|done]. intros k. symmetry. by apply tc_has_edge.
Qed.
(*P C04_ancestors_exact *)
Lemma p04a σ g id :
  reachable isz g → legal σ →
  ∃ r g', call isz σ (OpGetAncestors id) g = Ok (RMapErr r, g') ∧
    match r with
    | inl e => first_violated (vertex_conditions isz g id) (Some e)
    | inr m => first_violated (vertex_conditions isz g id) None ∧
               exactly isz g (λ k, tc (has_edge isz g) k id) m
    end.
Proof.
  intros Hr Hσ. destruct (reach_call σ (OpGetAncestors id) g Hr Hσ) as (r&g'&Hc&Hg&Hg'&Ha&Hst).
  pose proof (vertex_err_fv isz g id Hg) as Hfv. unfold vertex_conditions.
  destruct (vertex_err _ _ _).
  - subst r. eexists _, g'. split; [done|]. done.
  - destruct Hst as (m&->&Hm). eexists _, g'. split; [done|]. split; [done|].
    apply exactly_abs; [done|]. eapply selects_iff; [|done]. intros k. symmetry. by apply tc_has_edge.
Qed.

(*P C05_failed_calls_change_nothing *)
Lemma p05 σ o e g g' h :
  reachable isz g → legal σ → legal_pairs h →
  mutating o = true → call isz σ o g = Ok (RErr (Some e), g') →
  agree isz h g' g ∧
  (∀ k x, has_vertex isz g' k x ↔ has_vertex isz g k x) ∧
  (∀ s t, has_edge isz g' s t ↔ has_edge isz g s t).
Proof.
  intros Hr Hσ Hh Ho Hc. destruct (reach_call_inv _ _ _ _ _ Hr Hσ Hc) as (Hg&Hg'&Hs).
  assert (abs g' = abs g) as Habs.
  { destruct o; try done; cbn [spec_step] in Hs.
    - destruct (first_err _); naive_solver.
    - destruct (vertex_err _ _ _); naive_solver.
    - destruct (edge_err _ _ _ _); [naive_solver|]. destruct (decide _); naive_solver.
    - destruct (edge_err _ _ _ _); [naive_solver|]. destruct (decide _); naive_solver.
    - naive_solver. }
  split_and!.
  - by apply abs_agree.
  - intros. by rewrite !has_vertex_abs, Habs by done.
  - intros. by rewrite !has_edge_abs, Habs by done.
Qed.

(*P C06_delete_vertex *)
Lemma p06 σ g v :
  reachable isz g → legal σ →
  ∃ r g', call isz σ (OpDeleteVertex v) g = Ok (RErr r, g') ∧
    first_violated (vertex_conditions isz g v) r ∧
    (r = None ↔ known isz g v) ∧
    (r = None →
      (∀ k x, has_vertex isz g' k x ↔ has_vertex isz g k x ∧ k ≠ v) ∧
      (∀ s t, has_edge isz g' s t ↔ has_edge isz g s t ∧ s ≠ v ∧ t ≠ v)).
Proof.
  intros Hr Hσ. destruct (reach_call σ (OpDeleteVertex v) g Hr Hσ) as (r&g'&Hc&Hg&Hg'&Hst).
  pose proof (vertex_err_fv isz g v Hg) as Hfv. unfold vertex_conditions.
  pose proof (vertex_err_None isz g v Hg) as Hkn.
  cbn [spec_step] in Hst. destruct (vertex_err _ _ _).
  - destruct Hst as [-> Ha]. eexists _, g'. split; [done|]. split; [done|]. split; [naive_solver|done].
  - destruct Hst as [-> Ha]. eexists _, g'. split; [done|]. split; [done|]. split; [naive_solver|].
    intros _. split.
    + intros k x. rewrite !has_vertex_abs, Ha by done. simpl. rewrite lookup_delete_Some. naive_solver.
    + intros s t. rewrite !has_edge_abs by done. unfold edge. rewrite Ha. simpl.
      rewrite elem_of_filter. simpl. naive_solver.
Qed.

(*P C07_add_edge *)
Lemma p07a σ g s t g' :
  reachable isz g → legal σ → call isz σ (OpAddEdge s t) g = Ok (RErr None, g') →
  ¬ has_edge isz g s t ∧
  (∀ k x, has_vertex isz g' k x ↔ has_vertex isz g k x) ∧
  (∀ x y, has_edge isz g' x y ↔ has_edge isz g x y ∨ (x = s ∧ y = t)).
Proof.
  intros Hr Hσ Hc. destruct (reach_call_inv _ _ _ _ _ Hr Hσ Hc) as (Hg&Hg'&Hst).
  cbn [spec_step] in Hst. destruct (edge_err _ _ _ _); [naive_solver|].
  destruct (decide _); [naive_solver|]. destruct Hst as [(_&?&_)|(_&_&Ha)]; [done|].
  split_and!.
  - by rewrite has_edge_abs.
  - intros. by rewrite !has_vertex_abs, Ha by done.
  - intros. rewrite !has_edge_abs by done. unfold edge. rewrite Ha. set_solver.
Qed.
(*P C07_delete_edge *)
Lemma p07d σ g s t :
  reachable isz g → legal σ →
  ∃ r g', call isz σ (OpDeleteEdge s t) g = Ok (RErr r, g') ∧
    (r = None ↔ has_edge isz g s t) ∧
    (r = None →
      (∀ k x, has_vertex isz g' k x ↔ has_vertex isz g k x) ∧
      (∀ x y, has_edge isz g' x y ↔ has_edge isz g x y ∧ ¬ (x = s ∧ y = t))).
Proof.
  intros Hr Hσ. destruct (reach_call σ (OpDeleteEdge s t) g Hr Hσ) as (r&g'&Hc&Hg&Hg'&Hst).
  cbn [spec_step] in Hst. destruct (edge_err isz (abs g) s t) eqn:He.
  { destruct Hst as [-> Ha]. eexists _, g'. split; [done|]. split; [|done]. split; [done|].
    rewrite has_edge_abs by done. intros Hst%edge_err_edge; [|done]. congruence. }
  destruct (decide _) as [Hin|Hin]; destruct Hst as [-> Ha]; (eexists _, g'; split; [done|]).
  - split.
    { split; [|done]. intros _. by apply has_edge_abs. }
    intros _. split.
    + intros. by rewrite !has_vertex_abs, Ha by done.
    + intros. rewrite !has_edge_abs by done. unfold edge. rewrite Ha. set_solver.
  - split; [|done]. rewrite has_edge_abs by done. naive_solver.
Qed.

(*P C08_add_vertex *)
Lemma p08 σ g v x :
  reachable isz g → legal σ →
  ∃ r g', call isz σ (OpAddVertex v x) g = Ok (RErr r, g') ∧
    first_violated [(isz v = true, ErrVertexIDEmpty); (known isz g v, ErrVertexDuplicate)] r ∧
    (∀ s t, has_edge isz g' s t ↔ has_edge isz g s t) ∧
    (r ≠ None → ∀ k y, has_vertex isz g' k y ↔ has_vertex isz g k y) ∧
    (r = None →
      (∀ k y, has_vertex isz g' k y ↔ (k = v ∧ y = x) ∨ (k ≠ v ∧ has_vertex isz g k y)) ∧
      (∀ σ', legal σ' → ∃ g1 g2 g3 g4,
        call isz σ' (OpGetParents v) g' = Ok (RMapErr (inr ∅), g1) ∧
        call isz σ' (OpGetChildren v) g' = Ok (RMapErr (inr ∅), g2) ∧
        call isz σ' (OpGetAncestors v) g' = Ok (RMapErr (inr ∅), g3) ∧
        call isz σ' (OpGetDescendants v) g' = Ok (RMapErr (inr ∅), g4))).
Proof.
  intros Hr Hσ. destruct (reach_call σ (OpAddVertex v x) g Hr Hσ) as (r&g'&Hc&Hg&Hg'&Hst).
  pose proof (reachable_call isz _ _ _ _ _ Hσ Hr Hc) as Hr'.
  pose proof (known_abs isz g v Hg) as Hkn.
  cbn [spec_step first_err] in Hst.
  assert (∀ a', abs g' = AGraph a' (ae (abs g)) → ∀ s t, has_edge isz g' s t ↔ has_edge isz g s t) as Hsame.
  { intros a' Ha s t. rewrite !has_edge_abs by done. unfold edge. by rewrite Ha. }
  destruct (isz v) eqn:Hz.
  { destruct Hst as [-> Ha]. eexists _, g'. split; [done|]. split_and!.
    - by apply fv_here.
    - apply (Hsame (av (abs g))). rewrite Ha. by destruct (abs g).
    - intros _ k y. by rewrite !has_vertex_abs, Ha by done.
    - done. }
  case_bool_decide as Hin.
  { destruct Hst as [-> Ha]. eexists _, g'. split; [done|]. split_and!.
    - apply fv_next; [done|]. apply fv_here. naive_solver.
    - apply (Hsame (av (abs g))). rewrite Ha. by destruct (abs g).
    - intros _ k y. by rewrite !has_vertex_abs, Ha by done.
    - done. }
  destruct Hst as [-> Ha]. eexists _, g'. split; [done|].
  assert (∀ k y, has_vertex isz g' k y ↔ (k = v ∧ y = x) ∨ (k ≠ v ∧ has_vertex isz g k y)) as Hv.
  { intros k y. rewrite !has_vertex_abs, Ha by done. simpl. rewrite lookup_insert_Some. naive_solver. }
  split_and!.
  { apply fv_next; [done|]. apply fv_next; [naive_solver|]. constructor. }
  { by eapply Hsame. }
  { done. }
  intros _. split; [done|]. intros σ' Hσ'.
  assert (∀ k, ¬ edge (abs g') k v ∧ ¬ edge (abs g') v k) as Hno.
  { assert (∀ s t, edge (abs g') s t → s ≠ v ∧ t ≠ v) as Hgen; [|naive_solver].
    intros s t Hst. unfold edge in Hst. rewrite Ha in Hst. simpl in Hst.
    apply (edge_abs g s t) in Hst. apply (inv_dom isz g Hg) in Hst as [[? Hs] [? Ht]].
    split; intros ->; apply Hin, elem_of_dom; simpl; eauto. }
  assert (∀ k, ¬ path (abs g') k v ∧ ¬ path (abs g') v k) as Hnop.
  { intros k. split; intros Hp.
    - apply tc_last in Hp as (z&_&Hz'). destruct (Hno z); done.
    - apply tc_first in Hp as (z&Hz'&_). destruct (Hno z); done. }
  assert (vertex_err isz (abs g') v = None) as Hve.
  { apply vertex_err_None; [done|]. exists x. apply Hv. by left. }
  assert (∀ (P : K → Prop) m, (∀ k, ¬ P k) → selects (abs g') P m → m = ∅) as Hemp.
  { intros P m HP Hm. apply map_empty. intros k. apply eq_None_not_Some. intros [y Hy].
    apply Hm in Hy as [? _]. by eapply HP. }
  destruct (reach_call σ' (OpGetParents v) g' Hr' Hσ') as (r1&g1&Hc1&_&_&_&Hs1).
  destruct (reach_call σ' (OpGetChildren v) g' Hr' Hσ') as (r2&g2&Hc2&_&_&_&Hs2).
  destruct (reach_call σ' (OpGetAncestors v) g' Hr' Hσ') as (r3&g3&Hc3&_&_&_&Hs3).
  destruct (reach_call σ' (OpGetDescendants v) g' Hr' Hσ') as (r4&g4&Hc4&_&_&_&Hs4).
  rewrite Hve in Hs1, Hs2, Hs3, Hs4.
  destruct Hs1 as (m1&->&Hm1), Hs2 as (m2&->&Hm2), Hs3 as (m3&->&Hm3), Hs4 as (m4&->&Hm4).
  apply Hemp in Hm1, Hm2, Hm3, Hm4; [|intros k; apply Hno || apply Hnop..]. subst. eauto 10.
Qed.

(*P C09_vertex_error_precedence *)
Lemma p09v σ g o id r g' :
  reachable isz g → legal σ → vertex_call o = Some id →
  call isz σ o g = Ok (r, g') → first_violated (vertex_conditions isz g id) (out_err r).
Proof.
  intros Hr Hσ Ho Hc. destruct (reach_call_inv _ _ _ _ _ Hr Hσ Hc) as (Hg&Hg'&Hst).
  pose proof (vertex_err_fv isz g id Hg) as Hfv. unfold vertex_conditions.
  destruct o; try done; injection Ho as ->; cbn [spec_step] in Hst;
    (destruct (vertex_err isz (abs g) id); [by destruct Hst; subst|]); destruct Hst as [Hst1 Hst2];
    try (destruct Hst2 as (?&?&?)); by subst.
Qed.
(*P C09_add_vertex_error_precedence *)
Lemma p09a σ g v x r g' :
  reachable isz g → legal σ → call isz σ (OpAddVertex v x) g = Ok (r, g') →
  first_violated [(isz v = true, ErrVertexIDEmpty); (known isz g v, ErrVertexDuplicate)] (out_err r).
Proof.
  intros Hr Hσ Hc. destruct (p08 σ g v x Hr Hσ) as (r'&g''&Hc'&Hfv&_).
  rewrite Hc in Hc'. by injection Hc' as -> ->.
Qed.
(*P C09_add_edge_error_precedence *)
Lemma p09e σ g s t r g' :
  reachable isz g → legal σ → call isz σ (OpAddEdge s t) g = Ok (r, g') →
  first_violated (edge_conditions isz g s t ++
    [(has_edge isz g s t, ErrEdgeDuplicate); (tc (has_edge isz g) t s, ErrEdgeLoop)]) (out_err r).
Proof.
  intros Hr Hσ Hc. destruct (reach_call_inv _ _ _ _ _ Hr Hσ Hc) as (Hg&Hg'&Hst).
  apply edge_err_fv; [done|]. cbn [spec_step] in Hst. destruct (edge_err _ _ _ _).
  { by destruct Hst as [-> _]. }
  pose proof (has_edge_abs isz g s t Hg) as He. pose proof (tc_has_edge isz g t s Hg) as Ht.
  destruct (decide _) as [Hin|Hin].
  { destruct Hst as [-> _]. apply fv_here. by apply He. }
  apply fv_next; [naive_solver|].
  destruct Hst as [(Hp&->&_)|(Hp&->&_)].
  - apply fv_here. naive_solver.
  - apply fv_next; [naive_solver|]. constructor.
Qed.
(*P C09_delete_edge_error_precedence *)
Lemma p09d σ g s t r g' :
  reachable isz g → legal σ → call isz σ (OpDeleteEdge s t) g = Ok (r, g') →
  first_violated (edge_conditions isz g s t ++ [(¬ has_edge isz g s t, ErrEdgeNotFound)]) (out_err r).
Proof.
  intros Hr Hσ Hc. destruct (reach_call_inv _ _ _ _ _ Hr Hσ Hc) as (Hg&Hg'&Hst).
  apply edge_err_fv; [done|]. cbn [spec_step] in Hst. destruct (edge_err _ _ _ _).
  { by destruct Hst as [-> _]. }
  pose proof (has_edge_abs isz g s t Hg) as He.
  destruct (decide _) as [Hin|Hin]; destruct Hst as [-> _].
  - apply fv_next; [naive_solver|]. constructor.
  - apply fv_here. naive_solver.
Qed.
(*P C09_is_edge_error_precedence *)
Lemma p09i σ g s t r g' :
  reachable isz g → legal σ → call isz σ (OpIsEdge s t) g = Ok (r, g') →
  first_violated (edge_conditions isz g s t) (out_err r).
Proof.
  intros Hr Hσ Hc. destruct (reach_call_inv _ _ _ _ _ Hr Hσ Hc) as (Hg&Hg'&Ha&Hst).
  rewrite <-(app_nil_r (edge_conditions _ _ _ _)).
  apply edge_err_fv; [done|]. destruct (edge_err _ _ _ _); subst r; [done|constructor].
Qed.

(*P C10_parents_children_edges_agree *)
Lemma p10 σ1 σ2 g s t :
  reachable isz g → legal σ1 → legal σ2 → known isz g s → known isz g t →
  ∃ ps cs g1 g2,
    call isz σ1 (OpGetParents t) g = Ok (RMapErr (inr ps), g1) ∧
    call isz σ2 (OpGetChildren s) g = Ok (RMapErr (inr cs), g2) ∧
    (is_Some (ps !! s) ↔ has_edge isz g s t) ∧
    (is_Some (cs !! t) ↔ has_edge isz g s t) ∧
    (∀ k x, ps !! k = Some x → has_vertex isz g k x) ∧
    (∀ k x, cs !! k = Some x → has_vertex isz g k x).
Proof.
  intros Hr Hσ1 Hσ2 Hs Ht.
  destruct (reach_call σ1 (OpGetParents t) g Hr Hσ1) as (r1&g1&Hc1&Hg&_&_&Hs1).
  destruct (reach_call σ2 (OpGetChildren s) g Hr Hσ2) as (r2&g2&Hc2&_&_&_&Hs2).
  pose proof Ht as Ht'. pose proof Hs as Hs'.
  rewrite <-vertex_err_None in Hs', Ht' by done. rewrite Ht' in Hs1. rewrite Hs' in Hs2.
  destruct Hs1 as (ps&->&Hps), Hs2 as (cs&->&Hcs). exists ps, cs, g1, g2.
  rewrite has_edge_abs by done. destruct Hs as [xs Hs], Ht as [xt Ht].
  rewrite has_vertex_abs in Hs, Ht by done.
  split_and!; [done..| | | |].
  - split; [intros [x Hx]; by apply Hps in Hx as [? _]|]. intros. exists xs. by apply Hps.
  - split; [intros [x Hx]; by apply Hcs in Hx as [? _]|]. intros. exists xt. by apply Hcs.
  - intros k x Hx. apply has_vertex_abs; [done|]. by apply Hps in Hx as [_ ?].
  - intros k x Hx. apply has_vertex_abs; [done|]. by apply Hcs in Hx as [_ ?].
Qed.

Lemma below_leaf g v :
  inv isz g → is_Some (vertices g !! v) →
  ∃ l, is_Some (vertices g !! l) ∧ (∀ t, ¬ E g l t) ∧ rtc (E g) v l.
Proof.
  intros Hg Hv. pose proof (inv_flipg isz g Hg) as Hgf.
  destruct (below_root isz (flipg g) v Hgf Hv) as (l&Hl&Hno&Hp). exists l. split_and!; [done| |].
  - intros t Ht. by apply (Hno t), (E_flipg isz).
  - clear Hno Hl Hv. induction Hp as [|x y z Hxy Hyz IH]; [constructor|].
    eapply rtc_r; [done|]. by apply (E_flipg isz) in Hxy.
Qed.
Lemma rtc_has_edge g x y : inv isz g → rtc (E g) x y → rtc (has_edge isz g) x y.
Proof. intros Hg. apply rtc_mono. intros ?? Hxy. by apply has_edge_abs, edge_abs. Qed.

(*P C11_roots *)
Lemma p11r σ g :
  reachable isz g → legal σ →
  ∃ m g', call isz σ OpGetRoots g = Ok (RMap m, g') ∧
    exactly isz g (λ k, ∀ s, ¬ has_edge isz g s k) m ∧
    (∀ v, known isz g v → ∃ r, is_Some (m !! r) ∧ rtc (has_edge isz g) r v).
Proof.
  intros Hr Hσ. destruct (reach_call σ OpGetRoots g Hr Hσ) as (r&g'&Hc&Hg&_&_&m&->&Hm).
  exists m, g'. split; [done|].
  assert (exactly isz g (λ k, ∀ s, ¬ has_edge isz g s k) m) as Hex.
  { apply exactly_abs; [done|]. eapply selects_iff; [|done]. intros k.
    by setoid_rewrite (λ s, has_edge_abs isz g s k Hg). }
  split; [done|]. intros v Hv%known_abs; [|done]. apply elem_of_dom in Hv.
  destruct (below_root isz g v Hg Hv) as (r&[x Hx]&Hroot&Hp). exists r. split.
  - exists x. apply Hm. split; [|done]. intros s. by rewrite edge_abs.
  - by apply rtc_has_edge.
Qed.
(*P C11_leaves *)
Lemma p11l σ g :
  reachable isz g → legal σ →
  ∃ m g', call isz σ OpGetLeaves g = Ok (RMap m, g') ∧
    exactly isz g (λ k, ∀ t, ¬ has_edge isz g k t) m ∧
    (∀ v, known isz g v → ∃ l, is_Some (m !! l) ∧ rtc (has_edge isz g) v l).
Proof.
  intros Hr Hσ. destruct (reach_call σ OpGetLeaves g Hr Hσ) as (r&g'&Hc&Hg&_&_&m&->&Hm).
  exists m, g'. split; [done|].
  assert (exactly isz g (λ k, ∀ t, ¬ has_edge isz g k t) m) as Hex.
  { apply exactly_abs; [done|]. eapply selects_iff; [|done]. intros k.
    by setoid_rewrite (λ t, has_edge_abs isz g k t Hg). }
  split; [done|]. intros v Hv%known_abs; [|done]. apply elem_of_dom in Hv.
  destruct (below_leaf g v Hg Hv) as (l&[x Hx]&Hleaf&Hp). exists l. split.
  - exists x. apply Hm. split; [|done]. intros t. by rewrite edge_abs.
  - by apply rtc_has_edge.
Qed.

(*P C12_order_and_size *)
Lemma p12 σ g :
  reachable isz g → legal σ →
  ∃ vs es g1 g2,
    call isz σ OpGetOrder g = Ok (RInt (length vs), g1) ∧
    call isz σ OpGetSize g = Ok (RInt (length es), g2) ∧
    NoDup vs ∧ (∀ k, k ∈ vs ↔ known isz g k) ∧
    NoDup es ∧ (∀ s t, (s, t) ∈ es ↔ has_edge isz g s t).
Proof.
  intros Hr Hσ. destruct (reach_call σ OpGetOrder g Hr Hσ) as (r1&g1&Hc1&Hg&_&_&->).
  destruct (reach_call σ OpGetSize g Hr Hσ) as (r2&g2&Hc2&_&_&_&->).
  exists (elements (dom (av (abs g)))), (elements (ae (abs g))), g1, g2. split_and!.
  - rewrite Hc1. do 3 f_equal. change (length (elements ?X)) with (size X). by rewrite size_dom.
  - done.
  - apply NoDup_elements.
  - intros k. by rewrite elem_of_elements, known_abs.
  - apply NoDup_elements.
  - intros s t. by rewrite elem_of_elements, has_edge_abs.
Qed.

(*P C13_duality *)
Lemma p13 σ1 σ2 g a b ma md g1 g2 :
  reachable isz g → legal σ1 → legal σ2 →
  call isz σ1 (OpGetAncestors b) g = Ok (RMapErr (inr ma), g1) →
  call isz σ2 (OpGetDescendants a) g = Ok (RMapErr (inr md), g2) →
  is_Some (ma !! a) ↔ is_Some (md !! b).
Proof.
  intros Hr Hσ1 Hσ2 Hc1 Hc2.
  destruct (p04a σ1 g b Hr Hσ1) as (r1&g1'&Hc1'&H1). rewrite Hc1 in Hc1'. injection Hc1' as <- <-.
  destruct (p04d σ2 g a Hr Hσ2) as (r2&g2'&Hc2'&H2). rewrite Hc2 in Hc2'. injection Hc2' as <- <-.
  destruct H1 as [Hb H1], H2 as [Ha H2].
  assert (∀ v, first_violated (vertex_conditions isz g v) None → ¬ ¬ known isz g v) as Hkn.
  { intros v Hv. inversion Hv as [|? ? ? _|? ? ? ? _ Hv2]; subst. by inversion Hv2. }
  pose proof (reachable_inv isz g Hr) as Hg.
  assert (∀ v, first_violated (vertex_conditions isz g v) None → ∃ x, has_vertex isz g v x) as Hex.
  { intros v Hv. apply Hkn in Hv. rewrite known_abs in Hv by done.
    destruct (decide (v ∈ dom (av (abs g)))) as [Hin|]; [|done]. by apply (known_abs isz) in Hin. }
  destruct (Hex a Ha) as [xa Hxa], (Hex b Hb) as [xb Hxb].
  split; intros [x Hx].
  - apply H1 in Hx as [Hp _]. exists xb. by apply H2.
  - apply H2 in Hx as [Hp _]. exists xa. by apply H1.
Qed.

(*P C14_reduction_preserves_reachability *)
Lemma p14 σ g :
  reachable isz g → legal σ →
  ∃ g', call isz σ OpReduceTransitively g = Ok (RUnit, g') ∧
    (∀ k x, has_vertex isz g' k x ↔ has_vertex isz g k x) ∧
    (∀ s t, has_edge isz g' s t → has_edge isz g s t) ∧
    (∀ s t, tc (has_edge isz g') s t ↔ tc (has_edge isz g) s t) ∧
    (∀ o, (∃ v, o = OpGetAncestors v ∨ o = OpGetDescendants v) →
      ∀ σ1 σ2 r1 r2 g1 g2, legal σ1 → legal σ2 →
        call isz σ1 o g = Ok (r1, g1) → call isz σ2 o g' = Ok (r2, g2) → r1 = r2).
Proof.
  intros Hr Hσ. destruct (reach_call σ OpReduceTransitively g Hr Hσ) as (r&g'&Hc&Hg&Hg'&->&Hv&Hs&Hp&Hm).
  pose proof (reachable_call isz _ _ _ _ _ Hσ Hr Hc) as Hr'.
  exists g'. split_and!.
  - done.
  - intros. by rewrite !has_vertex_abs, Hv by done.
  - intros s t. rewrite !has_edge_abs by done. apply Hs.
  - intros. by rewrite !tc_has_edge by done.
  - intros o (v&Ho) σ1 σ2 r1 r2 g1 g2 Hσ1 Hσ2 Hc1 Hc2.
    destruct (reach_call_inv _ _ _ _ _ Hr Hσ1 Hc1) as (_&_&Hs1).
    destruct (reach_call_inv _ _ _ _ _ Hr' Hσ2 Hc2) as (_&_&Hs2).
    assert (vertex_err isz (abs g') v = vertex_err isz (abs g) v) as Hve.
    { unfold vertex_err. by rewrite Hv. }
    assert (∀ P Q m, (∀ k, P k ↔ Q k) → selects (abs g') P m → selects (abs g) Q m) as Hsel.
    { intros P Q m HPQ Hsel k x. rewrite (Hsel k x), Hv. by rewrite HPQ. }
    destruct Ho as [-> | ->]; cbn [spec_step] in Hs1, Hs2; destruct Hs1 as [_ Hs1], Hs2 as [_ Hs2];
      rewrite Hve in Hs2; (destruct (vertex_err _ _ _); [by subst|]);
      destruct Hs1 as (m1&->&H1), Hs2 as (m2&->&H2); do 2 f_equal;
      (eapply selects_unique; [done|]); (eapply Hsel; [|done]); intros k; apply Hp.
Qed.

(*P C15_reduction_minimal *)
Lemma p15 σ σ2 g g' g'' :
  reachable isz g → legal σ → legal σ2 →
  call isz σ OpReduceTransitively g = Ok (RUnit, g') →
  call isz σ2 OpReduceTransitively g' = Ok (RUnit, g'') →
  (∀ u v, has_edge isz g' u v →
     ¬ ∃ c, has_edge isz g' u c ∧ tc (has_edge isz g') c v) ∧
  (∀ R : relation K, (∀ x y, tc R x y ↔ tc (has_edge isz g) x y) →
     ∀ u v, has_edge isz g' u v → R u v) ∧
  (∀ u v, has_edge isz g'' u v ↔ has_edge isz g' u v).
Proof.
  intros Hr Hσ Hσ2 Hc Hc2.
  destruct (reach_call_inv _ _ _ _ _ Hr Hσ Hc) as (Hg&Hg'&_&Hv&Hs&Hp&Hm).
  pose proof (reachable_call isz _ _ _ _ _ Hσ Hr Hc) as Hr'.
  destruct (reach_call_inv _ _ _ _ _ Hr' Hσ2 Hc2) as (_&Hg''&_&Hv2&Hs2&Hp2&Hm2).
  assert (∀ u v, has_edge isz g' u v → ¬ ∃ c, has_edge isz g' u c ∧ tc (has_edge isz g') c v) as Hmin.
  { intros u v Huv (c&Huc&Hcv). rewrite has_edge_abs in Huv, Huc by done.
    rewrite tc_has_edge in Hcv by done. apply (Hm u v Huv). eauto. }
  assert (∀ R : relation K, (∀ x y, tc R x y ↔ tc (has_edge isz g) x y) →
     ∀ u v, has_edge isz g' u v → R u v) as Hnec.
  { intros R HR u v Huv. apply (irredundant_necessary (has_edge isz g') R u v); [|done|].
    - intros x y. rewrite HR, !tc_has_edge by done. symmetry. apply Hp.
    - intros (c&Huc&Hcv). apply (Hmin u v Huv). eauto. }
  split_and!; [done..|].
  intros u v. split.
  - rewrite !has_edge_abs by done. apply Hs2.
  - intros Huv. apply Hnec; [|done]. intros x y. rewrite !tc_has_edge by done.
    by rewrite Hp2, Hp.
Qed.

(*P C16_ordered_descendants *)
Lemma p16d σ g v :
  reachable isz g → legal σ →
  ∃ r g', call isz σ (OpGetOrderedDescendants v) g = Ok (RList r, g') ∧
    match r with
    | inl e => first_violated (vertex_conditions isz g v) (Some e)
    | inr l => first_violated (vertex_conditions isz g v) None ∧ bfs_order (has_edge isz g) v l
    end.
Proof.
  intros Hr Hσ. destruct (reach_call σ (OpGetOrderedDescendants v) g Hr Hσ) as (r&g'&Hc&Hg&Hg'&Ha&Hst).
  pose proof (vertex_err_fv isz g v Hg) as Hfv. unfold vertex_conditions.
  destruct (vertex_err _ _ _).
  - subst r. eexists _, g'. split; [done|]. done.
  - destruct Hst as (l&->&Hl). eexists _, g'. split; [done|]. split; [done|].
    eapply bfs_order_iff; [|done]. intros. symmetry. by apply has_edge_abs.
Qed.
(*P C16_ordered_ancestors *)
Lemma p16a σ g v :
  reachable isz g → legal σ →
  ∃ r g', call isz σ (OpGetOrderedAncestors v) g = Ok (RList r, g') ∧
    match r with
    | inl e => first_violated (vertex_conditions isz g v) (Some e)
    | inr l => first_violated (vertex_conditions isz g v) None ∧ bfs_order (flip (has_edge isz g)) v l
    end.
Proof.
  intros Hr Hσ. destruct (reach_call σ (OpGetOrderedAncestors v) g Hr Hσ) as (r&g'&Hc&Hg&Hg'&Ha&Hst).
  pose proof (vertex_err_fv isz g v Hg) as Hfv. unfold vertex_conditions.
  destruct (vertex_err _ _ _).
  - subst r. eexists _, g'. split; [done|]. done.
  - destruct Hst as (l&->&Hl). eexists _, g'. split; [done|]. split; [done|].
    eapply bfs_order_iff; [|done]. intros. symmetry. by apply has_edge_abs.
Qed.

(*P C20_no_panic *)
Lemma p20 σ (o : op K T) g :
  reachable isz g → legal σ → ∃ r g', call isz σ o g = Ok (r, g') ∧ reachable isz g'.
Proof.
  intros Hr Hσ. destruct (reach_call σ o g Hr Hσ) as (r&g'&Hc&_).
  exists r, g'. split; [done|]. by eapply reachable_call.
Qed.

(*P C21_iteration_order_irrelevant *)
Lemma p21 h g : reachable isz g → legal_pairs h → agree isz h g g.
Proof. intros Hr%reachable_inv Hh. by apply abs_agree. Qed.

(*P C22_queries_pure *)
Lemma p22 σ o g r g' h :
  reachable isz g → legal σ → legal_pairs h →
  mutating o = false → call isz σ o g = Ok (r, g') →
  agree isz h g' g ∧
  (∀ k x, has_vertex isz g' k x ↔ has_vertex isz g k x) ∧
  (∀ s t, has_edge isz g' s t ↔ has_edge isz g s t).
Proof.
  intros Hr Hσ Hh Ho Hc. destruct (reach_call_inv _ _ _ _ _ Hr Hσ Hc) as (Hg&Hg'&Hs).
  assert (abs g' = abs g) as Habs.
  { destruct o; try done; cbn [spec_step] in Hs; by destruct Hs. }
  split_and!.
  - by apply abs_agree.
  - intros. by rewrite !has_vertex_abs, Habs by done.
  - intros. by rewrite !has_edge_abs, Habs by done.
Qed.

(*P C24_string *)
Lemma p24 σ show g :
  reachable isz g → legal σ →
  ∃ vs es g',
    call isz σ (OpString show) g
      = Ok (RText (show_graph show (length vs) (length es) vs es), g') ∧
    NoDup vs ∧ (∀ k, k ∈ vs ↔ known isz g k) ∧
    NoDup es ∧ (∀ s t, (s, t) ∈ es ↔ has_edge isz g s t).
Proof.
  intros Hr Hσ. destruct (reach_call σ (OpString show) g Hr Hσ) as (r&g'&Hc&Hg&_&_&vs&es&Hvs&Hes&->).
  exists vs, es, g'. split_and!.
  - rewrite Hc. rewrite (Permutation_length Hvs), (Permutation_length Hes).
    change (length (elements ?X)) with (size X). by rewrite size_dom.
  - rewrite Hvs. apply NoDup_elements.
  - intros k. by rewrite Hvs, elem_of_elements, known_abs.
  - rewrite Hes. apply NoDup_elements.
  - intros s t. by rewrite Hes, elem_of_elements, has_edge_abs.
Qed.

End props.
