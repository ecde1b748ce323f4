(** * Every acyclic graph can be built, and only its vertices and edges matter *)
From stdpp Require Import base list gmap relations sorting strings.
From Coq Require Import Lia.
From Verif Require Import GoBase SetModel DagModel DagSpec DagObs RelFacts DagInv DagOps DagRefine DagPropProofs DagExample.

Section build.
Context {K T : Type} `{Countable K} `{Inhabited T} (isz : K → bool).
Notation graph := (graph K T).
Implicit Types (g : graph) (a : agraph K T).

Definition add_vertex (x : K * T) : op K T := OpAddVertex x.1 x.2.
Definition add_edge (e : K * K) : op K T := OpAddEdge e.1 e.2.

Lemma tc_sub (R R' : relation K) x y : (∀ x y, R x y → R' x y) → tc R x y → tc R' x y.
Proof. intros HR Hxy. induction Hxy as [x y Hxy|x y z Hxy _ IH]; [by apply tc_once, HR|]. eapply tc_l; [by apply HR|done]. Qed.
Lemma spec_run_nil_inv a outs a' : spec_run isz a [] outs a' → outs = [] ∧ a' = a.
Proof. by inversion 1. Qed.
Lemma spec_run_cons_inv a o os outs a'' :
  spec_run isz a (o :: os) outs a'' →
  ∃ r rs a', outs = r :: rs ∧ spec_step isz a o r a' ∧ spec_run isz a' os rs a''.
Proof. inversion 1; subst. eauto 10. Qed.

Lemma spec_edges a es outs a' :
  NoDup es → (∀ e, e ∈ es → e ∉ ae a) →
  (∀ s t, (s, t) ∈ es → isz s = false ∧ isz t = false ∧ s ∈ dom (av a) ∧ t ∈ dom (av a)) →
  (∀ v, ¬ tc (λ s t, (s, t) ∈ es ∨ edge a s t) v v) →
  spec_run isz a (map add_edge es) outs a' →
  outs = map (λ _, RErr None) es ∧ a' = AGraph (av a) (list_to_set es ∪ ae a).
Proof.
  intros Hnd. revert a outs. induction Hnd as [|[s t] es Hst Hnd IH]; intros a outs Hnew Hdom Hac Hrun.
  { apply spec_run_nil_inv in Hrun as [-> ->]. split; [done|]. destruct a as [V E0]. cbn [av ae]. f_equal. set_solver. }
  apply spec_run_cons_inv in Hrun as (r&rs&a1&->&Hs&Hrun').
  destruct (Hdom s t) as (Hzs&Hzt&Hs1&Ht1); [set_solver|].
  assert (s ≠ t) as Hne by (intros ->; apply (Hac t), tc_once; set_solver).
  unfold add_edge in Hs. cbn [spec_step fst snd] in Hs.
  replace (edge_err isz a s t) with (None (A:=err)) in Hs.
  2: { unfold edge_err, first_err. rewrite Hzs, Hzt.
       rewrite (bool_decide_eq_false_2 (s = t)) by done.
       rewrite (bool_decide_eq_false_2 (s ∉ _)) by (by intros Hn; apply Hn).
       by rewrite (bool_decide_eq_false_2 (t ∉ _)) by (by intros Hn; apply Hn). }
  rewrite decide_False in Hs by (apply Hnew; set_solver).
  destruct Hs as [(Hp&_)|(_&->&->)].
  { exfalso. apply (Hac s). apply tc_l with t; [left; set_solver|].
    eapply tc_sub; [|exact Hp]. by right. }
  apply IH in Hrun' as [-> ->].
  - split; [done|]. cbn [av ae]. f_equal. set_solver.
  - cbn [ae]. intros e He. specialize (Hnew e). set_solver.
  - cbn [av]. intros s' t' He. apply Hdom. set_solver.
  - intros v Hv. apply (Hac v). eapply tc_sub; [|exact Hv].
    intros x y. unfold edge. cbn [ae]. set_solver.
Qed.
Lemma spec_vertices a vs outs a' :
  NoDup vs.*1 → (∀ k, k ∈ vs.*1 → isz k = false ∧ k ∉ dom (av a)) →
  spec_run isz a (map add_vertex vs) outs a' →
  outs = map (λ _, RErr None) vs ∧ a' = AGraph (list_to_map vs ∪ av a) (ae a).
Proof.
  revert a outs. induction vs as [|[k x] vs IH]; intros a outs Hnd Hk Hrun.
  { apply spec_run_nil_inv in Hrun as [-> ->]. split; [done|]. destruct a as [V E0]. cbn [av ae list_to_map foldr].
    by rewrite (left_id_L ∅ _). }
  apply spec_run_cons_inv in Hrun as (r&rs&a1&->&Hs&Hrun').
  rewrite fmap_cons in Hnd, Hk. apply NoDup_cons in Hnd as [Hkn Hnd]. cbn [fst] in *.
  destruct (Hk k) as [Hz Hkd]; [set_solver|].
  unfold add_vertex in Hs. cbn [spec_step fst snd first_err] in Hs.
  rewrite Hz, (bool_decide_eq_false_2 (k ∈ _)) in Hs by done. destruct Hs as [-> ->].
  apply IH in Hrun' as [-> ->].
  - split; [done|]. cbn [av ae list_to_map foldr]. f_equal. cbn [fst snd].
    change (foldr _ ∅ vs) with (list_to_map (M:=gmap K T) vs).
    rewrite <-insert_union_r by (by apply not_elem_of_list_to_map_1). by rewrite insert_union_l.
  - done.
  - cbn [av]. intros k' Hk'. rewrite dom_insert. destruct (Hk k') as [??]; set_solver.
Qed.

Lemma spec_run_app_inv a os1 os2 outs a'' :
  spec_run isz a (os1 ++ os2) outs a'' →
  ∃ r1 r2 a', outs = r1 ++ r2 ∧ spec_run isz a os1 r1 a' ∧ spec_run isz a' os2 r2 a''.
Proof.
  revert a outs. induction os1 as [|o os1 IH]; intros a outs Hr.
  { exists [], outs, a. split_and!; [done|constructor|done]. }
  apply spec_run_cons_inv in Hr as (r&rs&a1&->&Hs&Hr).
  destruct (IH a1 rs Hr) as (r1&r2&a2&->&?&?). exists (r :: r1), r2, a2.
  split_and!; [done|econstructor; eauto|done].
Qed.

(*P C99_can_be_built *)
(** Add the vertices, then the edges, in any order and with any iteration orders. *)
Lemma can_be_built (vs : list (K * T)) (es : list (K * K)) (h : list (schedule K * op K T)) :
  NoDup vs.*1 → (∀ k, k ∈ vs.*1 → isz k = false) →
  NoDup es → (∀ s t, (s, t) ∈ es → s ∈ vs.*1 ∧ t ∈ vs.*1) →
  (∀ v, ¬ tc (λ s t, (s, t) ∈ es) v v) →
  legal_history h →
  map snd h = map (λ x, OpAddVertex x.1 x.2) vs ++ map (λ e, OpAddEdge e.1 e.2) es →
  ∃ outs g, run isz h NewAcyclicGraph = Ok (outs, g) ∧ Forall (λ r, r = RErr None) outs ∧
    (∀ k x, has_vertex isz g k x ↔ (k, x) ∈ vs) ∧ (∀ s t, has_edge isz g s t ↔ (s, t) ∈ es).
Proof.
  intros Hnv Hz Hne Hdom Hac Hh Heq.
  destruct (p03 isz h Hh) as (outs&g&a&Hrun&Hspec&HV&HE). rewrite Heq in Hspec.
  apply spec_run_app_inv in Hspec as (r1&r2&a1&->&H1&H2).
  apply spec_vertices in H1 as [-> ->]; [|done|].
  2: { intros k Hk. split; [by apply Hz|]. simpl. set_solver. }
  cbn [av ae empty_graph] in H2. rewrite (right_id_L ∅ _) in H2.
  assert (∀ k, k ∈ vs.*1 → k ∈ dom (list_to_map vs : gmap K T)) as Hin.
  { intros k Hk. rewrite dom_list_to_map_L. by apply elem_of_list_to_set. }
  apply spec_edges in H2 as [-> ->]; [|done|set_solver| |].
  2: { intros s t Hst. destruct (Hdom s t Hst). cbn [av]. auto. }
  2: { intros v Hv. apply (Hac v). eapply tc_iff; [|exact Hv]. unfold edge. cbn [ae]. set_solver. }
  exists (map (λ _, RErr None) vs ++ map (λ _, RErr None) es), g. split_and!; [done| | |].
  - apply Forall_app. split; apply Forall_map, Forall_true; done.
  - intros k x. rewrite HV. cbn [av]. by rewrite elem_of_list_to_map.
  - intros s t. rewrite HE. cbn [ae]. set_solver.
Qed.

(*P C99_nothing_else_matters *)
(** The order of the calls that built a graph, what has been deleted and what is cached
    make no difference. *)
Lemma nothing_else_matters g1 g2 h :
  reachable isz g1 → reachable isz g2 →
  (∀ k x, has_vertex isz g1 k x ↔ has_vertex isz g2 k x) →
  (∀ s t, has_edge isz g1 s t ↔ has_edge isz g2 s t) →
  legal_pairs h → agree isz h g1 g2.
Proof.
  intros Hr1%reachable_inv Hr2%reachable_inv HV HE Hh. apply abs_agree; [done..|].
  assert (av (abs g1) = av (abs g2)) as HVeq.
  { apply map_eq. intros k. apply option_eq. intros x. rewrite <-!(has_vertex_abs isz) by done. apply HV. }
  assert (ae (abs g1) = ae (abs g2)) as HEeq.
  { apply set_eq. intros [s t]. change (edge (abs g1) s t ↔ edge (abs g2) s t).
    rewrite <-!(has_edge_abs isz) by done. apply HE. }
  destruct (abs g1), (abs g2). simpl in *. by subst.
Qed.
End build.
