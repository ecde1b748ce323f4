(** * Calls that undo each other, and calls whose order does not matter *)
From stdpp Require Import base list gmap relations sorting strings.
From Verif Require Import GoBase SetModel DagModel DagSpec DagObs RelFacts DagInv DagOps DagRefine DagPropProofs DagBuild.

Section undo.
Context {K T : Type} `{Countable K} `{Inhabited T} (isz : K → bool).
Notation graph := (graph K T).
Implicit Types (g : graph) (a : agraph K T).

Lemma agraph_eq (a b : agraph K T) : av a = av b → ae a = ae b → a = b.
Proof. destruct a, b. simpl. by intros -> ->. Qed.
Lemma edge_err_av (a b : agraph K T) s t : av a = av b → edge_err isz a s t = edge_err isz b s t.
Proof. unfold edge_err. by intros ->. Qed.
Lemma add_edge_inv a s t a' :
  spec_step isz a (OpAddEdge s t) (RErr None) a' →
  edge_err isz a s t = None ∧ (s, t) ∉ ae a ∧ ¬ path a t s ∧ a' = AGraph (av a) ({[(s, t)]} ∪ ae a).
Proof.
  cbn [spec_step]. destruct (edge_err isz a s t); [by intros [? _]|].
  destruct (decide _); [by intros [? _]|]. intros [(_&?&_)|(?&_&->)]; [done|]. done.
Qed.
Lemma add_edge_ok a s t r a' :
  edge_err isz a s t = None → (s, t) ∉ ae a → ¬ path a t s →
  spec_step isz a (OpAddEdge s t) r a' → r = RErr None ∧ a' = AGraph (av a) ({[(s, t)]} ∪ ae a).
Proof.
  intros He Hn Hp. cbn [spec_step]. rewrite He, decide_False by done. intros [(?&_)|(_&->&->)]; done.
Qed.
Lemma path_sub (a b : agraph K T) x y : ae a ⊆ ae b → path a x y → path b x y.
Proof. intros Hsub. apply tc_mono. intros u v. apply Hsub. Qed.

Lemma abs_acyclic g v : inv isz g → ¬ path (abs g) v v.
Proof.
  intros Hg Hp. apply (inv_acyclic isz g Hg v). revert Hp. apply tc_mono. intros x y. by apply edge_abs.
Qed.

(*P C103_add_edge_undone *)
Lemma add_edge_undone σ1 σ2 g g1 s t :
  reachable isz g → legal σ1 → legal σ2 → call isz σ1 (OpAddEdge s t) g = Ok (RErr None, g1) →
  ∃ g2, call isz σ2 (OpDeleteEdge s t) g1 = Ok (RErr None, g2) ∧ ∀ h, legal_pairs h → agree isz h g g2.
Proof.
  intros Hr H1 H2 Hc. pose proof (reachable_call isz _ _ _ _ _ H1 Hr Hc) as Hr1.
  destruct (reach_call_inv isz _ _ _ _ _ Hr H1 Hc) as (Hg&Hg1&(He&Hn&Hp&Ha)%add_edge_inv).
  destruct (reach_call isz σ2 (OpDeleteEdge s t) g1 Hr1 H2) as (r&g2&Hc2&_&Hg2&Hs).
  cbn [spec_step] in Hs. rewrite (edge_err_av _ (abs g)), He in Hs by (by rewrite Ha).
  rewrite Ha in Hs. cbn [ae av] in Hs. rewrite decide_True in Hs by set_solver. destruct Hs as [-> Ha2].
  exists g2. split; [done|]. intros h Hh. apply abs_agree; [done..|]. rewrite Ha2.
  apply agraph_eq; cbn [ae av]; [done|set_solver].
Qed.

(*P C103_delete_edge_undone *)
Lemma delete_edge_undone σ1 σ2 g g1 s t :
  reachable isz g → legal σ1 → legal σ2 → call isz σ1 (OpDeleteEdge s t) g = Ok (RErr None, g1) →
  ∃ g2, call isz σ2 (OpAddEdge s t) g1 = Ok (RErr None, g2) ∧ ∀ h, legal_pairs h → agree isz h g g2.
Proof.
  intros Hr H1 H2 Hc. pose proof (reachable_call isz _ _ _ _ _ H1 Hr Hc) as Hr1.
  destruct (reach_call_inv isz _ _ _ _ _ Hr H1 Hc) as (Hg&Hg1&Hs). cbn [spec_step] in Hs.
  destruct (edge_err isz (abs g) s t) eqn:He; [by destruct Hs as [? _]|].
  destruct (decide ((s, t) ∈ ae (abs g))) as [Hst|]; [|by destruct Hs as [? _]]. destruct Hs as [_ Ha].
  destruct (reach_call isz σ2 (OpAddEdge s t) g1 Hr1 H2) as (r&g2&Hc2&_&Hg2&Hs).
  apply add_edge_ok in Hs as [-> Ha2].
  - exists g2. split; [done|]. intros h Hh. apply abs_agree; [done..|]. rewrite Ha2, Ha.
    apply agraph_eq; cbn [ae av]; [done|]. apply set_eq. intros e. destruct (decide (e = (s, t))); set_solver.
  - by rewrite (edge_err_av _ (abs g)) by (by rewrite Ha).
  - rewrite Ha. cbn [ae]. set_solver.
  - intros Hp. apply (path_sub _ (abs g)) in Hp; [|rewrite Ha; cbn [ae]; set_solver].
    apply (abs_acyclic g s Hg). apply tc_l with t; [exact Hst|exact Hp].
Qed.

(*P C103_add_vertex_undone *)
Lemma add_vertex_undone σ1 σ2 g g1 v x :
  reachable isz g → legal σ1 → legal σ2 → call isz σ1 (OpAddVertex v x) g = Ok (RErr None, g1) →
  ∃ g2, call isz σ2 (OpDeleteVertex v) g1 = Ok (RErr None, g2) ∧ ∀ h, legal_pairs h → agree isz h g g2.
Proof.
  intros Hr H1 H2 Hc. pose proof (reachable_call isz _ _ _ _ _ H1 Hr Hc) as Hr1.
  destruct (reach_call_inv isz _ _ _ _ _ Hr H1 Hc) as (Hg&Hg1&Hs). cbn [spec_step first_err] in Hs.
  destruct (isz v) eqn:Hz; [by destruct Hs as [? _]|].
  case_bool_decide as Hv; [by destruct Hs as [? _]|]. destruct Hs as [_ Ha].
  destruct (reach_call isz σ2 (OpDeleteVertex v) g1 Hr1 H2) as (r&g2&Hc2&_&Hg2&Hs).
  cbn [spec_step] in Hs. unfold vertex_err in Hs. cbn [first_err] in Hs. rewrite Hz in Hs.
  rewrite bool_decide_eq_false_2 in Hs by (rewrite Ha; cbn [av]; set_solver). destruct Hs as [-> Ha2].
  exists g2. split; [done|]. intros h Hh. apply abs_agree; [done..|]. rewrite Ha2, Ha.
  apply agraph_eq; cbn [ae av].
  - rewrite delete_insert; [done|]. by apply not_elem_of_dom.
  - apply set_eq. intros [s t]. rewrite elem_of_filter. simpl. split; [|naive_solver].
    intros Hst. split; [|done]. change (edge (abs g) s t) in Hst.
    apply edge_abs, (inv_dom isz g Hg) in Hst as [[??] [??]].
    split; intros ->; apply Hv, elem_of_dom; eauto.
Qed.

(*P C103_edges_in_any_order *)
Lemma edges_in_any_order σ1 σ2 σ3 σ4 g g1 g2 s t u v :
  reachable isz g → legal σ1 → legal σ2 → legal σ3 → legal σ4 →
  call isz σ1 (OpAddEdge s t) g = Ok (RErr None, g1) →
  call isz σ2 (OpAddEdge u v) g1 = Ok (RErr None, g2) →
  ∃ g3 g4, call isz σ3 (OpAddEdge u v) g = Ok (RErr None, g3) ∧
    call isz σ4 (OpAddEdge s t) g3 = Ok (RErr None, g4) ∧ ∀ h, legal_pairs h → agree isz h g2 g4.
Proof.
  intros Hr H1 H2 H3 H4 Hc1 Hc2. pose proof (reachable_call isz _ _ _ _ _ H1 Hr Hc1) as Hr1.
  destruct (reach_call_inv isz _ _ _ _ _ Hr H1 Hc1) as (Hg&Hg1&(He1&Hn1&Hp1&Ha1)%add_edge_inv).
  destruct (reach_call_inv isz _ _ _ _ _ Hr1 H2 Hc2) as (_&Hg2&(He2&Hn2&Hp2&Ha2)%add_edge_inv).
  rewrite Ha1 in Hn2. cbn [ae] in Hn2.
  destruct (reach_call isz σ3 (OpAddEdge u v) g Hr H3) as (r3&g3&Hc3&_&Hg3&Hs3).
  apply add_edge_ok in Hs3 as [-> Ha3].
  2: by rewrite (edge_err_av _ (abs g1)) by (by rewrite Ha1).
  2: set_solver.
  2: { intros Hp. apply Hp2. revert Hp. apply path_sub. rewrite Ha1. cbn [ae]. set_solver. }
  pose proof (reachable_call isz _ _ _ _ _ H3 Hr Hc3) as Hr3.
  destruct (reach_call isz σ4 (OpAddEdge s t) g3 Hr3 H4) as (r4&g4&Hc4&_&Hg4&Hs4).
  apply add_edge_ok in Hs4 as [-> Ha4].
  - exists g3, g4. split_and!; [done..|]. intros h Hh. apply abs_agree; [done..|]. rewrite Ha2, Ha4, Ha1, Ha3.
    apply agraph_eq; cbn [ae av]; [done|]. set_solver.
  - by rewrite (edge_err_av _ (abs g)) by (by rewrite Ha3).
  - rewrite Ha3. cbn [ae]. set_solver.
  - intros Hp. apply (abs_acyclic g2 s Hg2). apply tc_l with t.
    + rewrite Ha2, Ha1. unfold edge. cbn [ae]. set_solver.
    + revert Hp. apply path_sub. rewrite Ha3, Ha2, Ha1. cbn [ae]. set_solver.
Qed.
End undo.
