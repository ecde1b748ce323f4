(** * The transitive reduction is a canonical form *)
From stdpp Require Import base list gmap relations sorting strings.
From Verif Require Import GoBase SetModel DagModel DagSpec DagObs RelFacts DagInv DagOps DagRefine DagPropProofs DagBuild.

Section canon.
Context {K T : Type} `{Countable K} `{Inhabited T} (isz : K → bool).
Notation graph := (graph K T).
Implicit Types (g : graph).

Lemma tc_first {A} (R : relation A) x y : tc R x y → ∃ c, R x c ∧ (c = y ∨ tc R c y).
Proof. destruct 1 as [x y Hxy|x c y Hxc Hcy]; eauto. Qed.

(*P C102_which_edges_stay *)
Lemma which_edges_stay σ g g' u v :
  reachable isz g → legal σ → call isz σ OpReduceTransitively g = Ok (RUnit, g') →
  (has_edge isz g' u v ↔ tc (has_edge isz g) u v ∧ ¬ ∃ c, tc (has_edge isz g) u c ∧ tc (has_edge isz g) c v) ∧
  (has_edge isz g' u v ↔ has_edge isz g u v ∧ ¬ ∃ c, has_edge isz g u c ∧ tc (has_edge isz g) c v).
Proof.
  intros Hr Hσ Hc. pose proof (reachable_call isz _ _ _ _ _ Hσ Hr Hc) as Hr'.
  destruct (p14 isz σ g Hr Hσ) as (g1&Hc1&_&Hsub&Htc&_). rewrite Hc in Hc1. injection Hc1 as <-.
  destruct (p14 isz σ g' Hr' Hσ) as (g2&Hc2&_).
  destruct (p15 isz σ σ g g' g2 Hr Hσ Hσ Hc Hc2) as (Hmin&_&_).
  assert (has_edge isz g' u v ↔ tc (has_edge isz g) u v ∧ ¬ ∃ c, tc (has_edge isz g) u c ∧ tc (has_edge isz g) c v) as H1.
  { split.
    - intros Huv. split; [by apply Htc, tc_once|]. intros (c&Huc%Htc&Hcv%Htc).
      apply (Hmin u v Huv). apply tc_first in Huc as (c'&Hc'&[->|Hc'c]); [by exists c|].
      exists c'. split; [done|]. by trans c.
    - intros [Huv%Htc Hno]. apply tc_first in Huv as (c&Huc&[->|Hcv]); [done|]. exfalso. apply Hno.
      exists c. split; apply Htc; [by apply tc_once|done]. }
  split; [done|]. split.
  - intros Huv. split; [by apply Hsub|]. apply H1 in Huv as [_ Hno]. intros (c&Huc&Hcv).
    apply Hno. exists c. split; [by apply tc_once|done].
  - intros [Huv Hno]. apply H1. split; [by apply tc_once|]. intros (c&Huc&Hcv). apply Hno.
    apply tc_first in Huc as (c'&Hc'&[->|Hc'c]); [by exists c|]. exists c'. split; [done|]. by trans c.
Qed.

(*P C102_canonical_form *)
Lemma canonical_form σ1 σ2 g1 g2 g1' g2' :
  reachable isz g1 → reachable isz g2 → legal σ1 → legal σ2 →
  call isz σ1 OpReduceTransitively g1 = Ok (RUnit, g1') →
  call isz σ2 OpReduceTransitively g2 = Ok (RUnit, g2') →
  (∀ k x, has_vertex isz g1 k x ↔ has_vertex isz g2 k x) →
  (∀ s t, tc (has_edge isz g1) s t ↔ tc (has_edge isz g2) s t) ↔
  (∀ h, legal_pairs h → agree isz h g1' g2').
Proof.
  intros Hr1 Hr2 Hσ1 Hσ2 Hc1 Hc2 HV.
  pose proof (reachable_call isz _ _ _ _ _ Hσ1 Hr1 Hc1) as Hr1'.
  pose proof (reachable_call isz _ _ _ _ _ Hσ2 Hr2 Hc2) as Hr2'.
  destruct (p14 isz σ1 g1 Hr1 Hσ1) as (a1&Ha1&HV1&_&Htc1&_). rewrite Hc1 in Ha1. injection Ha1 as <-.
  destruct (p14 isz σ2 g2 Hr2 Hσ2) as (a2&Ha2&HV2&_&Htc2&_). rewrite Hc2 in Ha2. injection Ha2 as <-.
  split.
  - intros Htc h Hh. apply nothing_else_matters; [done..| | |done].
    + intros k x. by rewrite HV1, HV2.
    + intros s t.
      rewrite (proj1 (which_edges_stay σ1 g1 g1' s t Hr1 Hσ1 Hc1)), (proj1 (which_edges_stay σ2 g2 g2' s t Hr2 Hσ2 Hc2)).
      rewrite Htc. by setoid_rewrite Htc.
  - intros Hall s t. rewrite <-Htc1, <-Htc2. apply tc_iff. clear s t. intros s t.
    destruct (Hall [(any_order, any_order, OpIsEdge s t)]) as (r1&r2&b1&b2&Hb1&Hb2&Hsame&_).
    { constructor; [|constructor]. by split; intros n l. }
    simpl in Hsame. subst r2. unfold has_edge.
    revert Hb1 Hb2. unfold call, exec, mapM, bind, get, ret. simpl.
    intros [= <- <-] [= Heq <-]. rewrite Heq. split; intros [= ->]; done.
Qed.
End canon.
