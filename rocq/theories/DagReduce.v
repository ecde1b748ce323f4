(** * ReduceTransitively computes the transitive reduction *)
From stdpp Require Import base list gmap relations.
From Verif Require Import GoBase SetModel DagModel DagSpec DagWp RelFacts DagInv DagOps DagMut.

Section reduce.
Context {K T : Type} `{Countable K} `{Inhabited T} (isz : K → bool).
Notation graph := (graph K T).
Implicit Types g : graph.
Notation inv := (inv isz).

(** Every vertex is below some root. *)
Lemma below_root g v :
  inv g → is_Some (vertices g !! v) →
  ∃ r, is_Some (vertices g !! r) ∧ (∀ s, ¬ E g s r) ∧ rtc (E g) r v.
Proof.
  intros Hg.
  assert (Acc (tc (E g)) v) as Hacc.
  { apply (acyclic_acc_flip (E g) (dom (vertices g))); [|apply Hg].
    intros x y Hxy. rewrite !elem_of_dom. by apply (inv_dom isz g Hg). }
  induction Hacc as [v _ IH]. intros Hv.
  destruct (decide (size (read (inboundEdges g) v) = 0)) as [Hz|Hz].
  - rewrite size_read in Hz. exists v. split_and!; [done| |constructor].
    intros s Hs. apply (inv_mirror isz g Hg) in Hs. by apply (Hz s).
  - destruct (map_to_list (read (inboundEdges g) v)) as [|[p x] l] eqn:Hl.
    { apply map_to_list_empty_iff in Hl. rewrite Hl in Hz. by rewrite map_size_empty in Hz. }
    assert (E g p v) as Hpv.
    { apply (inv_mirror isz g Hg). exists x. apply elem_of_map_to_list. rewrite Hl. left. }
    destruct (IH p) as (r&Hr&Hroot&Hrp).
    + by apply tc_once.
    + by apply (inv_dom isz g Hg) in Hpv as [? _].
    + exists r. split_and!; [done..|]. eapply rtc_r; eauto.
Qed.

Definition all_cached g : Prop :=
  ∀ v, is_Some (vertices g !! v) → is_Some (descendantsCache g !! v).

Lemma roots_loop_wp σ (roots : list K) g n :
  legal σ → inv g →
  (∀ r, r ∈ roots ↔ is_Some (vertices g !! r) ∧ ∀ s, ¬ E g s r) →
  wp (for_each roots (λ _ root, bind (descendantsOf isz σ root) (λ _, ret tt)) tt) g n
    (λ _ g' _, inv g' ∧ grows g g' ∧ all_cached g').
Proof.
  intros Hσ Hg Hroots.
  apply (wp_for_each _ _ (λ pre _ g' _, inv g' ∧ grows g g' ∧
    ∀ r, r ∈ pre → is_Some (descendantsCache g' !! r))).
  - intros pre x post _ g1 n1 Heq (Hg1&Hgr&Hpre).
    assert (is_Some (vertices g1 !! x)) as Hx.
    { destruct Hgr as (->&_). apply Hroots. rewrite Heq. set_solver. }
    apply wp_bind. eapply wp_mono; [by apply descendantsOf_wp|].
    intros r g2 n2 (Hg2&Hgr2&Hr). apply wp_ret. split_and!; [done|by eapply grows_trans|].
    apply (checkVertexID_None isz) in Hx; [|done]. rewrite Hx in Hr. destruct Hr as (s&->&Hs).
    intros k [Hk|Hk%elem_of_list_singleton]%elem_of_app.
    + destruct (Hpre k Hk) as [s' Hs']. exists s'. destruct Hgr2 as (_&_&_&_&Hsub).
      by eapply lookup_weaken.
    + subst k. by eexists.
  - split_and!; [done|apply grows_refl|set_solver].
  - intros _ g1 n1 (Hg1&Hgr&Hr). split_and!; [done..|].
    intros v Hv. pose proof Hgr as (Hvs&_). rewrite Hvs in Hv.
    destruct (below_root g v Hg Hv) as (r&Hrv&Hroot&Hpath).
    assert (is_Some (descendantsCache g1 !! r)) as Hrc by (by apply Hr, Hroots).
    clear Hrv Hroot Hv. induction Hpath as [|x y z Hxy Hyz IH]; [done|].
    apply IH. eapply (proj2 (inv_desc isz g1 Hg1)); [done|]. by apply (grows_E g g1).
Qed.

Lemma all_cached_read g v w :
  inv g → all_cached g → is_Some (vertices g !! v) →
  mem w (read (descendantsCache g) v) ↔ tc (E g) v w.
Proof.
  intros Hg Hall Hv. destruct (Hall v Hv) as [s Hs]. unfold read. rewrite Hs. simpl.
  by apply (proj1 (inv_desc isz g Hg)) in Hs as (_&_&?).
Qed.

Lemma redundant_dec g u v : inv g → all_cached g → Decision (redundant (E g) u v).
Proof.
  intros Hg Hall.
  refine (cast_if (decide (Exists (λ c, mem v (read (descendantsCache g) c))
    (keys (read (outboundEdges g) u))))).
  all: rewrite Exists_exists in *; unfold keys, redundant in *.
  all: setoid_rewrite map_keys_elem in e || setoid_rewrite map_keys_elem in n.
  - destruct e as (c&Hc&Hv). exists c. split; [done|]. eapply all_cached_read in Hv; [done..|].
    by apply (inv_dom isz g Hg u c) in Hc as [_ ?].
  - intros (c&Hc&Hv). apply n. exists c. split; [done|]. apply all_cached_read; [done..| |done].
    by apply (inv_dom isz g Hg u c) in Hc as [_ ?].
Qed.

(** The edges and caches of [g'], relative to those of [g], when the edges in [P]
    have been deleted. *)
Definition minus g (P : K → K → Prop) g' : Prop :=
  vertices g' = vertices g ∧ descendantsCache g' = descendantsCache g ∧
  ancestorsCache g' = ancestorsCache g ∧
  wfsets (inboundEdges g') ∧ wfsets (outboundEdges g') ∧
  (∀ u v, E g' u v ↔ E g u v ∧ ¬ P u v) ∧
  (∀ u v, adj (inboundEdges g') v u ↔ adj (inboundEdges g) v u ∧ ¬ P u v).
Lemma minus_iff g (P P' : K → K → Prop) g' :
  inv g → (∀ u v, E g u v → P u v ↔ P' u v) → minus g P g' → minus g P' g'.
Proof.
  intros Hg HP (?&?&?&?&?&HE&HI). split_and!; try done.
  - intros u v. rewrite HE. naive_solver.
  - intros u v. rewrite HI, <-(inv_mirror isz g Hg). fold (E g u v). naive_solver.
Qed.

Lemma inner_loop_wp (σ : schedule K) (cd : goset K) id g g0 n b ks (P : K → K → Prop) :
  legal σ → inv g → minus g P g0 → (∀ v, ¬ P id v) → (∀ c, c ∈ ks ↔ E g id c) →
  wp (for_each ks (λ graphChanged childID,
      if set_includes cd childID then
        bind (modify (set_outbound (alter (set_delete childID) id))) (λ _,
        bind (modify (set_inbound (alter (set_delete id) childID))) (λ _,
        ret true))
      else ret graphChanged) b) g0 n
    (λ b' g' _, minus g (λ u v, P u v ∨ (u = id ∧ mem v cd)) g' ∧
       (b' = false → b = false ∧ ∀ c, E g id c → ¬ mem c cd)).
Proof.
  intros Hσ Hg Hg0 HPid Hks.
  apply (wp_for_each _ _ (λ pre b' g' _,
    minus g (λ u v, P u v ∨ (u = id ∧ v ∈ pre ∧ mem v cd)) g' ∧
    (b' = false → b = false ∧ ∀ c, c ∈ pre → ¬ mem c cd))).
  - intros pre x post b' g1 n1 Heq (Hm&Hb).
    destruct (set_includes cd x) eqn:Hx.
    + apply set_includes_true in Hx.
      apply wp_bind, wp_modify, wp_bind, wp_modify, wp_ret. split; [|done].
      destruct Hm as (?&?&?&?&?&HE&HI). split_and!; simpl; try done.
      * by apply wfsets_alter_delete.
      * by apply wfsets_alter_delete.
      * intros u v. unfold E at 1. simpl. rewrite adj_alter_delete. fold (E g1 u v).
        rewrite HE, elem_of_app, elem_of_list_singleton. naive_solver.
      * intros u v. simpl. rewrite adj_alter_delete, HI, elem_of_app, elem_of_list_singleton.
        naive_solver.
    + apply set_includes_false in Hx. apply wp_ret. split.
      * eapply minus_iff; [done| |done]. intros u v _. simpl.
        rewrite elem_of_app, elem_of_list_singleton. naive_solver.
      * intros [-> Hpre]%Hb. split; [done|].
        intros c. rewrite elem_of_app, elem_of_list_singleton. naive_solver.
  - split.
    + eapply minus_iff; [done| |done]. intros u v _. simpl. set_solver.
    + intros ->. split; [done|]. set_solver.
  - intros b' g1 n1 (Hm&Hb). split.
    + eapply minus_iff; [done| |done]. intros u v Huv. simpl.
      split; [naive_solver|]. intros [?|[-> ?]]; [by left|right]. by rewrite Hks.
    + intros [-> Hpre]%Hb. split; [done|]. intros c Hc. apply Hpre. by apply Hks.
Qed.

Lemma ReduceTransitively_wp σ g n :
  legal σ → inv g →
  wp (ReduceTransitively isz σ) g n (λ _ g' _, inv g' ∧ vertices g' = vertices g ∧
    (∀ u v, E g' u v ↔ E g u v ∧ ¬ redundant (E g) u v) ∧
    (∀ u v, tc (E g') u v ↔ tc (E g) u v)).
Proof.
  intros Hσ Hg. apply wp_bind. apply (GetRoots_wp isz); [done..|]. intros roots n1 Hroots.
  apply wp_bind, wp_range; [done|]. intros rs Hrs.
  apply wp_bind. eapply wp_mono.
  { apply roots_loop_wp; [done..|]. intros r. rewrite Hrs, map_keys_elem.
    split.
    - intros [x Hx]. apply Hroots in Hx as [? Hx]. split; [by eexists|done].
    - intros [[x Hx] ?]. exists x. by apply Hroots. }
  intros _ g1 n2 (Hg1&Hgr&Hall).
  apply wp_bind, wp_get, wp_bind, wp_range; [done|]. intros ids Hids.
  assert (∀ k, k ∈ ids ↔ is_Some (vertices g1 !! k)) as Hids'.
  { intros k. rewrite Hids. apply map_keys_elem. }
  assert (NoDup ids) as Hnd. { rewrite Hids. apply NoDup_keys. }
  apply wp_bind.
  apply (wp_for_each _ _ (λ pre b g' _,
    minus g1 (λ u v, u ∈ pre ∧ redundant (E g1) u v) g' ∧
    (b = false → ∀ u v, u ∈ pre → E g1 u v → ¬ redundant (E g1) u v))).
  - intros pre id post b g2 n3 Heq (Hm&Hb).
    assert (id ∉ pre) as Hidpre.
    { rewrite Heq in Hnd. apply NoDup_app in Hnd as (_&Hnd&_). intros Hpre.
      by apply (Hnd id Hpre); left. }
    pose proof Hm as (Hv2&Hd2&Ha2&Hwi&Hwo&HE2&HI2).
    assert (∀ c, E g2 id c ↔ E g1 id c) as HEid. { intros c. rewrite HE2. naive_solver. }
    apply wp_bind, wp_get, wp_bind, range_mem; [done|]. intros ks Hks Hks'.
    apply wp_bind.
    eapply (wp_mono _ _ _ (λ cd g' _, g' = g2 ∧
      ∀ w, mem w cd ↔ ∃ c, E g1 id c ∧ tc (E g1) c w)).
    { apply (wp_for_each _ _ (λ cpre cd g' _, g' = g2 ∧
        ∀ w, mem w cd ↔ ∃ c, c ∈ cpre ∧ E g1 id c ∧ tc (E g1) c w)).
      - intros cpre c cpost cd g' n4 Heqc [-> Hcd].
        assert (E g1 id c) as Hc. { apply HEid, Hks'. rewrite Heqc. set_solver. }
        apply wp_bind, wp_get, wp_bind, range_mem; [done|]. intros ds Hds Hds'.
        apply wp_ret. split; [done|]. intros w. rewrite mem_foldl_add, Hds', Hcd, Hd2.
        rewrite (all_cached_read g1 c w); [|done..|by apply (inv_dom isz g1 Hg1) in Hc as [_ ?]].
        split.
        + intros [Hw|(c'&?&?&?)]; [exists c|exists c']; set_solver.
        + intros (c'&Hc'&?&?). apply elem_of_app in Hc' as [Hc'|Hc'%elem_of_list_singleton].
          * right. eauto.
          * subst c'. by left.
      - split; [done|]. intros w. split; [by intros ?%mem_empty|set_solver].
      - intros cd g' n4 [-> Hcd]. split; [done|]. intros w. rewrite Hcd. split.
        + naive_solver.
        + intros (c&Hc&Hw). exists c. split_and!; [|done..]. by apply Hks', HEid. }
    intros cd g' n4 [-> Hcd].
    apply wp_bind, wp_get, wp_bind, range_mem; [done|]. intros ks2 Hks2 Hks2'.
    eapply wp_mono; [eapply inner_loop_wp; [done..| |]|].
    + naive_solver.
    + intros c. rewrite Hks2'. apply HEid.
    + intros b' g3 n5 [Hm3 Hb3]. split.
      * eapply minus_iff; [done| |done]. intros u v Huv. simpl.
        rewrite elem_of_app, elem_of_list_singleton, Hcd. unfold redundant. naive_solver.
      * intros [-> Hno]%Hb3 u v [Hu|Hu%elem_of_list_singleton]%elem_of_app Huv.
        -- by apply Hb.
        -- subst u. intros Hred. apply (Hno v Huv). by apply Hcd.
  - split.
    + split_and!; try done; try apply Hg1; naive_solver set_solver.
    + set_solver.
  - intros b g2 n3 (Hm&Hb). 
    assert (∀ u v, E g1 u v ↔ E g u v) as HE1. { intros. by apply grows_E. }
    assert (∀ u v, redundant (E g1) u v ↔ redundant (E g) u v) as Hred1.
    { intros u v. unfold redundant. setoid_rewrite HE1.
      by setoid_rewrite (λ c, tc_iff (E g1) (E g) c v HE1). }
    assert (minus g1 (redundant (E g1)) g2) as Hm2.
    { eapply minus_iff; [done| |done]. intros u v Huv. simpl.
      split; [naive_solver|]. intros ?. split; [|done]. apply Hids'.
      by apply (inv_dom isz g1 Hg1) in Huv as [? _]. }
    pose proof Hm2 as (Hv2&Hd2&Ha2&Hwi&Hwo&HE2&HI2).
    assert (∀ u v, tc (E g2) u v ↔ tc (E g1) u v) as Htc.
    { intros u v. split.
      - apply tc_mono. intros x y. rewrite HE2. naive_solver.
      - apply (reduction_closure (E g1) (E g2) (dom (vertices g1))).
        + intros x y Hxy. rewrite !elem_of_dom. by apply (inv_dom isz g1 Hg1).
        + apply Hg1.
        + intros x y Hxy. destruct (redundant_dec g1 x y Hg1 Hall); [by right|left].
          by apply HE2. }
    assert (∀ g3, vertices g3 = vertices g2 → inboundEdges g3 = inboundEdges g2 →
      outboundEdges g3 = outboundEdges g2 →
      cache_ok (E g3) (vertices g3) (descendantsCache g3) →
      cache_ok (flip (E g3)) (vertices g3) (ancestorsCache g3) →
      inv g3 ∧ vertices g3 = vertices g ∧
      (∀ u v, E g3 u v ↔ E g u v ∧ ¬ redundant (E g) u v) ∧
      (∀ u v, tc (E g3) u v ↔ tc (E g) u v)) as Hfinal.
    { intros g3 Hv3 Hi3 Ho3 Hc1 Hc2.
      assert (∀ u v, E g3 u v ↔ E g1 u v ∧ ¬ redundant (E g1) u v) as HE3.
      { intros u v. unfold E at 1. rewrite Ho3. apply HE2. }
      assert (∀ u v, tc (E g3) u v ↔ tc (E g1) u v) as Htc3.
      { intros u v. rewrite <-Htc. unfold E at 1. by rewrite Ho3. }
      split_and!.
      - split; try done.
        + by rewrite Hi3.
        + by rewrite Ho3.
        + intros u v. fold (E g3 u v). rewrite HE3, Hi3, HI2. unfold E at 1.
          by rewrite (inv_mirror isz g1 Hg1).
        + intros u v [Huv _]%HE3. rewrite Hv3, Hv2. by apply (inv_dom isz g1 Hg1).
        + intros v. rewrite Hv3, Hv2. apply Hg1.
        + intros v. rewrite Htc3. apply Hg1.
      - rewrite Hv3, Hv2. apply Hgr.
      - intros u v. by rewrite HE3, HE1, Hred1.
      - intros u v. rewrite Htc3. by apply tc_iff. }
    destruct b.
    + apply wp_modify. by apply Hfinal.
    + apply wp_ret. 
      assert (∀ u v, E g2 u v ↔ E g1 u v) as Hsame.
      { intros u v. rewrite HE2. split; [naive_solver|]. intros Huv. split; [done|].
        apply Hb; [done| |done]. apply Hids'. by apply (inv_dom isz g1 Hg1) in Huv as [? _]. }
      apply Hfinal; try done.
      * rewrite Hv2, Hd2. eapply cache_ok_proper; [|apply Hg1]. intros. symmetry. apply Hsame.
      * rewrite Hv2, Ha2. eapply cache_ok_proper; [|apply Hg1]. intros. unfold flip. symmetry. apply Hsame.
Qed.

Lemma ReduceTransitively_ok σ :
  refines (T:=T) isz σ OpReduceTransitively (ReduceTransitively isz σ) (λ _, RUnit).
Proof.
  intros g n Hσ Hg. eapply wp_mono; [by apply ReduceTransitively_wp|].
  intros _ g' n' (Hg'&Hv&HE&Htc). split; [done|]. split; [done|]. split_and!.
  - done.
  - intros [u v]. rewrite !ae_abs, HE. naive_solver.
  - intros u v. by rewrite !path_abs.
  - intros u v Huv (c&Huc&Hcv). rewrite edge_abs, HE in Huv, Huc. rewrite path_abs, Htc in Hcv.
    apply (proj2 Huv). exists c. naive_solver.
Qed.

End reduce.
