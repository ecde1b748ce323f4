(** * The breadth-first walks *)
From stdpp Require Import base list gmap relations sorting.
From Verif Require Import GoBase SetModel DagModel DagSpec DagWp RelFacts DagInv DagOps DagMut.

Lemma StronglySorted_app {A} (R : relation A) l1 l2 :
  StronglySorted R (l1 ++ l2) ↔
  (∀ a b, a ∈ l1 → b ∈ l2 → R a b) ∧ StronglySorted R l1 ∧ StronglySorted R l2.
Proof.
  split.
  - intros Hs. split_and!.
    + intros a b Ha Hb. by eapply elem_of_StronglySorted_app.
    + by eapply StronglySorted_app_inv_l.
    + by eapply StronglySorted_app_inv_r.
  - intros (Hx&H1&H2). induction H1 as [|a l1 H1 IH Ha]; [done|].
    simpl. constructor.
    + apply IH. set_solver.
    + apply Forall_app. split; [done|]. apply Forall_forall. set_solver.
Qed.

Section bfs.
Context {A : Type} `{EqDecision A} (R : relation A) (x : A).
Notation dist := (dist R x).

Lemma dist_unique y d d' : dist y d → dist y d' → d = d'.
Proof.
  intros (H1&H2&H3) (H1'&H2'&H3'). specialize (H3 d' H1' H2'). specialize (H3' d H1 H2). lia.
Qed.
Lemma dist_tc y d : dist y d → tc R x y.
Proof. intros (?&?&_). apply tc_nsteps. eauto. Qed.

Definition nearer (y z : A) : Prop := ∀ d e, dist y d → dist z e → d ≤ e.

Record bfs_inv (sent fifo : list A) : Prop := {
  bfs_nodup : NoDup (sent ++ fifo);
  bfs_reach : ∀ y, y ∈ sent ++ fifo → ∃ d, dist y d;
  bfs_sorted : StronglySorted nearer (sent ++ fifo);
  bfs_window : ∀ top fifo', fifo = top :: fifo' →
    ∀ y d e, y ∈ sent ++ fifo → dist top d → dist y e → e ≤ S d;
  bfs_first : ∀ y, R x y → y ∈ sent ++ fifo;
  bfs_closed : ∀ u w, u ∈ sent → R u w → w ∈ sent ++ fifo
}.

Lemma bfs_no_shortcut sent top fifo d :
  bfs_inv sent (top :: fifo) → dist top d →
  ∀ m w, 0 < m → m ≤ d → nsteps R m x w → w ∈ sent ++ top :: fifo.
Proof.
  intros Hinv Hd. induction m as [|m IH]; intros w Hm Hmd Hw; [lia|].
  destruct (decide (m = 0)) as [->|Hm0].
  { apply (bfs_first _ _ Hinv). by apply nsteps_once_inv. }
  apply nsteps_inv_r in Hw as (u&Hu&Huw).
  assert (u ∈ sent ++ top :: fifo) as HuL by (apply IH; [lia..|done]).
  destruct (bfs_reach _ _ Hinv u HuL) as [e He].
  assert (e ≤ m) as Hem by (apply He; [lia|done]).
  apply elem_of_app in HuL as [HuS|HuF].
  - by apply (bfs_closed _ _ Hinv u).
  - exfalso. assert (d ≤ e); [|lia].
    apply elem_of_cons in HuF as [->|HuF]; [by rewrite (dist_unique _ _ _ Hd He)|].
    pose proof (bfs_sorted _ _ Hinv) as Hs.
    apply StronglySorted_app in Hs as (_&_&Hs).
    apply StronglySorted_inv in Hs as [_ Hs].
    rewrite Forall_forall in Hs. by eapply Hs.
Qed.

Lemma bfs_step sent top fifo new :
  bfs_inv sent (top :: fifo) →
  NoDup new →
  (∀ w, w ∈ new ↔ R top w ∧ w ∉ sent ++ top :: fifo) →
  bfs_inv (sent ++ [top]) (fifo ++ new).
Proof.
  intros Hinv Hnd Hnew.
  assert ((sent ++ [top]) ++ fifo ++ new = (sent ++ top :: fifo) ++ new) as HL.
  { by rewrite <-!(assoc_L (++)). }
  destruct (bfs_reach _ _ Hinv top) as [d Hd]; [set_solver|].
  assert (∀ w, w ∈ new → dist w (S d)) as Hdnew.
  { intros w [Hw HwL]%Hnew. split_and!; [lia| |].
    - apply nsteps_r with top; [apply Hd|done].
    - intros m Hm Hxw. destruct (decide (m ≤ d)); [|lia]. exfalso. apply HwL.
      by eapply bfs_no_shortcut. }
  assert (∀ y e, y ∈ sent ++ top :: fifo → dist y e → e ≤ S d) as Hwin.
  { intros y e Hy He. by eapply (bfs_window _ _ Hinv). }
  split; rewrite ?HL.
  - apply NoDup_app. split_and!; [apply Hinv| |done].
    intros w Hw Hw'. by apply Hnew in Hw' as [_ ?].
  - intros y [Hy|Hy]%elem_of_app; [by apply Hinv|eauto].
  - apply StronglySorted_app. split_and!.
    + intros a b Ha Hb da db Hda Hdb.
      assert (db = S d) as -> by (eapply dist_unique; [done|by apply Hdnew]). eauto.
    + apply Hinv.
    + clear - Hdnew. induction new as [|w new IH]; constructor.
      * apply IH. set_solver.
      * apply Forall_forall. intros w' Hw' a b Ha Hb.
        assert (a = S d) as -> by (eapply dist_unique; [done|apply Hdnew; set_solver]).
        assert (b = S d) as -> by (eapply dist_unique; [done|apply Hdnew; set_solver]).
        done.
  - intros top' fifo' Heq y d' e Hy Hd' He.
    assert (d ≤ d').
    { assert (top' ∈ fifo ∨ top' ∈ new) as [Ht|Ht].
      { apply elem_of_app. rewrite Heq. set_solver. }
      - pose proof (bfs_sorted _ _ Hinv) as Hs.
        apply StronglySorted_app in Hs as (_&_&Hs).
        apply StronglySorted_inv in Hs as [_ Hs].
        rewrite Forall_forall in Hs. by eapply Hs.
      - assert (d' = S d) as -> by (eapply dist_unique; [done|by apply Hdnew]). lia. }
    apply elem_of_app in Hy as [Hy|Hy].
    + specialize (Hwin y e Hy He). lia.
    + assert (e = S d) as -> by (eapply dist_unique; [done|by apply Hdnew]). lia.
  - intros y Hy. apply elem_of_app. left. by apply Hinv.
  - intros u w [Hu|Hu%elem_of_list_singleton]%elem_of_app Huw; rewrite elem_of_app.
    + left. by eapply (bfs_closed _ _ Hinv).
    + subst u. destruct (decide (w ∈ sent ++ top :: fifo)) as [?|?]; [by left|right].
      by apply Hnew.
Qed.

Lemma bfs_init new :
  NoDup new → (∀ w, w ∈ new ↔ R x w) → bfs_inv [] new.
Proof.
  intros Hnd Hnew.
  assert (∀ w, w ∈ new → dist w 1) as Hd.
  { intros w Hw. split_and!; [lia|apply nsteps_once; by apply Hnew|lia]. }
  split; simpl.
  - done.
  - eauto.
  - clear - Hd. induction new as [|w new IH]; constructor.
    + apply IH. set_solver.
    + apply Forall_forall. intros w' Hw' a b Ha Hb.
      assert (a = 1) as -> by (eapply dist_unique; [done|apply Hd; set_solver]).
      assert (b = 1) as -> by (eapply dist_unique; [done|apply Hd; set_solver]).
      done.
  - intros top fifo' -> y d e Hy Hd' He.
    assert (d = 1) as -> by (eapply dist_unique; [done|apply Hd; set_solver]).
    assert (e = 1) as -> by (eapply dist_unique; [done|apply Hd; set_solver]).
    lia.
  - intros y. apply Hnew.
  - set_solver.
Qed.

Lemma bfs_done sent : bfs_inv sent [] → bfs_order R x sent.
Proof.
  intros Hinv. split_and!.
  - pose proof (bfs_nodup _ _ Hinv). by rewrite app_nil_r in *.
  - intros y. split.
    + intros Hy. destruct (bfs_reach _ _ Hinv y) as [d Hd]; [by rewrite app_nil_r|].
      by eapply dist_tc.
    + assert (∀ u w, u ∈ sent → R u w → w ∈ sent) as Hcl.
      { intros u w Hu Huw. pose proof (bfs_closed _ _ Hinv u w Hu Huw). by rewrite app_nil_r in *. }
      intros Hxy. apply tc_first in Hxy as (z&Hxz&Hzy).
      pose proof (bfs_first _ _ Hinv z Hxz) as Hz. rewrite app_nil_r in Hz. clear Hxz.
      induction Hzy; eauto.
  - pose proof (bfs_reach _ _ Hinv) as Hr. pose proof (bfs_sorted _ _ Hinv) as Hs.
    rewrite app_nil_r in Hr, Hs. clear Hinv.
    induction Hs as [|y l Hl IH Hy].
    { exists []. split; constructor. }
    destruct IH as (ds&Hds&Hsort); [set_solver|].
    destruct (Hr y) as [d Hd]; [set_solver|].
    exists (d :: ds). split; [by constructor|].
    constructor; [done|]. destruct Hds as [|z e l ds Hze Hds]; constructor.
    rewrite Forall_cons in Hy. by apply Hy.
Qed.

End bfs.

Section walk.
Context {K T : Type} `{Countable K} `{Inhabited T} (isz : K → bool).
Notation graph := (graph K T).
Implicit Types g : graph.

Lemma foldl_enqueue (ks fifo : list K) (visited : goset K) :
  NoDup ks →
  ∃ new visited', foldl enqueue (fifo, visited) ks = (fifo ++ new, visited') ∧
    NoDup new ∧ (∀ w, w ∈ new ↔ w ∈ ks ∧ ¬ mem w visited) ∧
    (∀ w, mem w visited' ↔ w ∈ ks ∨ mem w visited).
Proof.
  intros Hks. revert fifo visited. induction Hks as [|k ks Hk Hks IH]; intros fifo visited.
  { exists [], visited. rewrite app_nil_r. split; [done|]. split; [constructor|]. set_solver. }
  cbn [foldl enqueue]. destruct (set_includes visited k) eqn:Hv.
  - apply set_includes_true in Hv.
    destruct (IH fifo visited) as (new&visited'&->&Hnd&Hnew&Hvis).
    exists new, visited'. split_and!; [done..| |].
    + intros w. rewrite Hnew, elem_of_cons. naive_solver.
    + intros w. rewrite Hvis, elem_of_cons. naive_solver.
  - apply set_includes_false in Hv.
    destruct (IH (fifo ++ [k]) (set_add k visited)) as (new&visited'&->&Hnd&Hnew&Hvis).
    exists (k :: new), visited'. split_and!.
    + by rewrite <-(assoc_L (++)).
    + constructor; [|done]. rewrite Hnew. naive_solver.
    + intros w. rewrite !elem_of_cons, Hnew, mem_add. naive_solver.
    + intros w. rewrite Hvis, mem_add, elem_of_cons. naive_solver.
Qed.
Lemma foldl_enqueue_first (ks : list K) :
  ∃ visited, foldl enqueue_first ([], ∅) ks = (ks, visited) ∧ ∀ w, mem w visited ↔ w ∈ ks.
Proof.
  assert (∀ fifo visited, (∀ w, mem w visited ↔ w ∈ fifo) →
    ∃ visited', foldl enqueue_first (fifo, visited) ks = (fifo ++ ks, visited') ∧
      ∀ w, mem w visited' ↔ w ∈ fifo ++ ks) as Hgen.
  { induction ks as [|k ks IH]; intros fifo visited Hv; cbn [foldl enqueue_first].
    - exists visited. by rewrite app_nil_r.
    - destruct (IH (fifo ++ [k]) (set_add k visited)) as (v'&->&Hv').
      + intros w. rewrite mem_add, Hv. set_solver.
      + exists v'. rewrite <-(assoc_L (++)) in *. done. }
  apply (Hgen [] ∅). intros w. split; [by intros ?%mem_empty|by intros ?%elem_of_nil].
Qed.

Lemma walkDescendantsLoop_wp σ fuel fifo visited sent id g n :
  legal σ → inv isz g →
  bfs_inv (E g) id sent fifo → (∀ w, mem w visited ↔ w ∈ sent ++ fifo) →
  size (vertices g) < fuel + length sent →
  wp (walkDescendantsLoop σ fuel fifo visited sent) g n (λ l g' _, g' = g ∧ bfs_order (E g) id l).
Proof.
  intros Hσ Hg. revert fifo visited sent n.
  induction fuel as [|fuel IH]; intros fifo visited sent n Hinv Hvis Hf.
  { exfalso.
    assert (length sent ≤ size (vertices g)); [|lia].
    rewrite <-(size_list_to_set (C:=gset K)).
    2: { pose proof (bfs_nodup _ _ _ _ Hinv) as Hnd. by apply NoDup_app in Hnd as [? _]. }
    rewrite <-(size_dom (D:=gset K)). apply subseteq_size. intros y Hy.
    rewrite elem_of_list_to_set in Hy. apply elem_of_dom.
    destruct (bfs_reach _ _ _ _ Hinv y) as [d Hd]; [set_solver|].
    apply dist_tc in Hd. by apply (tc_dom isz) in Hd as [_ ?]. }
  cbn [walkDescendantsLoop]. destruct fifo as [|top fifo].
  { apply wp_ret. split; [done|]. by apply bfs_done. }
  apply wp_bind, wp_get, wp_bind, range_mem; [done|]. intros ks Hks Hks'.
  destruct (foldl_enqueue ks fifo visited Hks) as (new&visited'&->&Hnd&Hnew&Hvis').
  apply IH.
  - apply bfs_step; [done..|]. intros w. rewrite Hnew, Hks', Hvis. done.
  - intros w. rewrite Hvis', Hvis.
    assert (w ∈ new ↔ w ∈ ks ∧ w ∉ sent ++ top :: fifo) as Hw by (by rewrite Hnew, Hvis).
    rewrite !elem_of_app, !elem_of_cons in *.
    destruct (decide (w ∈ sent ∨ w = top ∨ w ∈ fifo)); set_solver.
  - rewrite app_length. simpl. lia.
Qed.

Lemma walkDescendants_wp σ id g n :
  legal σ → inv isz g →
  wp (walkDescendants σ id) g n (λ l g' _, g' = g ∧ bfs_order (E g) id l).
Proof.
  intros Hσ Hg. apply wp_bind, wp_get, wp_bind, range_mem; [done|]. intros ks Hks Hks'.
  destruct (foldl_enqueue_first ks) as (visited&->&Hvis).
  apply walkDescendantsLoop_wp; [done..| |done|].
  - apply bfs_init; [done|]. intros w. by rewrite Hks'.
  - unfold fuel_of. simpl. lia.
Qed.

Lemma walkAncestorsLoop_flip σ fuel fifo visited sent g n :
  walkAncestorsLoop σ fuel fifo visited sent g n =
  flipr (walkDescendantsLoop σ fuel fifo visited sent (flipg g) n).
Proof.
  revert fifo visited sent n. induction fuel as [|fuel IH]; intros fifo visited sent n; [done|].
  cbn [walkAncestorsLoop walkDescendantsLoop]. destruct fifo as [|top fifo]; [by destruct g|].
  rewrite !bind_get, !bind_range. change (outboundEdges (flipg g)) with (inboundEdges g).
  destruct (foldl _ _ _) as [fifo' visited']. apply IH.
Qed.
Lemma walkAncestors_flip σ id g n :
  walkAncestors σ id g n = flipr (walkDescendants σ id (flipg g) n).
Proof.
  unfold walkAncestors, walkDescendants.
  rewrite !bind_get, !bind_range. change (outboundEdges (flipg g)) with (inboundEdges g).
  destruct (foldl _ _ _) as [fifo' visited']. apply walkAncestorsLoop_flip.
Qed.

Lemma dist_iff {A} (R R' : relation A) x y d :
  (∀ x y, R x y ↔ R' x y) → dist R x y d → dist R' x y d.
Proof.
  intros HR (?&Hs&Hm).
  assert (∀ n x y, nsteps R n x y ↔ nsteps R' n x y) as Hn.
  { clear -HR. intros n. induction n as [|n IH]; intros x y.
    - split; inversion 1; constructor.
    - split; inversion 1; subst; econstructor; naive_solver. }
  split_and!; [done|by apply Hn|]. intros m ??. apply Hm; [done|]. by apply Hn.
Qed.
Lemma bfs_order_iff {A} (R R' : relation A) x l :
  (∀ x y, R x y ↔ R' x y) → bfs_order R x l → bfs_order R' x l.
Proof.
  intros HR (Hnd&Hl&ds&Hds&Hs). split_and!; [done| |].
  - intros y. rewrite Hl. by apply tc_iff.
  - exists ds. split; [|done]. eapply Forall2_impl; [done|]. intros. by eapply dist_iff.
Qed.
Lemma walkAncestors_wp σ id g n :
  legal σ → inv isz g →
  wp (walkAncestors σ id) g n (λ l g' _, g' = g ∧ bfs_order (flip (E g)) id l).
Proof.
  intros Hσ Hg. unfold wp. rewrite walkAncestors_flip.
  pose proof (walkDescendants_wp σ id (flipg g) n Hσ (inv_flipg isz g Hg)) as Hwp.
  unfold wp in Hwp.
  destruct (walkDescendants σ id (flipg g) n) as [[[l g'] n']| |]; simpl; [|done..].
  destruct Hwp as [-> Hl]. split; [apply flipg_flipg|].
  eapply bfs_order_iff; [|done]. intros y z. by apply (E_flipg isz).
Qed.

Lemma GetOrderedDescendants_ok σ id :
  refines (T:=T) isz σ (OpGetOrderedDescendants id) (GetOrderedDescendants isz σ id) RList.
Proof.
  intros g n Hσ Hg. apply wp_bind, wp_get. unfold spec_step. rewrite vertex_err_abs.
  destruct (checkVertexID isz g id) eqn:Hc; [by apply wp_ret|].
  apply wp_bind. eapply wp_mono; [by apply walkDescendants_wp|].
  intros l g' n' [-> Hl]. apply wp_ret. split; [done|]. split; [done|]. exists l. split; [done|].
  eapply bfs_order_iff; [|done]. intros. symmetry. apply edge_abs.
Qed.
Lemma GetOrderedAncestors_ok σ id :
  refines (T:=T) isz σ (OpGetOrderedAncestors id) (GetOrderedAncestors isz σ id) RList.
Proof.
  intros g n Hσ Hg. apply wp_bind, wp_get. unfold spec_step. rewrite vertex_err_abs.
  destruct (checkVertexID isz g id) eqn:Hc; [by apply wp_ret|].
  apply wp_bind. eapply wp_mono; [by apply walkAncestors_wp|].
  intros l g' n' [-> Hl]. apply wp_ret. split; [done|]. split; [done|]. exists l. split; [done|].
  eapply bfs_order_iff; [|done]. intros. symmetry. apply edge_abs.
Qed.

End walk.
