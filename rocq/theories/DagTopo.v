(** * When the ordered queries list a vertex after those it depends on *)
From stdpp Require Import base list gmap relations sorting strings.
From Coq Require Import Lia.
From Verif Require Import GoBase SetModel DagModel DagSpec DagObs RelFacts DagWp DagInv DagOps DagMut DagBfs DagRefine DagPropProofs DagExample.

(** Whenever [R] leads from one element of [l] to another, the former comes first. *)
Definition in_order {A} (R : relation A) (l : list A) : Prop :=
  ∀ i j x y, l !! i = Some x → l !! j = Some y → R x y → i < j.
(** Every step from something at distance [n] leads to something at distance [n + 1]. *)
Definition layered {A} (R : relation A) (v : A) : Prop :=
  ∀ x y n, dist R v x n → R x y → dist R v y (S n).

(** ** Orders by distance *)
Section lists.
Context {A : Type} (R : relation A) (v : A).

Lemma bfs_le l i j x y n m :
  bfs_order R v l → l !! i = Some x → l !! j = Some y → dist R v x n → dist R v y m → i ≤ j → n ≤ m.
Proof.
  intros (_&_&ds&Hds&Hs) Hi Hj Hx Hy Hij.
  destruct (Forall2_lookup_l _ _ _ _ _ Hds Hi) as (n'&Hn&Hx').
  destruct (Forall2_lookup_l _ _ _ _ _ Hds Hj) as (m'&Hm&Hy').
  rewrite (dist_unique R v x n n'), (dist_unique R v y m m') by done.
  destruct (decide (i = j)) as [->|]; [by simplify_eq|].
  assert (StronglySorted le ds) as Hss by (apply Sorted_StronglySorted; [intros ???; lia|done]).
  rewrite <-(take_drop_middle ds i n' Hn) in Hss.
  apply StronglySorted_app in Hss as (_&_&Hss). apply StronglySorted_inv in Hss as [_ Hss].
  rewrite Forall_forall in Hss. apply Hss.
  apply elem_of_list_lookup. exists (j - S i). rewrite lookup_drop. by replace (S i + (j - S i)) with j by lia.
Qed.
Lemma bfs_dist l x : bfs_order R v l → x ∈ l → ∃ n, dist R v x n.
Proof.
  intros (_&_&ds&Hds&_) [i Hi]%elem_of_list_lookup.
  destruct (Forall2_lookup_l _ _ _ _ _ Hds Hi) as (n&_&?). eauto.
Qed.
Lemma bfs_layered l : bfs_order R v l → layered R v → in_order R l.
Proof.
  intros Hl HR i j x y Hi Hj Hxy.
  destruct (bfs_dist l x Hl) as [n Hn]; [by eapply elem_of_list_lookup_2|].
  destruct (decide (i < j)) as [|Hij]; [done|]. exfalso.
  pose proof (HR x y n Hn Hxy) as Hy.
  pose proof (bfs_le l j i y x (S n) n Hl Hj Hi Hy Hn). lia.
Qed.

(** A shortest path to [w]. *)
Record shortest (w : A) (n : nat) (P : list A) : Prop := {
  sh_first : ∃ p, p ∈ P ∧ R v p;
  sh_next : ∀ p d, p ∈ P → dist R v p d → p = w ∨ ∃ p', p' ∈ P ∧ R p p' ∧ dist R v p' (S d);
  sh_last : ∀ p, p ∈ P → dist R v p n → p = w;
  sh_dist : ∀ p, p ∈ P → ∃ d, d ≤ n ∧ dist R v p d
}.
Lemma shortest_exists n w : dist R v w n → ∃ P, shortest w n P.
Proof.
  revert w. induction n as [|n IH]; intros w Hw; [destruct Hw; lia|].
  destruct (decide (n = 0)) as [->|Hn].
  { exists [w]. split.
    - exists w. split; [set_solver|]. by apply nsteps_once_inv, Hw.
    - intros p d ->%elem_of_list_singleton _. by left.
    - by intros p ->%elem_of_list_singleton.
    - intros p ->%elem_of_list_singleton. eauto. }
  destruct Hw as (H0&Hs&Hmin). pose proof Hs as Hs'. apply nsteps_inv_r in Hs' as (u&Hu&Huw).
  assert (dist R v u n) as Hdu.
  { split_and!; [lia|done|]. intros m Hm Hvu.
    assert (S n ≤ S m); [|lia]. apply Hmin; [lia|]. by eapply nsteps_r. }
  destruct (IH u Hdu) as [P HP]. exists (P ++ [w]). split.
  - destruct (sh_first _ _ _ HP) as (p&?&?). exists p. set_solver.
  - intros p d [Hp| ->%elem_of_list_singleton]%elem_of_app Hd; [|by left]. right.
    destruct (sh_next _ _ _ HP p d Hp Hd) as [->|(p'&?&?&?)].
    + exists w. assert (d = n) as -> by (by eapply dist_unique).
      split_and!; [set_solver|done|by split_and!..].
    + exists p'. split_and!; [set_solver|done..].
  - intros p [Hp| ->%elem_of_list_singleton]%elem_of_app Hd; [|done]. exfalso.
    destruct (sh_dist _ _ _ HP p Hp) as (d&?&Hd').
    assert (S n = d) by (by eapply dist_unique). lia.
  - intros p [Hp| ->%elem_of_list_singleton]%elem_of_app.
    + destruct (sh_dist _ _ _ HP p Hp) as (d&?&Hd'). exists d. split; [lia|done].
    + exists (S n). split; [done|]. by split_and!.
Qed.

(** The first element at each distance is on the path. *)
Definition led (P : list A) (n : nat) (L : list A) : Prop :=
  ∀ j y d, L !! j = Some y → dist R v y d → d ≤ n →
    ∃ i p, i ≤ j ∧ L !! i = Some p ∧ p ∈ P ∧ dist R v p d.
End lists.

(** ** A schedule that visits the elements of a path first *)
Section prefer.
Context {A : Type} `{EqDecision A}.

Definition prefer (P : list A) : schedule A := λ _ l, filter (.∈ P) l ++ filter (.∉ P) l.
Lemma prefer_legal P : legal (prefer P).
Proof.
  intros n l. unfold prefer. induction l as [|a l IH]; [done|]. rewrite !filter_cons.
  destruct (decide (a ∈ P)) as [Ha|Ha].
  - rewrite (decide_False (P:=a ∉ P)) by (intros Hn; by apply Hn). simpl. by rewrite IH.
  - rewrite (decide_True (P:=a ∉ P)) by done. by rewrite <-Permutation_middle, IH.
Qed.
Lemma prefer_sublist P n ks new p :
  new `sublist_of` prefer P n ks → p ∈ new → p ∈ P → ∃ q, new !! 0 = Some q ∧ q ∈ P.
Proof.
  unfold prefer. intros (n1&n2&->&H1&H2)%sublist_app_r [Hp|Hp]%elem_of_app HP.
  - destruct n1 as [|q n1]; [by apply elem_of_nil in Hp|]. exists q. split; [done|].
    assert (q ∈ filter (.∈ P) ks) as Hq by (eapply elem_of_submseteq; [|by apply sublist_submseteq]; set_solver).
    by apply elem_of_list_filter in Hq as [? _].
  - exfalso. assert (p ∈ filter (.∉ P) ks) as Hq by (by eapply elem_of_submseteq; [|by apply sublist_submseteq]).
    by apply elem_of_list_filter in Hq as [? _].
Qed.
End prefer.

Section walk.
Context {K T : Type} `{Countable K} `{Inhabited T} (isz : K → bool).
Notation graph := (graph K T).
Implicit Types g : graph.

Lemma foldl_enqueue_sublist (ks fifo : list K) (visited : goset K) new visited' :
  foldl enqueue (fifo, visited) ks = (fifo ++ new, visited') → new `sublist_of` ks.
Proof.
  assert (∃ new visited', foldl enqueue (fifo, visited) ks = (fifo ++ new, visited') ∧ new `sublist_of` ks)
    as (new0&v0&->&Hs).
  { revert fifo visited. induction ks as [|k ks IH]; intros fifo visited.
    { exists [], visited. by rewrite app_nil_r. }
    cbn [foldl enqueue]. destruct (set_includes visited k).
    - destruct (IH fifo visited) as (n0&v0&->&?). exists n0, v0. split; [done|]. by apply sublist_cons.
    - destruct (IH (fifo ++ [k]) (set_add k visited)) as (n0&v0&->&?). exists (k :: n0), v0.
      split; [by rewrite <-(assoc_L (++))|]. by apply sublist_skip. }
  intros Heq. assert (fifo ++ new0 = fifo ++ new) as ->%app_inv_head by congruence. done.
Qed.

Lemma led_step (R : relation K) v w n P sent top fifo new k ks :
  dist R v w n → shortest R v w n P →
  bfs_inv R v sent (top :: fifo) → led R v P n (sent ++ top :: fifo) →
  (∀ w, w ∈ new ↔ R top w ∧ w ∉ sent ++ top :: fifo) → new `sublist_of` prefer P k ks →
  led R v P n ((sent ++ [top]) ++ fifo ++ new).
Proof.
  intros Hw HP Hinv Hled Hnew Hsub.
  assert ((sent ++ [top]) ++ fifo ++ new = (sent ++ top :: fifo) ++ new) as ->.
  { by rewrite <-!(assoc_L (++)). }
  set (L := sent ++ top :: fifo) in *.
  assert (L !! length sent = Some top) as Htop by (unfold L; by rewrite list_lookup_middle).
  destruct (bfs_reach _ _ _ _ Hinv top) as [d0 Hd0]; [by eapply elem_of_list_lookup_2|].
  assert (∀ z, z ∈ new → dist R v z (S d0)) as Hdnew.
  { intros z [Hz HzL]%Hnew. split_and!; [lia| |].
    - apply nsteps_r with top; [apply Hd0|done].
    - intros m Hm Hxz. destruct (decide (m ≤ d0)); [|lia]. exfalso. apply HzL.
      eapply bfs_no_shortcut; [exact Hinv|exact Hd0|exact Hm|done|exact Hxz]. }
  intros j y d Hj Hd Hdn.
  apply lookup_app_Some in Hj as [Hj|[HjL Hj]].
  { destruct (Hled j y d Hj Hd Hdn) as (i&p&?&Hi&?&?). exists i, p. split_and!; [done| |done..].
    by apply lookup_app_l_Some. }
  assert (y ∈ new) as Hy by (by eapply elem_of_list_lookup_2).
  assert (d = S d0) as -> by (eapply dist_unique; [done|by apply Hdnew]).
  destruct (Hled (length sent) top d0 Htop Hd0 ltac:(lia)) as (i&p&Hi&Hip&HpP&Hpd).
  destruct (sh_next _ _ _ _ _ HP p d0 HpP Hpd) as [->|(p'&Hp'P&Hpp'&Hp'd)].
  { assert (d0 = n) by (by eapply dist_unique). lia. }
  destruct (decide (p' ∈ L)) as [[j' Hj']%elem_of_list_lookup|Hno].
  { destruct (Hled j' p' (S d0) Hj' Hp'd Hdn) as (i'&q&?&Hq&?&?).
    exists i', q. split_and!; [|by apply lookup_app_l_Some|done..].
    apply lookup_lt_Some in Hq. lia. }
  assert (p = top) as ->.
  { destruct (decide (i = length sent)) as [->|]; [congruence|]. exfalso. apply Hno.
    apply (bfs_closed _ _ _ _ Hinv p); [|done].
    unfold L in Hip. rewrite lookup_app_l in Hip by lia. by eapply elem_of_list_lookup_2. }
  destruct (prefer_sublist P k ks new p' Hsub) as (q&Hq&HqP); [by apply Hnew|done|].
  exists (length L), q. split_and!; [done| |done|].
  - rewrite lookup_app_r by done. by rewrite Nat.sub_diag.
  - apply Hdnew. by eapply elem_of_list_lookup_2.
Qed.

Lemma walkDescendantsLoop_led fuel fifo visited sent v w m P g n l g' n' :
  inv isz g → dist (E g) v w m → shortest (E g) v w m P →
  bfs_inv (E g) v sent fifo → led (E g) v P m (sent ++ fifo) → (∀ w, mem w visited ↔ w ∈ sent ++ fifo) →
  walkDescendantsLoop (prefer P) fuel fifo visited sent g n = Ok (l, g', n') → led (E g) v P m l.
Proof.
  intros Hg Hw HP. revert fifo visited sent n.
  induction fuel as [|fuel IH]; intros fifo visited sent n Hinv Hled Hvis; [done|].
  cbn [walkDescendantsLoop]. destruct fifo as [|top fifo].
  { rewrite app_nil_r in Hled. by intros [= <- _ _]. }
  rewrite bind_get, bind_range.
  set (ks := range_keys _ _ _).
  assert (ks ≡ₚ (map_to_list (read (outboundEdges g) top)).*1) as Hp by apply prefer_legal.
  assert (NoDup ks) as Hks by (rewrite Hp; apply NoDup_fst_map_to_list).
  assert (∀ k, k ∈ ks ↔ mem k (read (outboundEdges g) top)) as Hks'.
  { intros k. rewrite Hp. apply map_keys_elem. }
  destruct (foldl_enqueue isz ks fifo visited Hks) as (new&visited'&Heq&Hnd&Hnew&Hvis'). rewrite Heq.
  pose proof (foldl_enqueue_sublist _ _ _ _ _ Heq) as Hsub.
  apply IH.
  - apply bfs_step; [done..|]. intros z. rewrite Hnew, Hks', Hvis. done.
  - eapply (led_step (E g) v w m P sent top fifo new n); [done..| |exact Hsub]. intros z. rewrite Hnew, Hks', Hvis. done.
  - intros z. rewrite Hvis', Hvis.
    assert (z ∈ new ↔ z ∈ ks ∧ z ∉ sent ++ top :: fifo) as Hz by (by rewrite Hnew, Hvis).
    rewrite !elem_of_app, !elem_of_cons in *.
    destruct (decide (z ∈ sent ∨ z = top ∨ z ∈ fifo)); set_solver.
Qed.
Lemma walkDescendants_led v w m P g n l g' n' :
  inv isz g → dist (E g) v w m → shortest (E g) v w m P →
  walkDescendants (prefer P) v g n = Ok (l, g', n') → led (E g) v P m l.
Proof.
  intros Hg Hw HP. unfold walkDescendants. rewrite bind_get, bind_range.
  set (ks := range_keys _ _ _).
  assert (ks ≡ₚ (map_to_list (read (outboundEdges g) v)).*1) as Hp by apply prefer_legal.
  assert (NoDup ks) as Hks by (rewrite Hp; apply NoDup_fst_map_to_list).
  assert (∀ k, k ∈ ks ↔ E g v k) as Hks'.
  { intros k. rewrite Hp. apply map_keys_elem. }
  destruct (foldl_enqueue_first isz ks) as (visited&->&Hvis).
  assert (bfs_inv (E g) v [] ks) as Hinv by (by apply bfs_init).
  apply walkDescendantsLoop_led with w; [done..| |done]. simpl.
  intros j y d Hj Hd Hdm.
  assert (∀ z, z ∈ ks → dist (E g) v z 1) as H1.
  { intros z Hz. split_and!; [lia|apply nsteps_once; by apply Hks'|lia]. }
  assert (d = 1) as -> by (eapply dist_unique; [done|apply H1; by eapply elem_of_list_lookup_2]).
  destruct (sh_first _ _ _ _ _ HP) as (p&Hp1&Hp2).
  destruct (prefer_sublist P n (map_to_list (read (outboundEdges g) v)).*1 ks p) as (q&Hq&HqP);
    [done|by apply Hks'|done|].
  exists 0, q. split_and!; [lia|done..|]. apply H1. by eapply elem_of_list_lookup_2.
Qed.

Lemma has_edge_E g x y : inv isz g → has_edge isz g x y ↔ E g x y.
Proof. intros Hg. by rewrite has_edge_abs, edge_abs by done. Qed.
Lemma known_fv g v r : inv isz g → known isz g v → first_violated (vertex_conditions isz g v) r → r = None.
Proof.
  intros Hg Hv Hr. eapply first_violated_det; [exact Hr|].
  apply fv_next; [|apply fv_next; [naive_solver|apply fv_none]].
  apply known_abs in Hv; [|done]. apply elem_of_dom in Hv. by rewrite (inv_nonzero isz g Hg v Hv).
Qed.
Lemma led_first (R : relation K) v y m P l i j z :
  NoDup l → dist R v y m → shortest R v y m P → led R v P m l →
  l !! i = Some y → l !! j = Some z → dist R v z m → i ≤ j.
Proof.
  intros Hnd Hy HP Hled Hi Hj Hz.
  destruct (Hled j z m Hj Hz ltac:(lia)) as (k&p&Hk&Hp&HpP&Hpd).
  assert (p = y) as -> by (by eapply (sh_last _ _ _ _ _ HP)).
  assert (k = i) as <- by (by eapply NoDup_lookup). done.
Qed.

(*P C97_any_may_be_first_descendant *)
(** Of the vertices at the same distance each may come first. *)
Lemma any_first_d g v y m :
  reachable isz g → known isz g v → dist (has_edge isz g) v y m →
  ∃ σ l g', legal σ ∧ call isz σ (OpGetOrderedDescendants v) g = Ok (RList (inr l), g') ∧
    ∀ i j z, l !! i = Some y → l !! j = Some z → dist (has_edge isz g) v z m → i ≤ j.
Proof.
  intros Hr Hv Hy. pose proof (reachable_inv isz g Hr) as Hg.
  assert (∀ x y, has_edge isz g x y ↔ E g x y) as HE by (intros; by apply has_edge_E).
  pose proof (dist_iff _ _ _ _ _ HE Hy) as Hy'.
  destruct (shortest_exists _ _ _ _ Hy') as [P HP].
  destruct (p16d isz (prefer P) g v Hr (prefer_legal P)) as ([e|l]&g'&Hc&Hl).
  { by apply known_fv in Hl. }
  destruct Hl as [_ Hl]. exists (prefer P), l, g'. split_and!; [apply prefer_legal|done|].
  intros i j z Hi Hj Hz. eapply led_first; [apply Hl|exact Hy'|exact HP| |done..|by eapply dist_iff].
  revert Hc. unfold call, exec, mapM, GetOrderedDescendants, bind, get.
  destruct (checkVertexID isz g v); [done|]. unfold ret.
  destruct (walkDescendants (prefer P) v g 0) as [[[l' g1] n1]| |] eqn:Hw; [|done..].
  intros [= -> _]. by eapply walkDescendants_led.
Qed.
(*P C97_any_may_be_first_ancestor *)
Lemma any_first_a g v y m :
  reachable isz g → known isz g v → dist (flip (has_edge isz g)) v y m →
  ∃ σ l g', legal σ ∧ call isz σ (OpGetOrderedAncestors v) g = Ok (RList (inr l), g') ∧
    ∀ i j z, l !! i = Some y → l !! j = Some z → dist (flip (has_edge isz g)) v z m → i ≤ j.
Proof.
  intros Hr Hv Hy. pose proof (reachable_inv isz g Hr) as Hg.
  assert (∀ x y, flip (has_edge isz g) x y ↔ E (flipg g) x y) as HE.
  { intros x z. rewrite (E_flipg isz) by done. by apply has_edge_E. }
  pose proof (dist_iff _ _ _ _ _ HE Hy) as Hy'.
  destruct (shortest_exists _ _ _ _ Hy') as [P HP].
  destruct (p16a isz (prefer P) g v Hr (prefer_legal P)) as ([e|l]&g'&Hc&Hl).
  { by apply known_fv in Hl. }
  destruct Hl as [_ Hl]. exists (prefer P), l, g'. split_and!; [apply prefer_legal|done|].
  intros i j z Hi Hj Hz. eapply led_first; [apply Hl|exact Hy'|exact HP| |done..|by eapply dist_iff].
  revert Hc. unfold call, exec, mapM, GetOrderedAncestors, bind, get.
  destruct (checkVertexID isz g v); [done|]. unfold ret. rewrite walkAncestors_flip.
  destruct (walkDescendants (prefer P) v (flipg g) 0) as [[[l' g1] n1]| |] eqn:Hw; [|done..].
  intros [= -> _]. eapply walkDescendants_led; [by apply inv_flipg|done..].
Qed.

(** What both directions share. *)
Lemma in_order_iff (R : relation K) v (may : list K → Prop) :
  (∀ l, may l → bfs_order R v l) → (∃ l, may l) →
  (∀ y m, dist R v y m → ∃ l, may l ∧ ∀ i j z, l !! i = Some y → l !! j = Some z → dist R v z m → i ≤ j) →
  (∀ l, may l → in_order R l) ↔ layered R v.
Proof.
  intros Hbfs [l0 Hl0] Hany. split; [|intros HR l Hl; apply (bfs_layered R v); auto].
  intros Hin x y n Hx Hxy.
  destruct (bfs_dist R v l0 y) as [m Hm]; [by apply Hbfs|apply (Hbfs l0 Hl0); eapply tc_r; [by eapply dist_tc|done]|].
  assert (m ≤ S n) by (apply Hm; [lia|]; eapply nsteps_r; [apply Hx|done]).
  destruct (decide (m = S n)) as [->|]; [done|]. exfalso.
  destruct (Hany y m Hm) as (l&Hl&Hfst). pose proof (Hbfs l Hl) as Hb.
  assert (x ∈ l) as [i Hi]%elem_of_list_lookup by (apply Hb; by eapply dist_tc).
  assert (y ∈ l) as [j Hj]%elem_of_list_lookup by (apply Hb; by eapply dist_tc).
  pose proof (Hin l Hl i j x y Hi Hj Hxy) as Hij.
  destruct (decide (m = n)) as [->|].
  - specialize (Hfst j i x Hj Hi Hx). lia.
  - pose proof (bfs_le R v l i j x y n m Hb Hi Hj Hx Hm). lia.
Qed.

(*P C97_descendants_in_order *)
Lemma descendants_in_order g v :
  reachable isz g → known isz g v →
  (∀ σ l g', legal σ → call isz σ (OpGetOrderedDescendants v) g = Ok (RList (inr l), g') →
     in_order (has_edge isz g) l) ↔
  layered (has_edge isz g) v.
Proof.
  intros Hr Hv. pose proof (reachable_inv isz g Hr) as Hg.
  rewrite <-(in_order_iff (has_edge isz g) v
    (λ l, ∃ σ g', legal σ ∧ call isz σ (OpGetOrderedDescendants v) g = Ok (RList (inr l), g'))).
  - split; [intros Hin l (σ&g'&?&?); by eapply Hin|intros Hin σ l g' ??; apply Hin; eauto].
  - intros l (σ&g'&Hσ&Hc). destruct (p16d isz σ g v Hr Hσ) as (r&g2&Hc2&Hl).
    rewrite Hc in Hc2. injection Hc2 as <- <-. apply Hl.
  - destruct (p16d isz (prefer []) g v Hr (prefer_legal [])) as ([e|l]&g'&Hc&Hl).
    { by apply known_fv in Hl. }
    exists l, (prefer []), g'. split; [apply prefer_legal|done].
  - intros y m Hy. destruct (any_first_d g v y m Hr Hv Hy) as (σ&l&g'&?&?&?). exists l. eauto.
Qed.
(*P C97_ancestors_in_order *)
Lemma ancestors_in_order g v :
  reachable isz g → known isz g v →
  (∀ σ l g', legal σ → call isz σ (OpGetOrderedAncestors v) g = Ok (RList (inr l), g') →
     in_order (flip (has_edge isz g)) l) ↔
  layered (flip (has_edge isz g)) v.
Proof.
  intros Hr Hv. pose proof (reachable_inv isz g Hr) as Hg.
  rewrite <-(in_order_iff (flip (has_edge isz g)) v
    (λ l, ∃ σ g', legal σ ∧ call isz σ (OpGetOrderedAncestors v) g = Ok (RList (inr l), g'))).
  - split; [intros Hin l (σ&g'&?&?); by eapply Hin|intros Hin σ l g' ??; apply Hin; eauto].
  - intros l (σ&g'&Hσ&Hc). destruct (p16a isz σ g v Hr Hσ) as (r&g2&Hc2&Hl).
    rewrite Hc in Hc2. injection Hc2 as <- <-. apply Hl.
  - destruct (p16a isz (prefer []) g v Hr (prefer_legal [])) as ([e|l]&g'&Hc&Hl).
    { by apply known_fv in Hl. }
    exists l, (prefer []), g'. split; [apply prefer_legal|done].
  - intros y m Hy. destruct (any_first_a g v y m Hr Hv Hy) as (σ&l&g'&?&?&?). exists l. eauto.
Qed.

(*P C97_never_in_order *)
(** An edge that leads back to a smaller distance: the order is wrong whatever the schedule. *)
Lemma never_in_order σ g v x y n m l g' :
  reachable isz g → legal σ →
  dist (has_edge isz g) v x n → has_edge isz g x y → dist (has_edge isz g) v y m → m < n →
  call isz σ (OpGetOrderedDescendants v) g = Ok (RList (inr l), g') → ¬ in_order (has_edge isz g) l.
Proof.
  intros Hr Hσ Hx Hxy Hy Hmn Hc Hin.
  destruct (p16d isz σ g v Hr Hσ) as (r&g2&Hc2&Hl).
  rewrite Hc in Hc2. injection Hc2 as <- <-. destruct Hl as [_ Hb].
  assert (x ∈ l) as [i Hi]%elem_of_list_lookup by (apply Hb; by eapply dist_tc).
  assert (y ∈ l) as [j Hj]%elem_of_list_lookup by (apply Hb; by eapply dist_tc).
  pose proof (Hin i j x y Hi Hj Hxy) as Hij.
  pose proof (bfs_le _ v l i j x y n m Hb Hi Hj Hx Hy). lia.
Qed.
(*P C97_ancestors_never_in_order *)
Lemma ancestors_never_in_order σ g v x y n m l g' :
  reachable isz g → legal σ →
  dist (flip (has_edge isz g)) v x n → has_edge isz g y x → dist (flip (has_edge isz g)) v y m → m < n →
  call isz σ (OpGetOrderedAncestors v) g = Ok (RList (inr l), g') → ¬ in_order (flip (has_edge isz g)) l.
Proof.
  intros Hr Hσ Hx Hxy Hy Hmn Hc Hin.
  destruct (p16a isz σ g v Hr Hσ) as (r&g2&Hc2&Hl).
  rewrite Hc in Hc2. injection Hc2 as <- <-. destruct Hl as [_ Hb].
  assert (x ∈ l) as [i Hi]%elem_of_list_lookup by (apply Hb; by eapply dist_tc).
  assert (y ∈ l) as [j Hj]%elem_of_list_lookup by (apply Hb; by eapply dist_tc).
  pose proof (Hin i j x y Hi Hj Hxy) as Hij.
  pose proof (bfs_le _ v l i j x y n m Hb Hi Hj Hx Hy). lia.
Qed.
End walk.

(** ** Examples *)
Lemma after_reachable o g : reachable nz g → reachable nz (after o g).
Proof.
  intros Hg. unfold after.
  destruct (p20 nz zigzag o g Hg zigzag_legal) as (r&g'&->&?). done.
Qed.
Definition edges_of (g : graph nat nat) : list (nat * nat) :=
  '(x, s) ← map_to_list (outboundEdges g); (λ e, (x, e.1)) <$> map_to_list (s : goset nat).
Lemma edges_of_all g x y : reachable nz g → has_edge nz g x y → (x, y) ∈ edges_of g.
Proof.
  intros Hg Hxy. apply has_edge_E in Hxy; [|by apply (reachable_inv nz)].
  change (mem y (read (outboundEdges g) x)) in Hxy. unfold read in Hxy.
  destruct (outboundEdges g !! x) as [s|] eqn:Hs; simpl in Hxy; [|by apply mem_empty in Hxy].
  destruct Hxy as [b Hb]. unfold edges_of. apply elem_of_list_bind. exists (x, s).
  split; [|by apply elem_of_map_to_list]. apply elem_of_list_fmap. exists (y, b).
  split; [done|]. by apply elem_of_map_to_list.
Qed.

(** The example without the redundant edge; and with two more edges, 5 → 6 and 1 → 6. *)
Definition neat : graph nat nat := after (OpDeleteEdge 1 3) ex.
Definition back : graph nat nat := after (OpAddEdge 1 6) (after (OpAddEdge 5 6) ex).
Lemma neat_reachable : reachable nz neat.
Proof. apply after_reachable, ex_reachable. Qed.
Lemma back_reachable : reachable nz back.
Proof. apply after_reachable, after_reachable, ex_reachable. Qed.
Lemma dist_1 {A} (R : relation A) x y : R x y → dist R x y 1.
Proof. intros Hxy. split_and!; [lia|by apply nsteps_once|lia]. Qed.
Lemma dist_2 {A} (R : relation A) x z y : R x z → R z y → ¬ R x y → dist R x y 2.
Proof.
  intros Hxz Hzy Hn. split_and!; [lia|eapply nsteps_l; [done|by apply nsteps_once]|].
  intros m Hm Hs. destruct (decide (m = 1)) as [->|]; [|lia]. by apply nsteps_once_inv in Hs.
Qed.
Lemma neat_layered : layered (has_edge nz neat) 1.
Proof.
  assert (dist (has_edge nz neat) 1 2 1) as D2 by (apply dist_1, an_edge; vm_compute; reflexivity).
  assert (dist (has_edge nz neat) 1 4 1) as D4 by (apply dist_1, an_edge; vm_compute; reflexivity).
  assert (dist (has_edge nz neat) 1 3 2) as D3.
  { apply dist_2 with 2; [apply an_edge; vm_compute; reflexivity..|apply no_edge; vm_compute; reflexivity]. }
  assert (∀ y, has_edge nz neat y 5 → y = 3) as E5.
  { intros y Hy. apply edges_of_all in Hy; [|apply neat_reachable].
    revert Hy. replace (edges_of neat) with [(1, 2); (1, 4); (3, 5); (2, 3); (4, 3)] by (vm_compute; reflexivity).
    set_solver. }
  assert (dist (has_edge nz neat) 1 5 3) as D5.
  { split_and!; [lia|eapply nsteps_r; [apply D3|apply an_edge; vm_compute; reflexivity]|].
    intros m Hm Hs. destruct m as [|m]; [lia|]. apply nsteps_inv_r in Hs as (z&Hz&->%E5).
    destruct m as [|m]; [by inversion Hz|]. apply D3 in Hz; lia. }
  intros x y n Hx Hxy. apply edges_of_all in Hxy; [|apply neat_reachable].
  assert (x ≠ 1) as H1.
  { intros ->. apply dist_tc in Hx. by apply (p01 nz neat 1 neat_reachable) in Hx. }
  revert Hxy. replace (edges_of neat) with [(1, 2); (1, 4); (3, 5); (2, 3); (4, 3)] by (vm_compute; reflexivity).
  rewrite !elem_of_cons, elem_of_nil. intros Hxy. destruct_or!; simplify_eq; try done.
  - by rewrite (dist_unique _ _ _ _ _ Hx D3).
  - by rewrite (dist_unique _ _ _ _ _ Hx D2).
  - by rewrite (dist_unique _ _ _ _ _ Hx D4).
Qed.
Lemma back_nearer :
  dist (has_edge nz back) 1 5 2 ∧ has_edge nz back 5 6 ∧ dist (has_edge nz back) 1 6 1 ∧
  dist (flip (has_edge nz back)) 6 3 2 ∧ has_edge nz back 1 3 ∧ dist (flip (has_edge nz back)) 6 1 1.
Proof.
  split_and!; [apply dist_2 with 3| |apply dist_1|apply dist_2 with 5| |apply dist_1];
    first [apply an_edge; vm_compute; reflexivity|apply no_edge; vm_compute; reflexivity].
Qed.

(*P C96_topological_refuted *)
(** Whatever the iteration orders: some vertex is listed before one of its parents, and
    some vertex before one of its children. *)
Lemma topological_refuted :
  ∃ (g : graph nat nat) v w, reachable nz g ∧ known nz g v ∧ known nz g w ∧
    (∀ σ l g', legal σ → call nz σ (OpGetOrderedDescendants v) g = Ok (RList (inr l), g') →
       ¬ in_order (has_edge nz g) l) ∧
    (∀ σ l g', legal σ → call nz σ (OpGetOrderedAncestors w) g = Ok (RList (inr l), g') →
       ¬ in_order (flip (has_edge nz g)) l).
Proof.
  exists back, 1, 6. destruct back_nearer as (H5&H56&H6&H3&H13&H1).
  split_and!; [apply back_reachable|by_computing|by_computing| |].
  - intros σ l g' Hσ. eapply never_in_order; [apply back_reachable|done|exact H5|exact H56|exact H6|lia].
  - intros σ l g' Hσ. eapply ancestors_never_in_order; [apply back_reachable|done|exact H3|exact H13|exact H1|lia].
Qed.
