(** * Exactly which lists the ordered queries return *)
From stdpp Require Import base list gmap relations sorting strings.
From Coq Require Import Lia.
From Verif Require Import GoBase SetModel DagModel DagSpec DagObs RelFacts DagWp DagInv DagOps DagMut DagBfs DagRefine DagPropProofs DagTopo.

(** [l] enumerates what is reachable from [v] by a non-empty path, every element once, and
    in the order of the predecessors: if [y] is listed before [z], then some predecessor of [y]
    is listed no later than any predecessor of [z], where [v] counts as listed first. *)
Definition queue_order {A} (R : relation A) (v : A) (l : list A) : Prop :=
  NoDup l ∧ (∀ y, y ∈ l ↔ tc R v y) ∧
  ∀ i j p x y z, i ≤ j → l !! i = Some y → l !! j = Some z → (v :: l) !! p = Some x → R x z →
    ∃ q x', q ≤ p ∧ (v :: l) !! q = Some x' ∧ R x' y.

Lemma queue_order_iff {A} (R R' : relation A) v l :
  (∀ x y, R x y ↔ R' x y) → queue_order R v l → queue_order R' v l.
Proof.
  intros HR (Hnd&Hl&Hq). split_and!; [done| |].
  - intros y. rewrite Hl. by apply tc_iff.
  - intros i j p x y z Hij Hi Hj Hp Hxz. apply HR in Hxz.
    destruct (Hq i j p x y z Hij Hi Hj Hp Hxz) as (q&x'&?&?&?). exists q, x'. split_and!; [done..|]. by apply HR.
Qed.

Section queue.
Context {A : Type} `{EqDecision A} (R : relation A) (v : A).

(** ** What is returned is in that order *)
Definition queued (sent L : list A) : Prop :=
  (∀ y, y ∈ L → ∃ q x, (v :: sent) !! q = Some x ∧ R x y) ∧
  ∀ i j p x y z, i ≤ j → L !! i = Some y → L !! j = Some z → (v :: sent) !! p = Some x → R x z →
    ∃ q x', q ≤ p ∧ (v :: sent) !! q = Some x' ∧ R x' y.

Lemma queued_init new : (∀ w, w ∈ new ↔ R v w) → queued [] new.
Proof.
  intros Hnew. split.
  - intros y Hy. exists 0, v. split; [done|]. by apply Hnew.
  - intros i j p x y z _ Hi _ _ _. exists 0, v. split_and!; [lia|done|].
    apply Hnew. by eapply elem_of_list_lookup_2.
Qed.
Lemma queued_step sent top fifo new :
  bfs_inv R v sent (top :: fifo) → queued sent (sent ++ top :: fifo) →
  (∀ w, w ∈ new ↔ R top w ∧ w ∉ sent ++ top :: fifo) →
  queued (sent ++ [top]) ((sent ++ [top]) ++ fifo ++ new).
Proof.
  intros Hinv [Hpar Hq] Hnew.
  assert ((sent ++ [top]) ++ fifo ++ new = (sent ++ top :: fifo) ++ new) as ->.
  { by rewrite <-!(assoc_L (++)). }
  set (L := sent ++ top :: fifo) in *.
  assert (∀ q x, (v :: sent) !! q = Some x → (v :: sent ++ [top]) !! q = Some x) as Hold.
  { intros q x Hx. rewrite app_comm_cons. by apply lookup_app_l_Some. }
  assert ((v :: sent ++ [top]) !! S (length sent) = Some top) as Htop.
  { simpl. rewrite lookup_app_r by done. by rewrite Nat.sub_diag. }
  assert (∀ q x, (v :: sent ++ [top]) !! q = Some x → (v :: sent) !! q = Some x ∨ q = S (length sent) ∧ x = top) as Hinv'.
  { intros q x Hx. rewrite app_comm_cons in Hx. apply lookup_app_Some in Hx as [?|[Hle Hx]]; [by left|right].
    simpl in Hle, Hx. apply list_lookup_singleton_Some in Hx as [? ?]. split; [lia|done]. }
  split.
  - intros y [Hy|Hy]%elem_of_app.
    + destruct (Hpar y Hy) as (q&x&?&?). eauto.
    + exists (S (length sent)), top. split; [done|]. by apply Hnew.
  - intros i j p x y z Hij Hi Hj Hp Hxz.
    apply lookup_app_Some in Hi as [Hi|[HiL Hi]].
    + destruct (Hinv' p x Hp) as [Hp'|[-> ->]].
      * apply lookup_app_Some in Hj as [Hj|[HjL Hj]].
        -- destruct (Hq i j p x y z Hij Hi Hj Hp' Hxz) as (q&x'&?&?&?). eauto 10.
        -- exfalso. assert (z ∈ new) as [_ Hz]%Hnew by (by eapply elem_of_list_lookup_2).
           apply Hz. destruct p as [|p]; simpl in Hp'; simplify_eq.
           ++ by apply (bfs_first _ _ _ _ Hinv).
           ++ apply (bfs_closed _ _ _ _ Hinv x); [by eapply elem_of_list_lookup_2|done].
      * destruct (Hpar y) as (q&x'&Hx'&?); [by eapply elem_of_list_lookup_2|].
        exists q, x'. split_and!; [|by apply Hold|done]. apply lookup_lt_Some in Hx'. simpl in Hx'. lia.
    + assert (y ∈ new) as [Hy _]%Hnew by (by eapply elem_of_list_lookup_2).
      apply lookup_app_Some in Hj as [Hj|[HjL Hj]]; [apply lookup_lt_Some in Hj; lia|].
      destruct (Hinv' p x Hp) as [Hp'|[-> ->]]; [|by eauto 10].
      exfalso. assert (z ∈ new) as [_ Hz]%Hnew by (by eapply elem_of_list_lookup_2).
      apply Hz. destruct p as [|p]; simpl in Hp'; simplify_eq.
      * by apply (bfs_first _ _ _ _ Hinv).
      * apply (bfs_closed _ _ _ _ Hinv x); [by eapply elem_of_list_lookup_2|done].
Qed.
Lemma queued_done l : bfs_order R v l → queued l l → queue_order R v l.
Proof. intros (Hnd&Hl&_) [_ Hq]. by split_and!. Qed.

(** ** Each of these orders is returned *)
Definition follow (l : list A) : schedule A := λ _ ks,
  if decide (NoDup ks) then filter (.∈ ks) l ++ filter (.∉ l) ks else ks.
Lemma follow_legal l : NoDup l → legal (follow l).
Proof.
  intros Hl n ks. unfold follow. destruct (decide (NoDup ks)) as [Hks|]; [|done].
  apply NoDup_Permutation; [|done|].
  - apply NoDup_app. split_and!; [by apply NoDup_filter| |by apply NoDup_filter].
    intros x. rewrite !elem_of_list_filter. naive_solver.
  - intros x. rewrite elem_of_app, !elem_of_list_filter. destruct (decide (x ∈ l)); naive_solver.
Qed.
Lemma filter_prefix (P : A → Prop) `{∀ x, Decision (P x)} (l : list A) :
  (∀ i j x y, i ≤ j → l !! i = Some x → l !! j = Some y → P y → P x) → ∃ l', l = filter P l ++ l'.
Proof.
  induction l as [|a l IH]; intros Hl; [by exists []|]. rewrite filter_cons. destruct (decide (P a)) as [Ha|Ha].
  - destruct IH as [l' Hl']; [|exists l'; simpl; by f_equal].
    intros i j x y Hij Hi Hj. apply (Hl (S i) (S j)); [lia|done..].
  - exists (a :: l). assert (filter P l = []) as ->; [|done].
    destruct (filter P l) as [|y r] eqn:Hf; [done|]. exfalso.
    assert (y ∈ filter P l) as [Hy [j Hj]%elem_of_list_lookup]%elem_of_list_filter by (rewrite Hf; set_solver).
    apply Ha. by apply (Hl 0 (S j) a y); [lia|..].
Qed.
Lemma follow_step l sent top fifo rest new ks k :
  queue_order R v l → l = (sent ++ top :: fifo) ++ rest → bfs_inv R v sent (top :: fifo) →
  NoDup ks → (∀ w, w ∈ ks ↔ R top w) →
  new = filter (.∉ sent ++ top :: fifo) (follow l k ks) →
  ∃ rest', l = ((sent ++ [top]) ++ fifo ++ new) ++ rest'.
Proof.
  intros (Hnd&Hl&Hq) Heq Hinv Hks Hks' Hnew.
  assert ((sent ++ [top]) ++ fifo ++ new = (sent ++ top :: fifo) ++ new) as ->.
  { by rewrite <-!(assoc_L (++)). }
  set (L := sent ++ top :: fifo) in *.
  assert (L !! length sent = Some top) as Htop by (unfold L; by rewrite list_lookup_middle).
  assert (top ∈ l) as Htl by (rewrite Heq; apply elem_of_app; left; by eapply elem_of_list_lookup_2).
  assert (∀ w, w ∈ rest → w ∉ L) as Hdis.
  { rewrite Heq in Hnd. apply NoDup_app in Hnd as (_&Hd&_). intros w Hw HwL. by apply (Hd w). }
  assert (new = filter (.∈ ks) rest) as Hn.
  { rewrite Hnew. unfold follow. rewrite decide_True by done.
    assert (filter (.∉ l) ks = []) as ->.
    { destruct (filter (.∉ l) ks) as [|w r] eqn:Hf; [done|]. exfalso.
      assert (w ∈ filter (.∉ l) ks) as [Hw Hwk]%elem_of_list_filter by (rewrite Hf; set_solver).
      apply Hw, Hl. eapply tc_r; [by apply Hl|by apply Hks']. }
    rewrite app_nil_r, Heq, !filter_app.
    assert (filter (.∉ L) (filter (.∈ ks) L) = []) as ->.
    { destruct (filter (.∉ L) (filter (.∈ ks) L)) as [|w r] eqn:Hf; [done|]. exfalso.
      assert (w ∈ filter (.∉ L) (filter (.∈ ks) L)) as Hw by (rewrite Hf; set_solver).
      rewrite !elem_of_list_filter in Hw. naive_solver. }
    simpl. clear -Hdis. induction rest as [|w rest IH]; [done|]. rewrite !filter_cons.
    destruct (decide (w ∈ ks)); [|apply IH; intros w' Hw'; apply Hdis; by right].
    rewrite filter_cons, decide_True by (apply Hdis; by left).
    f_equal. apply IH. intros w' Hw'. apply Hdis. by right. }
  destruct (filter_prefix (.∈ ks) rest) as [rest' Hr].
  { intros i j y z Hij Hi Hj Hz%Hks'.
    destruct (Hq (length L + i) (length L + j) (S (length sent)) top y z) as (q&x'&Hqp&Hx'&Hxy).
    - lia.
    - rewrite Heq, lookup_app_r by lia. by replace (length L + i - length L) with i by lia.
    - rewrite Heq, lookup_app_r by lia. by replace (length L + j - length L) with j by lia.
    - simpl. rewrite Heq. by apply lookup_app_l_Some.
    - done.
    - assert (y ∉ L) as HyL by (apply Hdis; by eapply elem_of_list_lookup_2).
      apply Hks'. destruct q as [|q]; simpl in Hx'.
      + exfalso. simplify_eq. apply HyL. by apply (bfs_first _ _ _ _ Hinv).
      + destruct (decide (q = length sent)) as [->|Hne].
        * rewrite Heq in Hx'. rewrite (lookup_app_l_Some _ _ _ _ Htop) in Hx'. by simplify_eq.
        * exfalso. apply HyL. apply (bfs_closed _ _ _ _ Hinv x'); [|done].
          rewrite Heq in Hx'. unfold L in Hx'. rewrite <-(assoc_L (++)), lookup_app_l in Hx' by lia.
          by eapply elem_of_list_lookup_2. }
  exists rest'. rewrite Hn, Heq, <-(assoc_L (++)). by f_equal.
Qed.
End queue.

Section walk.
Context {K T : Type} `{Countable K} `{Inhabited T} (isz : K → bool).
Notation graph := (graph K T).
Implicit Types g : graph.

Lemma foldl_enqueue_filter (ks L fifo : list K) (visited : goset K) :
  NoDup ks → (∀ w, w ∈ ks → mem w visited ↔ w ∈ L) →
  ∃ visited', foldl enqueue (fifo, visited) ks = (fifo ++ filter (.∉ L) ks, visited').
Proof.
  intros Hks. revert fifo visited. induction Hks as [|k ks Hk Hks IH]; intros fifo visited HL.
  { exists visited. by rewrite app_nil_r. }
  cbn [foldl enqueue]. rewrite filter_cons. destruct (set_includes visited k) eqn:Hv.
  - apply set_includes_true in Hv. rewrite decide_False.
    2: { intros Hn. apply Hn, HL; [by left|done]. }
    apply IH. intros w Hw. apply HL. by right.
  - apply set_includes_false in Hv. rewrite decide_True.
    2: { intros Hn. apply Hv, HL; [by left|done]. }
    destruct (IH (fifo ++ [k]) (set_add k visited)) as [v' Hv'].
    + intros w Hw. rewrite mem_add, <-HL by (by right). naive_solver.
    + exists v'. rewrite Hv'. by rewrite <-(assoc_L (++)).
Qed.

(** One round of the walk. *)
Lemma loop_step σ fuel top fifo visited sent g n v :
  legal σ → bfs_inv (E g) v sent (top :: fifo) → (∀ w, mem w visited ↔ w ∈ sent ++ top :: fifo) →
  ∃ new visited' ks0, NoDup ks0 ∧ (∀ w, w ∈ ks0 ↔ E g top w) ∧
    new = filter (.∉ sent ++ top :: fifo) (σ n ks0) ∧
    (∀ w, w ∈ new ↔ E g top w ∧ w ∉ sent ++ top :: fifo) ∧
    bfs_inv (E g) v (sent ++ [top]) (fifo ++ new) ∧
    (∀ w, mem w visited' ↔ w ∈ (sent ++ [top]) ++ fifo ++ new) ∧
    walkDescendantsLoop σ (S fuel) (top :: fifo) visited sent g n =
      walkDescendantsLoop σ fuel (fifo ++ new) visited' (sent ++ [top]) g (S n).
Proof.
  intros Hσ Hinv Hvis. cbn [walkDescendantsLoop]. rewrite bind_get, bind_range. unfold range_keys.
  set (ks0 := (map_to_list (read (outboundEdges g) top)).*1).
  assert (NoDup ks0) as Hnd0 by apply NoDup_fst_map_to_list.
  assert (∀ w, w ∈ ks0 ↔ E g top w) as Hks0 by (intros w; apply map_keys_elem).
  assert (NoDup (σ n ks0)) as Hks by (by rewrite (Hσ n ks0)).
  destruct (foldl_enqueue isz (σ n ks0) fifo visited Hks) as (new&visited'&Heq&Hnd&Hnew&Hvis').
  destruct (foldl_enqueue_filter (σ n ks0) (sent ++ top :: fifo) fifo visited Hks) as [v2 Heq2]; [by intros|].
  rewrite Heq in Heq2. assert (fifo ++ new = fifo ++ filter (.∉ sent ++ top :: fifo) (σ n ks0)) as Hn%app_inv_head by congruence.
  assert (∀ w, w ∈ new ↔ E g top w ∧ w ∉ sent ++ top :: fifo) as Hnew'.
  { intros w. by rewrite Hnew, (Hσ n ks0), Hks0, Hvis. }
  exists new, visited', ks0. split_and!; [done..| | |].
  - by apply bfs_step.
  - intros w. rewrite Hvis', Hvis, (Hσ n ks0), Hks0. specialize (Hnew' w).
    rewrite !elem_of_app, !elem_of_cons in *.
    destruct (decide (w ∈ sent ∨ w = top ∨ w ∈ fifo)); set_solver.
  - by rewrite Heq.
Qed.

Lemma loop_queued σ fuel fifo visited sent v g n l g' n' :
  legal σ → bfs_inv (E g) v sent fifo → (∀ w, mem w visited ↔ w ∈ sent ++ fifo) →
  queued (E g) v sent (sent ++ fifo) →
  walkDescendantsLoop σ fuel fifo visited sent g n = Ok (l, g', n') → queued (E g) v l l.
Proof.
  intros Hσ. revert fifo visited sent n. induction fuel as [|fuel IH]; intros fifo visited sent n Hinv Hvis Hq; [done|].
  destruct fifo as [|top fifo].
  { rewrite app_nil_r in Hq. cbn [walkDescendantsLoop]. by intros [= <- _ _]. }
  destruct (loop_step σ fuel top fifo visited sent g n v Hσ Hinv Hvis) as (new&vis'&ks0&_&_&_&Hnew&Hinv'&Hvis'&->).
  apply IH; [done..|]. by apply queued_step.
Qed.
Lemma loop_follow l fuel fifo visited sent v g n l' g' n' rest :
  queue_order (E g) v l → l = (sent ++ fifo) ++ rest →
  bfs_inv (E g) v sent fifo → (∀ w, mem w visited ↔ w ∈ sent ++ fifo) →
  walkDescendantsLoop (follow l) fuel fifo visited sent g n = Ok (l', g', n') → ∃ rest', l = l' ++ rest'.
Proof.
  intros Hl. revert fifo visited sent n rest.
  induction fuel as [|fuel IH]; intros fifo visited sent n rest Heq Hinv Hvis; [done|].
  destruct fifo as [|top fifo].
  { rewrite app_nil_r in Heq. cbn [walkDescendantsLoop]. intros [= <- _ _]. eauto. }
  destruct (loop_step (follow l) fuel top fifo visited sent g n v (follow_legal l (proj1 Hl)) Hinv Hvis)
    as (new&vis'&ks0&Hnd&Hks&Hn&Hnew&Hinv'&Hvis'&->).
  destruct (follow_step (E g) v l sent top fifo rest new ks0 n) as [rest' Hr]; [done..|].
  by apply (IH _ _ _ _ rest').
Qed.

Lemma walk_queued σ v g n l g' n' :
  legal σ → inv isz g → walkDescendants σ v g n = Ok (l, g', n') → queue_order (E g) v l.
Proof.
  intros Hσ Hg Hw.
  assert (bfs_order (E g) v l) as Hb.
  { pose proof (walkDescendants_wp isz σ v g n Hσ Hg) as Hwp. unfold wp in Hwp. rewrite Hw in Hwp. apply Hwp. }
  apply queued_done; [done|]. revert Hw. unfold walkDescendants. rewrite bind_get, bind_range. unfold range_keys.
  set (ks0 := (map_to_list (read (outboundEdges g) v)).*1).
  assert (NoDup (σ n ks0)) as Hks by (rewrite (Hσ n ks0); apply NoDup_fst_map_to_list).
  assert (∀ w, w ∈ σ n ks0 ↔ E g v w) as Hks0 by (intros w; rewrite (Hσ n ks0); apply map_keys_elem).
  destruct (foldl_enqueue_first isz (σ n ks0)) as (visited&->&Hvis).
  apply loop_queued; [done|by apply bfs_init|done|by apply queued_init].
Qed.
Lemma walk_follow v g n l l' g' n' :
  inv isz g → queue_order (E g) v l → walkDescendants (follow l) v g n = Ok (l', g', n') → l' = l.
Proof.
  intros Hg Hl Hw.
  assert (bfs_order (E g) v l') as Hb.
  { pose proof (walkDescendants_wp isz (follow l) v g n (follow_legal l (proj1 Hl)) Hg) as Hwp.
    unfold wp in Hwp. rewrite Hw in Hwp. apply Hwp. }
  assert (∃ rest, l = l' ++ rest) as [rest Hr].
  { revert Hw. unfold walkDescendants. rewrite bind_get, bind_range. unfold range_keys.
    set (ks0 := (map_to_list (read (outboundEdges g) v)).*1).
    assert (NoDup ks0) as Hnd0 by apply NoDup_fst_map_to_list.
    assert (∀ w, w ∈ ks0 ↔ E g v w) as Hks0 by (intros w; apply map_keys_elem).
    pose proof (follow_legal l (proj1 Hl) n ks0) as Hp.
    assert (NoDup (follow l n ks0)) as Hks by (by rewrite Hp).
    assert (∀ w, w ∈ follow l n ks0 ↔ E g v w) as Hks' by (intros w; by rewrite Hp).
    destruct (foldl_enqueue_first isz (follow l n ks0)) as (visited&->&Hvis).
    assert (∃ rest, l = follow l n ks0 ++ rest) as [rest Hr].
    { unfold follow. rewrite decide_True by done. destruct Hl as (Hnd&Hl&Hq).
      assert (filter (.∉ l) ks0 = []) as ->.
      { destruct (filter (.∉ l) ks0) as [|w r] eqn:Hf; [done|]. exfalso.
        assert (w ∈ filter (.∉ l) ks0) as [Hw1 Hw2]%elem_of_list_filter by (rewrite Hf; set_solver).
        apply Hw1, Hl, tc_once. by apply Hks0. }
      rewrite app_nil_r. apply filter_prefix. intros i j x y Hij Hi Hj Hy%Hks0.
      destruct (Hq i j 0 v x y Hij Hi Hj eq_refl Hy) as (q&x'&Hq0&Hx'&?).
      assert (q = 0) as -> by lia. simpl in Hx'. simplify_eq. by apply Hks0. }
    apply loop_follow with v rest; [done|done|by apply bfs_init|done]. }
  destruct rest as [|w rest]; [by rewrite app_nil_r in Hr|]. exfalso.
  destruct Hl as (Hnd&Hl&_). assert (w ∈ l) as Hw1 by (rewrite Hr; set_solver).
  apply Hl, Hb in Hw1. rewrite Hr in Hnd. apply NoDup_app in Hnd as (_&Hd&_). apply (Hd w Hw1). set_solver.
Qed.

(*P C100_which_descendant_lists *)
Lemma which_descendants g v l :
  reachable isz g → known isz g v →
  (∃ σ g', legal σ ∧ call isz σ (OpGetOrderedDescendants v) g = Ok (RList (inr l), g')) ↔
  queue_order (has_edge isz g) v l.
Proof.
  intros Hr Hv. pose proof (reachable_inv isz g Hr) as Hg.
  assert (∀ x y, E g x y ↔ has_edge isz g x y) as HE by (intros; symmetry; by apply has_edge_E).
  split.
  - intros (σ&g'&Hσ&Hc). apply (queue_order_iff (E g)); [done|].
    revert Hc. unfold call, exec, mapM, GetOrderedDescendants, bind, get.
    destruct (checkVertexID isz g v); [done|]. unfold ret.
    destruct (walkDescendants σ v g 0) as [[[l' g1] n1]| |] eqn:Hw; [|done..].
    intros [= -> _]. by eapply walk_queued.
  - intros Hl. assert (queue_order (E g) v l) as Hl' by (by eapply queue_order_iff; [intros; symmetry; apply HE|]).
    exists (follow l). destruct (p16d isz (follow l) g v Hr (follow_legal l (proj1 Hl))) as ([e|l2]&g'&Hc&Hl2).
    { by apply known_fv in Hl2. }
    exists g'. split; [apply follow_legal, Hl|]. rewrite Hc.
    revert Hc. unfold call, exec, mapM, GetOrderedDescendants, bind, get.
    destruct (checkVertexID isz g v); [done|]. unfold ret.
    destruct (walkDescendants (follow l) v g 0) as [[[l' g1] n1]| |] eqn:Hw; [|done..].
    intros [= -> _]. apply walk_follow in Hw; [|done..]. by subst.
Qed.
(*P C100_which_ancestor_lists *)
Lemma which_ancestors g v l :
  reachable isz g → known isz g v →
  (∃ σ g', legal σ ∧ call isz σ (OpGetOrderedAncestors v) g = Ok (RList (inr l), g')) ↔
  queue_order (flip (has_edge isz g)) v l.
Proof.
  intros Hr Hv. pose proof (reachable_inv isz g Hr) as Hg.
  assert (∀ x y, E (flipg g) x y ↔ flip (has_edge isz g) x y) as HE.
  { intros x z. rewrite (E_flipg isz) by done. symmetry. by apply has_edge_E. }
  split.
  - intros (σ&g'&Hσ&Hc). apply (queue_order_iff (E (flipg g))); [done|].
    revert Hc. unfold call, exec, mapM, GetOrderedAncestors, bind, get.
    destruct (checkVertexID isz g v); [done|]. unfold ret. rewrite walkAncestors_flip.
    destruct (walkDescendants σ v (flipg g) 0) as [[[l' g1] n1]| |] eqn:Hw; [|done..].
    intros [= -> _]. eapply walk_queued; [done|by apply inv_flipg|done].
  - intros Hl. assert (queue_order (E (flipg g)) v l) as Hl' by (by eapply queue_order_iff; [intros; symmetry; apply HE|]).
    exists (follow l). destruct (p16a isz (follow l) g v Hr (follow_legal l (proj1 Hl))) as ([e|l2]&g'&Hc&Hl2).
    { by apply known_fv in Hl2. }
    exists g'. split; [apply follow_legal, Hl|]. rewrite Hc.
    revert Hc. unfold call, exec, mapM, GetOrderedAncestors, bind, get.
    destruct (checkVertexID isz g v); [done|]. unfold ret. rewrite walkAncestors_flip.
    destruct (walkDescendants (follow l) v (flipg g) 0) as [[[l' g1] n1]| |] eqn:Hw; [|done..].
    intros [= -> _]. apply walk_follow in Hw; [|by apply inv_flipg|done]. by subst.
Qed.
End walk.
