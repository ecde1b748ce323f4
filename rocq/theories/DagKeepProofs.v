(** * A graph keeps nothing of what has been deleted *)
From stdpp Require Import base list gmap relations sorting strings.
From Coq Require Import Lia.
From Verif Require Import GoBase SetModel DagModel DagSpec DagObs RelFacts DagWp DagInv DagOps DagMut DagRefine DagCostProofs.

(** ** Only vertices have an entry in the maps of edges *)
Section snug.
Context {K T : Type} `{Countable K} `{Inhabited T} (isz : K → bool) (σ : schedule K) (Hσ : legal σ).
Notation graph := (graph K T).
Implicit Types g : graph.

Definition snug g : Prop := ∀ k, is_Some (outboundEdges g !! k) ∨ is_Some (inboundEdges g !! k) → is_Some (vertices g !! k).
Lemma snug_alter g f k : snug g → snug (set_outbound (alter f k) g).
Proof. intros Hg k'. simpl. rewrite lookup_alter_is_Some. apply Hg. Qed.
Lemma snug_alter_in g f k : snug g → snug (set_inbound (alter f k) g).
Proof. intros Hg k'. simpl. rewrite lookup_alter_is_Some. apply Hg. Qed.

Local Notation "'keep' m" := (∀ g n, snug g → cw m m g n (λ _ g' _, snug g')) (at level 9).
Local Notation "'same' m" := (∀ g n, cw m m g n (λ _ g' _, g' = g)) (at level 9).

Lemma any_range {V} (m : gmap K V) : same (range (T:=T) σ m).
Proof. intros g n. split; [done|]. by intros ??? [= <- <- <-]. Qed.
Lemma any_rangev (s : goset K) : same (rangev (T:=T) σ s).
Proof. intros g n. split; [done|]. by intros ??? [= <- <- <-]. Qed.
Lemma same_keep {A} (m : M (K:=K) (T:=T) A) : same m → keep m.
Proof. intros Hm g n Hg. eapply cw_mono; [apply Hm|]. by intros ??? ->. Qed.
Lemma keep_bind {A B} (m : M (K:=K) (T:=T) A) (f : A → M B) :
  keep m → (∀ a, keep (f a)) → keep (bind m f).
Proof. intros Hm Hf g n Hg. apply cw_bind. eapply cw_mono; [by apply Hm|]. intros a g' n' Hg'. by apply Hf. Qed.
Lemma keep_ret {A} (a : A) : keep (ret a).
Proof. intros g n Hg. by apply cw_ret. Qed.
Lemma keep_get : keep (get (K:=K) (T:=T)).
Proof. intros g n Hg. by apply cw_get. Qed.
Lemma keep_range {V} (m : gmap K V) : keep (range (T:=T) σ m).
Proof. apply same_keep, any_range. Qed.
Lemma keep_rangev (s : goset K) : keep (rangev (T:=T) σ s).
Proof. apply same_keep, any_rangev. Qed.
Lemma keep_for_each {A B} (l : list B) (body : A → B → M (K:=K) (T:=T) A) :
  (∀ acc x, keep (body acc x)) → ∀ acc, keep (for_each l body acc).
Proof.
  intros Hb. induction l as [|x l IH]; intros acc; simpl; [apply keep_ret|].
  apply keep_bind; [apply Hb|]. intros a. apply IH.
Qed.
Lemma keep_modify f : (∀ g, snug g → snug (f g)) → keep (modify f).
Proof. intros Hf g n Hg. by apply cw_modify, Hf. Qed.
Lemma keep_out_of_fuel {A} : keep (out_of_fuel (A:=A)).
Proof. intros g n _. apply cw_out_of_fuel. Qed.
Lemma keep_panic {A} : keep (panic (A:=A)).
Proof. intros g n _. apply cw_panic. Qed.

Lemma keep_getDescendantsIDs fuel : ∀ id, keep (getDescendantsIDs isz σ fuel id).
Proof.
  induction fuel as [|fuel IH]; intros id; [apply keep_out_of_fuel|]. cbn [getDescendantsIDs].
  apply keep_bind; [apply keep_get|]. intros g.
  destruct (checkVertexID isz g id); [apply keep_ret|].
  destruct (descendantsCache g !! id); [apply keep_ret|].
  apply keep_bind.
  - destruct (outboundEdges g !! id) as [cs|]; [|apply keep_ret].
    apply keep_bind; [apply keep_range|]. intros ks. apply keep_for_each. intros acc x.
    apply keep_bind; [apply IH|]. intros r. apply keep_bind; [apply keep_rangev|]. intros vs. apply keep_ret.
  - intros c. apply keep_bind; [|intros _; apply keep_ret]. by apply keep_modify.
Qed.
Lemma keep_getAncestorsIDs fuel : ∀ id, keep (getAncestorsIDs isz σ fuel id).
Proof.
  induction fuel as [|fuel IH]; intros id; [apply keep_out_of_fuel|]. cbn [getAncestorsIDs].
  apply keep_bind; [apply keep_get|]. intros g.
  destruct (checkVertexID isz g id); [apply keep_ret|].
  destruct (ancestorsCache g !! id); [apply keep_ret|].
  apply keep_bind.
  - destruct (inboundEdges g !! id) as [cs|]; [|apply keep_ret].
    apply keep_bind; [apply keep_range|]. intros ks. apply keep_for_each. intros acc x.
    apply keep_bind; [apply IH|]. intros r. apply keep_bind; [apply keep_rangev|]. intros vs. apply keep_ret.
  - intros c. apply keep_bind; [|intros _; apply keep_ret]. by apply keep_modify.
Qed.
Lemma keep_descendantsOf id : keep (descendantsOf isz σ id).
Proof. apply keep_bind; [apply keep_get|]. intros g. apply keep_getDescendantsIDs. Qed.
Lemma keep_ancestorsOf id : keep (ancestorsOf isz σ id).
Proof. apply keep_bind; [apply keep_get|]. intros g. apply keep_getAncestorsIDs. Qed.
Lemma keep_walkDescendantsLoop fuel : ∀ fifo visited sent, keep (walkDescendantsLoop σ fuel fifo visited sent).
Proof.
  induction fuel as [|fuel IH]; intros fifo visited sent; [apply keep_out_of_fuel|].
  cbn [walkDescendantsLoop]. destruct fifo as [|top fifo]; [apply keep_ret|].
  apply keep_bind; [apply keep_get|]. intros g. apply keep_bind; [apply keep_range|]. intros ks.
  destruct (foldl enqueue _ ks). apply IH.
Qed.
Lemma keep_walkAncestorsLoop fuel : ∀ fifo visited sent, keep (walkAncestorsLoop σ fuel fifo visited sent).
Proof.
  induction fuel as [|fuel IH]; intros fifo visited sent; [apply keep_out_of_fuel|].
  cbn [walkAncestorsLoop]. destruct fifo as [|top fifo]; [apply keep_ret|].
  apply keep_bind; [apply keep_get|]. intros g. apply keep_bind; [apply keep_range|]. intros ks.
  destruct (foldl enqueue _ ks). apply IH.
Qed.

Ltac step :=
  match goal with
  | |- ∀ _ _, snug _ → cw (bind _ _) _ _ _ _ => apply keep_bind; [|intros ?]
  | |- ∀ _ _, snug _ → cw (ret _) _ _ _ _ => apply keep_ret
  | |- ∀ _ _, snug _ → cw get _ _ _ _ => apply keep_get
  | |- ∀ _ _, snug _ → cw (range _ _) _ _ _ _ => apply keep_range
  | |- ∀ _ _, snug _ → cw (rangev _ _) _ _ _ _ => apply keep_rangev
  | |- ∀ _ _, snug _ → cw panic _ _ _ _ => apply keep_panic
  | |- ∀ _ _, snug _ → cw (descendantsOf _ _ _) _ _ _ _ => apply keep_descendantsOf
  | |- ∀ _ _, snug _ → cw (ancestorsOf _ _ _) _ _ _ _ => apply keep_ancestorsOf
  | |- ∀ _ _, snug _ → cw (for_each _ _ _) _ _ _ _ => apply keep_for_each; intros ? ?
  | |- ∀ _ _, snug _ → cw (modify _) _ _ _ _ =>
      apply keep_modify; let Hx := fresh "Hx" in first [intros ? Hx; apply snug_alter; exact Hx | intros ? Hx; apply snug_alter_in; exact Hx | done | intros ? Hx; exact Hx]
  | |- ∀ _ _, snug _ → cw (walkDescendantsLoop _ _ _ _ _) _ _ _ _ => apply keep_walkDescendantsLoop
  | |- ∀ _ _, snug _ → cw (walkAncestorsLoop _ _ _ _ _) _ _ _ _ => apply keep_walkAncestorsLoop
  | |- context [match ?x with _ => _ end] => destruct x
  end.

Lemma keep_exec (o : op K T) : match o with
  | OpAddVertex _ _ | OpDeleteVertex _ | OpAddEdge _ _ => True
  | _ => keep (exec isz σ o)
  end.
Proof.
  destruct o; try done; cbn [exec]; unfold mapM, GetVertex, IsEdge, DeleteEdge, GetOrder, GetSize,
    GetLeaves, GetRoots, GetVertices, GetParents, GetChildren, GetAncestors, GetDescendants,
    GetOrderedAncestors, GetOrderedDescendants, ReduceTransitively, StringOf, loadFromCache,
    walkAncestors, walkDescendants, GetRoots, GetOrder, GetSize, flushCaches; repeat step.
Qed.

Lemma keep_AddVertex id v : keep (AddVertex isz id v).
Proof.
  unfold AddVertex. repeat step.
  apply keep_modify. intros g Hg k Hk. simpl. apply lookup_insert_is_Some.
  destruct (decide (id = k)); [by left|right]. split; [done|]. by apply Hg.
Qed.

Lemma keep_AddEdge s t : keep (AddEdge isz σ s t).
Proof using Hσ.
  intros g n Hg. apply cw_bind, cw_get. destruct (checkEdgeIDs isz g s t) eqn:Hchk; [by apply cw_ret|].
  destruct (isEdge isz g s t).1; [by apply cw_ret|].
  assert (is_Some (vertices g !! s) ∧ is_Some (vertices g !! t)) as [Hs Ht].
  { unfold checkEdgeIDs in Hchk. destruct (isz s), (isz t); [done..|].
    destruct (decide (s = t)); [done|]. by destruct (vertices g !! s), (vertices g !! t). }
  assert (∀ fuel id g' n', vertices g' = vertices g → cw (getDescendantsIDs isz σ fuel id)
    (getDescendantsIDs isz σ fuel id) g' n' (λ _ g' _, vertices g' = vertices g)) as HD.
  { induction fuel as [|fuel IH]; intros id g' n' Hv; [apply cw_out_of_fuel|]. cbn [getDescendantsIDs].
    apply cw_bind, cw_get. destruct (checkVertexID isz g' id); [by apply cw_ret|].
    destruct (descendantsCache g' !! id); [by apply cw_ret|].
    apply cw_bind. eapply (cw_mono _ _ _ _ (λ _ g' _, vertices g' = vertices g)).
    - destruct (outboundEdges g' !! id) as [cs|]; [|by apply cw_ret].
      apply cw_bind. eapply cw_mono; [apply any_range|]. intros ks ? n1 ->.
      apply (cw_for_each _ _ _ (λ _ _ g' _, vertices g' = vertices g)); [|done..].
      intros pre x post acc g1 n2 _ Hv1. apply cw_bind. eapply cw_mono; [by apply IH|].
      intros r g2 n3 Hv2. apply cw_bind. eapply cw_mono; [apply any_rangev|]. intros vs ? n4 ->. by apply cw_ret.
    - intros c g1 n1 Hv1. by apply cw_bind, cw_modify, cw_ret. }
  assert (∀ fuel id g' n', vertices g' = vertices g → cw (getAncestorsIDs isz σ fuel id)
    (getAncestorsIDs isz σ fuel id) g' n' (λ _ g' _, vertices g' = vertices g)) as HA.
  { intros fuel id g' n' Hv. split; [done|]. intros r g1 n1. rewrite getAncestorsIDs_flip.
    destruct (HD fuel id (flipg g') n' Hv) as [_ Hc].
    destruct (getDescendantsIDs isz σ fuel id (flipg g') n') as [[[a g2] n2]| |]; [|done..].
    intros [= <- <- <-]. by apply (Hc _ _ _ eq_refl). }
  apply cw_bind. eapply (cw_mono _ _ _ _ (λ _ g' _, snug g' ∧ vertices g' = vertices g)).
  { split; [done|]. intros r g1 n1 Hr. split.
    - by apply (proj2 (keep_descendantsOf t g n Hg) _ _ _ Hr).
    - by apply (proj2 (HD (fuel_of g) t g n eq_refl) _ _ _ Hr). }
  intros D g1 n1 [Hg1 Hv1]. apply cw_bind. eapply (cw_mono _ _ _ _ (λ _ g' _, snug g' ∧ vertices g' = vertices g)).
  { split; [done|]. intros r g2 n2 Hr. split.
    - by apply (proj2 (keep_ancestorsOf s g1 n1 Hg1) _ _ _ Hr).
    - by apply (proj2 (HA (fuel_of g1) s g1 n1 Hv1) _ _ _ Hr). }
  intros U g2 n2 [Hg2 Hv2]. cbv beta zeta. destruct (set_includes (ignore_err D) s); [by apply cw_ret|].
  apply cw_bind, cw_get, cw_bind.
  eapply (cw_mono _ _ _ _ (λ _ g' _, vertices g' = vertices g ∧ snug g')).
  { destruct (outboundEdges g2 !! s); [by apply cw_ret|]. apply cw_modify. split; [done|].
    intros k. simpl. rewrite lookup_insert_is_Some. intros [[<-|[_ Hk]]|Hk]; [by rewrite Hv2|apply Hg2; by left|apply Hg2; by right]. }
  intros _ g3 n3 [Hv3 Hg3]. apply cw_bind.
  eapply (cw_mono _ _ _ _ (λ _ g' _, vertices g' = vertices g ∧ snug g')).
  { apply cw_bind, cw_get. destruct (outboundEdges g3 !! s); [|apply cw_panic]. apply cw_modify. split; [done|].
    intros k. simpl. rewrite lookup_insert_is_Some. intros [[<-|[_ Hk]]|Hk]; [by rewrite Hv3|apply Hg3; by left|apply Hg3; by right]. }
  intros _ g4 n4 [Hv4 Hg4]. apply cw_bind, cw_get, cw_bind.
  eapply (cw_mono _ _ _ _ (λ _ g' _, vertices g' = vertices g ∧ snug g')).
  { destruct (inboundEdges g4 !! t); [by apply cw_ret|]. apply cw_modify. split; [done|].
    intros k. simpl. rewrite lookup_insert_is_Some. intros [Hk|[<-|[_ Hk]]]; [apply Hg4; by left|by rewrite Hv4|apply Hg4; by right]. }
  intros _ g5 n5 [Hv5 Hg5]. apply cw_bind.
  eapply (cw_mono _ _ _ _ (λ _ g' _, snug g')).
  { apply cw_bind, cw_get. destruct (inboundEdges g5 !! t); [|apply cw_panic]. apply cw_modify.
    intros k. simpl. rewrite lookup_insert_is_Some. intros [Hk|[<-|[_ Hk]]]; [apply Hg5; by left|by rewrite Hv5|apply Hg5; by right]. }
  intros _ g6 n6 Hg6. revert g6 n6 Hg6. cbv beta. repeat step.
Qed.

Lemma keep_DeleteVertex id : keep (DeleteVertex isz σ id).
Proof.
  intros g n Hg. apply cw_bind, cw_get. destruct (checkVertexID isz g id); [by apply cw_ret|].
  apply cw_bind. eapply cw_mono; [by apply keep_descendantsOf|]. intros D g1 n1 Hg1.
  apply cw_bind. eapply cw_mono; [by apply keep_ancestorsOf|]. intros U g2 n2 Hg2.
  apply cw_bind, cw_get, cw_bind. eapply (cw_mono _ _ _ _ (λ _ g' _, snug g')).
  { destruct (inboundEdges g2 !! id) as [ps|]; [|by apply cw_ret]. refine (keep_bind _ _ _ _ g2 n2 Hg2); [apply keep_range|]. intros ks. apply keep_for_each. intros _ x. repeat step. }
  intros _ g3 n3 Hg3.
  apply cw_bind, cw_get, cw_bind. eapply (cw_mono _ _ _ _ (λ _ g' _, snug g')).
  { destruct (outboundEdges g3 !! id) as [ps|]; [|by apply cw_ret]. refine (keep_bind _ _ _ _ g3 n3 Hg3); [apply keep_range|]. intros ks. apply keep_for_each. intros _ x. repeat step. }
  intros _ g4 n4 Hg4. apply cw_bind, cw_modify, cw_bind, cw_modify, cw_bind.
  eapply cw_mono; [apply any_rangev|]. intros ks g5 n5 ->.
  apply cw_bind, cw_for_each_modify. rewrite foldl_set_anc. apply cw_bind, cw_modify, cw_bind.
  eapply cw_mono; [apply any_rangev|]. intros ks' g6 n6 ->.
  apply cw_bind, cw_for_each_modify. rewrite foldl_set_desc. apply cw_bind, cw_modify, cw_bind, cw_modify, cw_ret.
  intros k. simpl. rewrite !lookup_delete_is_Some. intros [[Hne Hk]|[Hne Hk]]; (split; [done|]; apply Hg4); [by left|by right].
Qed.

Lemma snug_call (o : op K T) g r g' : snug g → call isz σ o g = Ok (r, g') → snug g'.
Proof using Hσ.
  intros Hg Hc. assert (keep (exec isz σ o)) as Hk.
  { pose proof (keep_exec o) as Ho. destruct o; try exact Ho; cbn [exec]; unfold mapM;
      (apply keep_bind; [|intros; by apply keep_ret]).
    - apply keep_AddVertex.
    - apply keep_DeleteVertex.
    - apply keep_AddEdge. }
  unfold call in Hc. destruct (Hk g 0 Hg) as [_ Hq].
  destruct (exec isz σ o g 0) as [[[r1 g1] n1]| |]; [|done..].
  injection Hc as <- <-. by apply (Hq _ _ _ eq_refl).
Qed.
End snug.


Section main.
Context {K T : Type} `{Countable K} `{Inhabited T} (isz : K → bool).
Notation graph := (graph K T).
Implicit Types g : graph.

Lemma reachable_snug g : reachable isz g → snug g.
Proof.
  intros (h&outs&Hh&Hr).
  assert (∀ g1 outs, snug g1 → run isz h g1 = Ok (outs, g) → snug g) as Hgen.
  { clear outs Hr. induction Hh as [|[σ o] h Hσ Hh IH]; intros g1 outs Hg1; simpl.
    - by intros [= _ <-].
    - destruct (call isz σ o g1) as [[r g2]| |] eqn:Hc; [|done..].
      destruct (run isz h g2) as [[rs g3]| |] eqn:Hr; [|done..]. intros [= _ <-].
      eapply IH; [|done]. by eapply snug_call. }
  eapply Hgen; [|done]. intros k. simpl. rewrite lookup_empty. by intros [[? ?]|[? ?]].
Qed.

(*P C95_nothing_deleted_remains *)
(** The maps of a graph have entries for its vertices only, and these entries hold
    its vertices only. *)
Lemma nothing_deleted_remains g k (s : goset K) :
  reachable isz g →
  inboundEdges g !! k = Some s ∨ outboundEdges g !! k = Some s ∨
    ancestorsCache g !! k = Some s ∨ descendantsCache g !! k = Some s →
  is_Some (vertices g !! k) ∧ ∀ w, is_Some (s !! w) → is_Some (vertices g !! w).
Proof.
  intros Hr Hs. pose proof (reachable_inv isz g Hr) as Hg. pose proof (reachable_snug g Hr) as Hk.
  assert (∀ x y, tc (E g) x y → is_Some (vertices g !! x) ∧ is_Some (vertices g !! y)) as Htc.
  { intros x y Hxy. induction Hxy as [x y Hxy|x y z Hxy _ IH]; [by eapply inv_dom|].
    split; [by apply (inv_dom _ _ Hg _ _ Hxy)|apply IH]. }
  destruct Hs as [Hs|[Hs|[Hs|Hs]]].
  - split; [apply Hk; right; by eexists|]. intros w Hw.
    assert (E g w k) as He; [|by apply (inv_dom _ _ Hg _ _ He)].
    apply (inv_mirror _ _ Hg). unfold adj, read. by rewrite Hs.
  - split; [apply Hk; left; by eexists|]. intros w Hw.
    assert (E g k w) as He; [|by apply (inv_dom _ _ Hg _ _ He)]. unfold E, adj, read. by rewrite Hs.
  - destruct (proj1 (inv_anc _ _ Hg) k s Hs) as (_&Hv&Hm). split; [done|]. intros w Hw%Hm.
    apply tc_flip in Hw. by destruct (Htc _ _ Hw).
  - destruct (proj1 (inv_desc _ _ Hg) k s Hs) as (_&Hv&Hm). split; [done|]. intros w Hw%Hm.
    by destruct (Htc _ _ Hw).
Qed.

(*P C95_no_vertices_no_trace *)
(** A graph without vertices is a new graph, whatever has been in it. *)
Lemma no_vertices_no_trace σ g g1 :
  reachable isz g → call isz σ OpGetOrder g = Ok (RInt 0, g1) → g = NewAcyclicGraph.
Proof.
  intros Hr Ho%order_is. symmetry in Ho. apply map_size_empty_inv in Ho.
  assert (∀ k s, ¬ (inboundEdges g !! k = Some s ∨ outboundEdges g !! k = Some s ∨
    ancestorsCache g !! k = Some s ∨ descendantsCache g !! k = Some s)) as Hn.
  { intros k s Hs. destruct (nothing_deleted_remains g k s Hr Hs) as [Hv _].
    rewrite Ho, lookup_empty in Hv. by destruct Hv. }
  destruct g as [v i o a d]. unfold NewAcyclicGraph. cbn in *. subst v. f_equal; apply map_empty; intros k.
  - destruct (i !! k) as [s|] eqn:E; [|done]. destruct (Hn k s). by left.
  - destruct (o !! k) as [s|] eqn:E; [|done]. destruct (Hn k s). by right; left.
  - destruct (a !! k) as [s|] eqn:E; [|done]. destruct (Hn k s). by right; right; left.
  - destruct (d !! k) as [s|] eqn:E; [|done]. destruct (Hn k s). by right; right; right.
Qed.
End main.
