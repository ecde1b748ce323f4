(** * Proofs about calls in several goroutines: the caches *)
From stdpp Require Import base list gmap fin_map_dom.
From Verif Require Import GoBase SetModel DagModel DagObs DagWp DagInv DagOps DagRefine DagMem DagMemFacts DagMemPropProofs DagRaceSpec.

Section fill.
Context {K T : Type} `{Countable K} `{Inhabited T} (isz : K → bool).
Notation graph := (graph K T).
Notation mem := (mem K T).
Implicit Types (g : graph) (m : mem).

Definition ask (up : bool) (id : K) : op K T := if up then OpGetAncestors id else OpGetDescendants id.
Definition cache_of (up : bool) g := if up then ancestorsCache g else descendantsCache g.
(** What the two calls do to the caches *)
Record filled (up : bool) (id : K) g g' : Prop := {
  fl_v : vertices g' = vertices g;
  fl_sub b : dom (cache_of b g) ⊆ dom (cache_of b g');
  fl_in : is_Some (vertices g !! id) → is_Some (cache_of up g' !! id)
}.
Lemma call_wp σ (o : op K T) g (Q : out K T → graph → Prop) :
  wp (exec isz σ o) g 0 (λ r g' _, Q r g') → ∀ r g', call isz σ o g = Ok (r, g') → Q r g'.
Proof. unfold wp, call. destruct (exec isz σ o g 0) as [[[r1 g1] n1]| |]; [|done|done]. by intros HQ r g' [= <- <-]. Qed.
Lemma load_wp σ s g n (Q : gmap K T → graph → nat → Prop) : legal σ → (∀ r n', Q r g n') → wp (loadFromCache σ s) g n Q.
Proof.
  intros Hσ HQ. unfold loadFromCache. apply wp_bind, wp_get, wp_bind, wp_range; [done|]. intros ks _. apply wp_for_each_pure. apply HQ.
Qed.
Lemma ask_fills σ up id g r g' : legal σ → inv isz g → call isz σ (ask up id) g = Ok (r, g') → inv isz g' ∧ filled up id g g'.
Proof.
  intros Hσ Hg Hc. split; [by destruct (call_inv isz σ _ _ _ _ Hσ Hg Hc)|]. revert r g' Hc. apply call_wp. destruct up; cbn [ask exec]; unfold mapM.
  - apply wp_bind. unfold GetAncestors. apply wp_bind. eapply wp_mono; [by apply ancestorsOf_wp|]. intros r g1 n1 (Hi & (Hv & _ & _ & Hd & Hs) & Hr).
    assert (filled true id g g1) as Hf.
    { split; [done| |].
      - intros [|]; cbn [cache_of]; [by apply subseteq_dom|by rewrite Hd].
      - intros Hk. apply (checkVertexID_None isz g id Hg) in Hk. rewrite Hk in Hr. destruct Hr as (s & _ & E). cbn [cache_of]. by rewrite E. }
    destruct r as [e|s]; [by apply wp_ret, wp_ret|]. apply wp_bind, load_wp; [done|]. intros. by apply wp_ret, wp_ret.
  - apply wp_bind. unfold GetDescendants. apply wp_bind. eapply wp_mono; [by apply descendantsOf_wp|]. intros r g1 n1 (Hi & (Hv & _ & _ & Hd & Hs) & Hr).
    assert (filled false id g g1) as Hf.
    { split; [done| |].
      - intros [|]; cbn [cache_of]; [by rewrite Hd|by apply subseteq_dom].
      - intros Hk. apply (checkVertexID_None isz g id Hg) in Hk. rewrite Hk in Hr. destruct Hr as (s & _ & E). cbn [cache_of]. by rewrite E. }
    destruct r as [e|s]; [by apply wp_ret, wp_ret|]. apply wp_bind, load_wp; [done|]. intros. by apply wp_ret, wp_ret.
Qed.
(** The graph in memory *)
Lemma view_cache m (up : bool) : dom (cache_of up (view m)) = dom (sets_at m (if up then ranc (this m) else rdesc (this m))).
Proof. destruct up; cbn [cache_of view ancestorsCache descendantsCache]; unfold deep; cbn [outer]; by rewrite dom_fmap_L. Qed.
Lemma complete_view m (up : bool) : complete m (if up then ranc else rdesc) ↔ ∀ k, is_Some (vertices (view m) !! k) → is_Some (cache_of up (view m) !! k).
Proof.
  unfold complete. cbn [vertices view]. split; intros Hc k Hk; specialize (Hc k Hk); apply elem_of_dom; apply elem_of_dom in Hc; revert Hc; rewrite view_cache; by destruct up.
Qed.
Lemma run_fills up (l : list (schedule K * K)) : ∀ g outs g', Forall (λ x, legal x.1) l → inv isz g →
  run isz (map (λ x, (x.1, ask up x.2)) l) g = Ok (outs, g') →
  vertices g' = vertices g ∧ (∀ b, dom (cache_of b g) ⊆ dom (cache_of b g')) ∧ ∀ k, k ∈ l.*2 → is_Some (vertices g !! k) → is_Some (cache_of up g' !! k).
Proof.
  induction l as [|[σ id] l IH]; intros g outs g' Hl Hg Hr.
  - injection Hr as <- <-. split; [done|]. split; [done|]. by intros k ?%elem_of_nil.
  - apply Forall_cons in Hl as [Hσ Hl]. cbn [map run fst snd] in *. destruct (call isz σ (ask up id) g) as [[r g1]| |] eqn:Ec; [|done..].
    destruct (run isz _ g1) as [[rs g2]| |] eqn:Er; [|done..]. injection Hr as <- <-. destruct (ask_fills σ up id g r g1 Hσ Hg Ec) as [Hg1 [Hv Hs Hin]].
    destruct (IH g1 rs g2 Hl Hg1 Er) as (Hv' & Hs' & Hin'). split; [congruence|]. split; [intros b; specialize (Hs b); specialize (Hs' b); set_solver|].
    intros k Hk Hkv. cbn [fmap list_fmap snd] in Hk. apply elem_of_cons in Hk as [->|Hk].
    + apply elem_of_dom, Hs', elem_of_dom. by apply Hin.
    + apply Hin'; [done|]. by rewrite Hv.
Qed.
Lemma run_app_inv h1 h2 g outs g' : run (T:=T) isz (h1 ++ h2) g = Ok (outs, g') →
  ∃ outs1 g1 outs2, run isz h1 g = Ok (outs1, g1) ∧ run isz h2 g1 = Ok (outs2, g') ∧ outs = outs1 ++ outs2.
Proof.
  revert g outs. induction h1 as [|[σ o] h1 IH]; intros g outs Hr; [by exists [], g, outs|]. cbn [app run] in *. destruct (call isz σ o g) as [[r g1]| |]; [|done..].
  destruct (run isz (h1 ++ h2) g1) as [[rs g2]| |] eqn:E; [|done..]. injection Hr as <- <-. destruct (IH _ _ E) as (outs1 & g3 & outs2 & E1 & E2 & ->).
  exists (r :: outs1), g3, outs2. split; [by rewrite E1|done].
Qed.
End fill.
