(** * The representation invariant, and the memoised closure queries *)
From stdpp Require Import base list gmap relations.
From Verif Require Import GoBase SetModel DagModel DagWp RelFacts.

Section inv.
Context {K T : Type} `{Countable K} `{Inhabited T} (isz : K → bool).
Notation graph := (graph K T).
Implicit Types g : graph.

(** [t] is listed under [s] in an adjacency map. *)
Definition adj (m : gmap K (goset K)) (s t : K) : Prop := mem t (read m s).
Definition E g : relation K := adj (outboundEdges g).

Definition wfsets (m : gmap K (goset K)) : Prop := ∀ k s, m !! k = Some s → wfset s.

(** A cache holds, for some vertices, the exact closure, and holds the closure
    of every successor of what it holds. *)
Definition cache_ok (R : relation K) (V : gmap K T) (c : gmap K (goset K)) : Prop :=
  (∀ v s, c !! v = Some s → wfset s ∧ is_Some (V !! v) ∧ ∀ w, mem w s ↔ tc R v w) ∧
  (∀ v w, is_Some (c !! v) → R v w → is_Some (c !! w)).

Record inv g : Prop := Inv {
  inv_wf_in : wfsets (inboundEdges g);
  inv_wf_out : wfsets (outboundEdges g);
  inv_mirror : ∀ s t, adj (outboundEdges g) s t ↔ adj (inboundEdges g) t s;
  inv_dom : ∀ s t, E g s t → is_Some (vertices g !! s) ∧ is_Some (vertices g !! t);
  inv_nonzero : ∀ v, is_Some (vertices g !! v) → isz v = false;
  inv_acyclic : ∀ v, ¬ tc (E g) v v;
  inv_desc : cache_ok (E g) (vertices g) (descendantsCache g);
  inv_anc : cache_ok (flip (E g)) (vertices g) (ancestorsCache g)
}.

Lemma adj_empty s t : ¬ adj ∅ s t.
Proof. unfold adj, read. rewrite lookup_empty. apply mem_empty. Qed.

Lemma read_wf m k : wfsets m → wfset (read m k).
Proof.
  intros Hm. unfold read. destruct (m !! k) eqn:Hk; simpl; [by eapply Hm|apply wfset_empty].
Qed.

Lemma cache_ok_proper R R' V c :
  (∀ x y, R x y ↔ R' x y) → cache_ok R V c → cache_ok R' V c.
Proof.
  intros HR [H1 H2]. split.
  - intros v s Hv. destruct (H1 v s Hv) as (?&?&Hs). split_and!; [done..|].
    intros w. rewrite Hs. by apply tc_iff.
  - intros v w Hv Hvw. eapply H2; [done|]. by apply HR.
Qed.

Lemma inv_new : inv (NewAcyclicGraph (K:=K) (T:=T)).
Proof.
  assert (∀ s t, ¬ E NewAcyclicGraph s t) as HE by (intros s t; apply adj_empty).
  split.
  - intros k s. simpl. by rewrite lookup_empty.
  - intros k s. simpl. by rewrite lookup_empty.
  - intros s t. split; intros Hst; by apply adj_empty in Hst.
  - intros s t Hst. by apply HE in Hst.
  - intros v. simpl. rewrite lookup_empty. by intros [? ?].
  - intros v Hv. apply tc_first in Hv as (?&?&_). by eapply HE.
  - split; intros v; simpl; rewrite lookup_empty; [done|by intros ? [? ?]].
  - split; intros v; simpl; rewrite lookup_empty; [done|by intros ? [? ?]].
Qed.

(** ** Exchanging the two directions *)
Definition flipg g : graph :=
  Graph (vertices g) (outboundEdges g) (inboundEdges g)
        (descendantsCache g) (ancestorsCache g).
Lemma flipg_flipg g : flipg (flipg g) = g.
Proof. by destruct g. Qed.
Lemma E_flipg g s t : inv g → E (flipg g) s t ↔ E g t s.
Proof. intros Hg. unfold E. simpl. symmetry. apply (inv_mirror g Hg). Qed.

Lemma inv_flipg g : inv g → inv (flipg g).
Proof.
  intros Hg. pose proof (λ s t, E_flipg g s t Hg) as HE. split; simpl.
  - apply (inv_wf_out g Hg).
  - apply (inv_wf_in g Hg).
  - intros s t. symmetry. apply (inv_mirror g Hg).
  - intros s t Hst%HE. apply (inv_dom g Hg) in Hst. naive_solver.
  - apply (inv_nonzero g Hg).
  - intros v Hv. apply (tc_iff _ (flip (E g))) in Hv; [|intros; apply HE].
    apply tc_flip in Hv. by apply (inv_acyclic g Hg) in Hv.
  - eapply cache_ok_proper; [|apply (inv_anc g Hg)]. intros x y. symmetry. apply HE.
  - eapply cache_ok_proper; [|apply (inv_desc g Hg)]. intros x y. unfold flip. symmetry. apply HE.
Qed.

Definition flipr {A} (r : res (A * graph * nat)) : res (A * graph * nat) :=
  match r with
  | Ok (a, g, n) => Ok (a, flipg g, n)
  | Panic => Panic
  | OutOfFuel => OutOfFuel
  end.

Lemma for_each_flip {A B} (l : list B) (body body' : A → B → M (K:=K) (T:=T) A) acc g n :
  (∀ acc x g n, body acc x g n = flipr (body' acc x (flipg g) n)) →
  for_each l body acc g n = flipr (for_each l body' acc (flipg g) n).
Proof.
  intros Hb. revert acc g n. induction l as [|x l IH]; intros acc g n; simpl.
  { unfold ret, flipr. by rewrite flipg_flipg. }
  unfold bind. rewrite Hb. destruct (body' acc x (flipg g) n) as [[[a g'] n']| |]; simpl; [|done..].
  rewrite IH. by rewrite flipg_flipg.
Qed.

Lemma bind_get {A} (f : graph → M (K:=K) (T:=T) A) g n : bind get f g n = f g g n.
Proof. done. Qed.
Lemma bind_range {V A} σ (m : gmap K V) (f : list K → M (K:=K) (T:=T) A) g n :
  bind (range σ m) f g n = f (range_keys σ n m) g (S n).
Proof. done. Qed.

Lemma getAncestorsIDs_flip σ fuel id g n :
  getAncestorsIDs isz σ fuel id g n = flipr (getDescendantsIDs isz σ fuel id (flipg g) n).
Proof.
  revert id g n. induction fuel as [|fuel IH]; intros id g n; [done|].
  cbn [getAncestorsIDs getDescendantsIDs].
  assert (∀ (m1 m2 : M (K:=K) (T:=T) (goset K)),
    (∀ g n, m1 g n = flipr (m2 (flipg g) n)) →
    bind m1 (λ cache, bind (modify (set_anc <[id:=cache]>)) (λ _, ret (inr (A:=err) cache))) g n =
    flipr (bind m2 (λ cache, bind (modify (set_desc <[id:=cache]>))
      (λ _, ret (inr (A:=err) cache))) (flipg g) n)) as Hstore.
  { intros m1 m2 Hm. unfold bind. rewrite Hm.
    destruct (m2 (flipg g) n) as [[[c []] n']| |]; done. }
  rewrite !bind_get.
  change (checkVertexID isz (flipg g) id) with (checkVertexID isz g id).
  destruct (checkVertexID isz g id); [by destruct g|].
  change (descendantsCache (flipg g)) with (ancestorsCache g).
  change (outboundEdges (flipg g)) with (inboundEdges g).
  destruct (ancestorsCache g !! id); [by destruct g|].
  apply Hstore. clear Hstore. intros g' n'.
  destruct (inboundEdges g !! id) as [parents|]; [|by destruct g'].
  rewrite !bind_range.
  apply for_each_flip. intros acc x g2 n2. unfold bind. rewrite IH.
  destruct (getDescendantsIDs isz σ fuel x (flipg g2) n2) as [[[r g3] n3]| |]; done.
Qed.

(** ** The closure queries *)

(** Everything but the descendants cache is as before, and that cache has grown. *)
Definition grows g g' : Prop :=
  vertices g' = vertices g ∧ inboundEdges g' = inboundEdges g ∧
  outboundEdges g' = outboundEdges g ∧ ancestorsCache g' = ancestorsCache g ∧
  descendantsCache g ⊆ descendantsCache g'.
Lemma grows_refl g : grows g g.
Proof. by repeat split. Qed.
Lemma grows_trans g1 g2 g3 : grows g1 g2 → grows g2 g3 → grows g1 g3.
Proof.
  intros (?&?&?&?&?) (?&?&?&?&?). split_and!; try congruence. by etrans.
Qed.
Lemma grows_E g g' s t : grows g g' → E g' s t ↔ E g s t.
Proof. intros (?&?&Ho&?). unfold E. by rewrite Ho. Qed.

Lemma checkVertexID_None g id :
  inv g → checkVertexID isz g id = None ↔ is_Some (vertices g !! id).
Proof.
  intros Hg. unfold checkVertexID. split.
  - destruct (isz id); [done|]. destruct (vertices g !! id); naive_solver.
  - intros Hv. rewrite (inv_nonzero g Hg id Hv). destruct Hv as [? ->]. done.
Qed.
Lemma checkVertexID_vertices g g' id :
  vertices g' = vertices g → checkVertexID isz g' id = checkVertexID isz g id.
Proof. intros Hv. unfold checkVertexID. by rewrite Hv. Qed.

(** What a finished [getDescendantsIDs] guarantees. *)
Definition desc_post g id (r : err + goset K) g' : Prop :=
  inv g' ∧ grows g g' ∧
  match checkVertexID isz g id with
  | Some e => r = inl e ∧ g' = g
  | None => ∃ s, r = inr s ∧ descendantsCache g' !! id = Some s
  end.

Lemma getDescendantsIDs_wp σ fuel id g n (A : gset K) :
  legal σ → inv g →
  A ⊆ dom (vertices g) → (∀ a, a ∈ A → tc (E g) a id) →
  size (vertices g) < fuel + size A →
  wp (getDescendantsIDs isz σ fuel id) g n (λ r g' _, desc_post g id r g').
Proof.
  intros Hσ. revert id g n A. induction fuel as [|fuel IH]; intros id g n A Hg HAV HA Hf.
  { apply subseteq_size in HAV. rewrite size_dom in HAV. lia. }
  cbn [getDescendantsIDs]. apply wp_bind, wp_get.
  destruct (checkVertexID isz g id) as [e|] eqn:Hid.
  { apply wp_ret. split; [done|]. split; [apply grows_refl|]. by rewrite Hid. }
  destruct (descendantsCache g !! id) as [c|] eqn:Hc.
  { apply wp_ret. split; [done|]. split; [apply grows_refl|]. rewrite Hid. eauto. }
  pose proof Hid as Hidv. rewrite checkVertexID_None in Hidv by done.
  assert (id ∉ A) as HidA.
  { intros HidA. by apply (inv_acyclic g Hg id), HA. }
  apply wp_bind.
  (* the loop over the children *)
  set (Q := λ (cache : goset K) g' (_ : nat),
    inv g' ∧ grows g g' ∧ wfset cache ∧
    (∀ c, E g id c → is_Some (descendantsCache g' !! c)) ∧
    (∀ w, mem w cache ↔ ∃ c, E g id c ∧ rtc (E g) c w)).
  eapply (wp_mono _ _ _ Q).
  - destruct (outboundEdges g !! id) as [children|] eqn:Hch.
    2: { assert (∀ c, ¬ E g id c) as HE.
      { intros c. unfold E, adj, read. rewrite Hch. apply mem_empty. }
      apply wp_ret. split_and!; [done|apply grows_refl|apply wfset_empty|naive_solver|].
      intros w. split; [by intros ?%mem_empty|naive_solver]. }
    assert (∀ c, E g id c ↔ mem c children) as HE.
    { intros c. unfold E, adj, read. by rewrite Hch. }
    apply wp_bind. apply wp_range; [done|]. intros ks Hks.
    assert (∀ c, c ∈ ks ↔ E g id c) as Hks'.
    { intros c. rewrite Hks, HE. apply map_keys_elem. }
    apply (wp_for_each _ _ (λ pre cache g' _,
      inv g' ∧ grows g g' ∧ wfset cache ∧
      (∀ c, c ∈ pre → is_Some (descendantsCache g' !! c)) ∧
      (∀ w, mem w cache ↔ ∃ c, c ∈ pre ∧ rtc (E g) c w))).
    + intros pre x post cache g1 n1 Heq (Hg1&Hgr&Hwf&Hcached&Hcache).
      assert (E g id x) as Hx. { apply Hks'. rewrite Heq. set_solver. }
      apply wp_bind.
      eapply wp_mono.
      { apply (IH x g1 n1 ({[id]} ∪ A)).
        - done.
        - destruct Hgr as (->&_). intros a [->%elem_of_singleton|Ha]%elem_of_union.
          + by apply elem_of_dom.
          + by apply HAV.
        - intros a Ha. apply (tc_iff _ (E g)); [intros; by apply grows_E|].
          apply elem_of_union in Ha as [->%elem_of_singleton|Ha]; [by apply tc_once|].
          eapply tc_r; [by apply HA|done].
        - destruct Hgr as (->&_).
          rewrite size_union, size_singleton by set_solver. lia. }
      intros r g2 n2 (Hg2&Hgr2&Hr).
      assert (is_Some (vertices g1 !! x)) as Hxv.
      { destruct Hgr as (->&_). by apply (inv_dom g Hg) in Hx as [_ ?]. }
      apply checkVertexID_None in Hxv; [|done]. rewrite Hxv in Hr.
      destruct Hr as (s&->&Hs).
      destruct (proj1 (inv_desc g2 Hg2) x s Hs) as (Hswf&_&Hsx).
      assert (grows g g2) as Hgr02 by (by eapply grows_trans).
      apply wp_bind. apply wp_rangev; [done..|]. intros vs Hvs. apply wp_ret.
      assert (∀ w, w ∈ vs ↔ tc (E g) x w) as Hvs'.
      { intros w. rewrite Hvs, map_keys_elem. fold (mem w s). rewrite Hsx.
        apply tc_iff. intros. by apply grows_E. }
      split_and!.
      * done.
      * done.
      * by apply wfset_add, wfset_foldl_add.
      * intros c Hc'. apply elem_of_app in Hc' as [Hc'| ->%elem_of_list_singleton].
        -- destruct (Hcached c Hc') as [s' Hs'].
           exists s'. destruct Hgr2 as (_&_&_&_&Hsub).
           by eapply lookup_weaken.
        -- by exists s.
      * intros w. rewrite mem_add, mem_foldl_add, Hvs', Hcache. split.
        -- intros [->|[Hw|(c&Hc'&Hw)]].
           ++ exists x. split; [set_solver|constructor].
           ++ exists x. split; [set_solver|by apply tc_rtc].
           ++ exists c. split; [set_solver|done].
        -- intros (c&Hc'&Hw). apply elem_of_app in Hc' as [Hc'| ->%elem_of_list_singleton]; [by eauto|].
           apply rtc_inv_eq_tc in Hw as [->|Hw]; eauto.
    + split_and!; [done|apply grows_refl|apply wfset_empty|set_solver|].
      intros w. split; [by intros ?%mem_empty|set_solver].
    + intros cache g1 n1 (Hg1&Hgr&Hwf&Hcached&Hcache). unfold Q. split_and!; [done..| |].
      * intros c Hc'. apply Hcached. by apply Hks'.
      * intros w. rewrite Hcache. by setoid_rewrite Hks'.
  - (* storing the result *)
    intros cache g1 n1 (Hg1&Hgr&Hwf&Hcached&Hcache).
    apply wp_bind, wp_modify, wp_ret.
    assert (∀ w, mem w cache ↔ tc (E g) id w) as Hexact.
    { intros w. rewrite Hcache. split.
      - intros (c&Hc'&Hw). apply rtc_inv_eq_tc in Hw as [->|Hw]; [by apply tc_once|by eapply tc_l].
      - intros Hw%tc_first. done. }
    assert (grows g (set_desc <[id:=cache]> g1)) as Hgr2.
    { destruct Hgr as (?&?&?&?&Hsub). split_and!; simpl; try done.
      apply insert_subseteq_r; done. }
    split; [|split; [done|]].
    + assert (∀ s t, E (set_desc <[id:=cache]> g1) s t ↔ E g1 s t) as HE1 by done.
      split; try (by apply Hg1).
      split; simpl.
      * intros v s. rewrite lookup_insert_Some. intros [[<- <-]|[Hne Hv]].
        -- split; [done|]. split; [by destruct Hgr as (->&_)|].
           intros w. rewrite Hexact. apply tc_iff. intros. symmetry. by apply (grows_E g g1).
        -- by apply (proj1 (inv_desc g1 Hg1)).
      * intros v w. rewrite lookup_insert_is_Some. intros [<-|[Hne Hv]] Hvw.
        -- rewrite lookup_insert_is_Some.
           destruct (decide (id = w)); [by left|right]. split; [done|].
           apply Hcached. by apply (grows_E g g1).
        -- rewrite lookup_insert_is_Some.
           destruct (decide (id = w)); [by left|right]. split; [done|].
           by apply (proj2 (inv_desc g1 Hg1) v w).
    + rewrite Hid. exists cache. split; [done|]. simpl. apply lookup_insert.
Qed.

(** Packaged versions for the API: the closure and the new graph. *)
Lemma descendantsOf_wp σ id g n :
  legal σ → inv g →
  wp (descendantsOf isz σ id) g n (λ r g' _, desc_post g id r g').
Proof.
  intros Hσ Hg. apply wp_bind, wp_get.
  apply (getDescendantsIDs_wp _ _ _ _ _ ∅); [done..|set_solver|set_solver|].
  unfold fuel_of. rewrite size_empty. lia.
Qed.

Definition grows_anc g g' : Prop :=
  vertices g' = vertices g ∧ inboundEdges g' = inboundEdges g ∧
  outboundEdges g' = outboundEdges g ∧ descendantsCache g' = descendantsCache g ∧
  ancestorsCache g ⊆ ancestorsCache g'.
Definition anc_post g id (r : err + goset K) g' : Prop :=
  inv g' ∧ grows_anc g g' ∧
  match checkVertexID isz g id with
  | Some e => r = inl e ∧ g' = g
  | None => ∃ s, r = inr s ∧ ancestorsCache g' !! id = Some s
  end.
Lemma ancestorsOf_wp σ id g n :
  legal σ → inv g →
  wp (ancestorsOf isz σ id) g n (λ r g' _, anc_post g id r g').
Proof.
  intros Hσ Hg. apply wp_bind, wp_get. unfold wp. rewrite getAncestorsIDs_flip.
  pose proof (inv_flipg g Hg) as Hgf.
  pose proof (getDescendantsIDs_wp σ (fuel_of g) id (flipg g) n ∅ Hσ Hgf) as Hwp.
  unfold wp in Hwp. feed specialize Hwp; [set_solver|set_solver| |].
  { unfold fuel_of. simpl. lia. }
  destruct (getDescendantsIDs isz σ (fuel_of g) id (flipg g) n) as [[[r g'] n']| |]; simpl; [|done..].
  destruct Hwp as (Hg'&(Hv&Hi&Ho&Ha&Hd)&Hr). split; [by apply inv_flipg|]. split.
  - by split_and!.
  - change (checkVertexID isz (flipg g) id) with (checkVertexID isz g id) in Hr.
    destruct (checkVertexID isz g id).
    + destruct Hr as [-> ->]. by rewrite flipg_flipg.
    + done.
Qed.

(** The set returned is the exact closure. *)
Lemma desc_post_exact g id r g' :
  desc_post g id r g' → is_Some (vertices g !! id) → inv g →
  ∃ s, r = inr s ∧ wfset s ∧ ∀ w, mem w s ↔ tc (E g) id w.
Proof.
  intros (Hg'&Hgr&Hr) Hv Hg. apply checkVertexID_None in Hv; [|done]. rewrite Hv in Hr.
  destruct Hr as (s&->&Hs). exists s. split; [done|].
  destruct (proj1 (inv_desc g' Hg') id s Hs) as (?&_&Hw). split; [done|].
  intros w. rewrite Hw. apply tc_iff. intros. by apply grows_E.
Qed.
Lemma anc_post_exact g id r g' :
  anc_post g id r g' → is_Some (vertices g !! id) → inv g →
  ∃ s, r = inr s ∧ wfset s ∧ ∀ w, mem w s ↔ tc (E g) w id.
Proof.
  intros (Hg'&Hgr&Hr) Hv Hg. apply checkVertexID_None in Hv; [|done]. rewrite Hv in Hr.
  destruct Hr as (s&->&Hs). exists s. split; [done|].
  destruct (proj1 (inv_anc g' Hg') id s Hs) as (?&_&Hw). split; [done|].
  intros w. rewrite Hw. rewrite tc_flip. apply tc_iff. intros.
  destruct Hgr as (?&?&Ho&?). unfold E. by rewrite Ho.
Qed.

End inv.
