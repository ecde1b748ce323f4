(** * How many map loops a call of the graph executes *)
From stdpp Require Import base list gmap relations sets fin_sets.
From Verif Require Import GoBase SetModel DagModel DagWp RelFacts DagInv DagSpec DagOps DagMut DagBfs DagObs DagRefine DagString.

(** ** Rules: what holds if a statement ends, and that it is the same under two
    schedules *)
Section cw.
Context {K T : Type} `{Countable K}.
Notation graph := (graph K T).
Notation M := (M (K:=K) (T:=T)).

Definition cw {A} (m m' : M A) (g : graph) (n : nat) (Q : A → graph → nat → Prop) : Prop :=
  m g n = m' g n ∧ ∀ a g' n', m g n = Ok (a, g', n') → Q a g' n'.

Lemma cw_wp {A} (m m' : M A) g n (Q Q' : A → graph → nat → Prop) :
  wp m g n Q → cw m m' g n Q' → cw m m' g n (λ a g' n', Q a g' n' ∧ Q' a g' n').
Proof.
  unfold wp, cw. intros Hw [Heq Hq]. split; [done|]. intros a g' n' Hm. rewrite Hm in Hw.
  split; [done|]. by apply Hq.
Qed.
Lemma cw_mono {A} (m m' : M A) g n (Q Q' : A → graph → nat → Prop) :
  cw m m' g n Q → (∀ a g' n', Q a g' n' → Q' a g' n') → cw m m' g n Q'.
Proof. intros [Heq Hq] HQ. split; [done|]. intros a g' n' Hm. by apply HQ, Hq. Qed.
Lemma cw_ret {A} (a : A) g n (Q : A → graph → nat → Prop) : Q a g n → cw (ret a) (ret a) g n Q.
Proof. intros HQ. split; [done|]. by intros ??? [= <- <- <-]. Qed.
Lemma cw_panic {A} g n (Q : A → graph → nat → Prop) : cw panic panic g n Q.
Proof. by split. Qed.
Lemma cw_out_of_fuel {A} g n (Q : A → graph → nat → Prop) : cw out_of_fuel out_of_fuel g n Q.
Proof. by split. Qed.
Lemma cw_bind {A B} (m m' : M A) (f f' : A → M B) g n Q :
  cw m m' g n (λ a g' n', cw (f a) (f' a) g' n' Q) → cw (bind m f) (bind m' f') g n Q.
Proof.
  unfold cw, bind. intros [Heq Hq]. rewrite <-Heq. destruct (m g n) as [[[a g'] n']| |]; [|by split..].
  apply (Hq a g' n' eq_refl).
Qed.
Lemma cw_get g n (Q : graph → graph → nat → Prop) : Q g g n → cw get get g n Q.
Proof. intros HQ. split; [done|]. by intros ??? [= <- <- <-]. Qed.
Lemma cw_modify f g n (Q : unit → graph → nat → Prop) : Q tt (f g) n → cw (modify f) (modify f) g n Q.
Proof. intros HQ. split; [done|]. by intros ??? [= <- <- <-]. Qed.
Lemma cw_for_each {A B} (l : list B) (body body' : A → B → M A)
    (I : list B → A → graph → nat → Prop) acc g n (Q : A → graph → nat → Prop) :
  (∀ pre x post acc g n, l = pre ++ x :: post → I pre acc g n →
     cw (body acc x) (body' acc x) g n (λ acc' g' n', I (pre ++ [x]) acc' g' n')) →
  I [] acc g n →
  (∀ acc g n, I l acc g n → Q acc g n) →
  cw (for_each l body acc) (for_each l body' acc) g n Q.
Proof.
  intros Hbody HI HQ.
  assert (∀ post pre acc g n, l = pre ++ post → I pre acc g n →
    cw (for_each post body acc) (for_each post body' acc) g n Q) as Hgen.
  { induction post as [|x post IH]; intros pre acc' g' n' -> HI'; simpl.
    - apply cw_ret, HQ. by rewrite app_nil_r.
    - apply cw_bind. eapply cw_mono; [by eapply Hbody|].
      intros a2 g2 n2 HI2. eapply IH; [|done]. by rewrite <-(assoc_L (++)). }
  by apply (Hgen l []).
Qed.
Lemma cw_for_each_pure {A B} (l : list B) (f : A → B → A) acc (g : graph) n (Q : _ → graph → nat → Prop) :
  Q (foldl f acc l) g n →
  cw (for_each l (λ acc x, ret (f acc x)) acc) (for_each l (λ acc x, ret (f acc x)) acc) g n Q.
Proof.
  intros HQ. split; [done|]. intros a g' n'. rewrite for_each_pure. by intros [= <- <- <-].
Qed.
Lemma cw_for_each_modify {B} (l : list B) (f : B → graph → graph) (g : graph) n (Q : _ → graph → nat → Prop) :
  Q tt (foldl (λ g x, f x g) g l) n →
  cw (for_each l (λ _ x, modify (f x)) tt) (for_each l (λ _ x, modify (f x)) tt) g n Q.
Proof.
  intros HQ. split; [done|]. intros a g' n'. rewrite for_each_modify. by intros [= <- <- <-].
Qed.

(** Two schedules that agree on maps with at most [b] entries. *)
Context (σ σ' : schedule K) (b : nat) (Hσ : legal σ).
Context (Hagree : ∀ n l, length l ≤ b → σ n l = σ' n l).
Lemma cw_range {V} (m : gmap K V) g n (Q : list K → graph → nat → Prop) :
  size m ≤ b → (∀ ks, ks ≡ₚ (map_to_list m).*1 → Q ks g (S n)) → cw (range σ m) (range σ' m) g n Q.
Proof using Hσ Hagree.
  intros Hm HQ. split.
  - unfold range, range_keys. rewrite Hagree; [done|].
    fold (keys m). by rewrite length_keys.
  - unfold range. intros ??? [= <- <- <-]. apply HQ. apply Hσ.
Qed.
Lemma cw_rangev (s : goset K) g n (Q : list K → graph → nat → Prop) :
  size s ≤ b → (∀ ks, Q ks g (S n)) → cw (rangev σ s) (rangev σ' s) g n Q.
Proof using Hσ Hagree.
  intros Hm HQ. split.
  - unfold rangev, range_vals, range_keys. rewrite Hagree; [done|].
    fold (keys s). by rewrite length_keys.
  - unfold rangev. intros ??? [= <- <- <-]. apply HQ.
Qed.
End cw.

Section cost.
Context {K T : Type} `{Countable K} `{Inhabited T} (isz : K → bool).
Notation graph := (graph K T).
Implicit Types g : graph.

(** The work left: vertices without a cached set, and edges from such vertices. *)
Definition todo_v g : gset K :=
  filter (λ v, descendantsCache g !! v = None) (dom (vertices g)).
Definition todo_e g : gset (K * K) :=
  filter (λ e, descendantsCache g !! e.1 = None) (ae (abs g)).
Definition pot g : nat := size (todo_v g) + size (todo_e g).
Definition all g : nat := size (vertices g) + size (ae (abs g)).

Lemma pot_all g : pot g ≤ all g.
Proof.
  unfold pot, all. apply Nat.add_le_mono.
  - rewrite <-size_dom. apply subseteq_size. unfold todo_v. set_solver.
  - apply subseteq_size. unfold todo_e. set_solver.
Qed.

(** Storing the set of [id], which has the children [ks]. *)
Lemma pot_insert g id s ks :
  is_Some (vertices g !! id) → descendantsCache g !! id = None →
  NoDup ks → (∀ c, c ∈ ks ↔ E g id c) →
  pot (set_desc <[id:=s]> g) + S (length ks) ≤ pot g.
Proof.
  intros Hv Hc Hnd Hks.
  set (g' := set_desc <[id:=s]> g).
  assert (size (todo_v g') + 1 ≤ size (todo_v g)) as H1.
  { replace 1 with (size ({[id]} : gset K)) by apply size_singleton.
    rewrite <-size_union.
    - apply subseteq_size. intros v [Hv'| ->%elem_of_singleton]%elem_of_union.
      + unfold todo_v in *. apply elem_of_filter in Hv' as [Hn Hd]. apply elem_of_filter.
        split; [|done]. unfold g' in Hn. simpl in Hn. by apply lookup_insert_None in Hn as [? ?].
      + unfold todo_v. apply elem_of_filter. split; [done|]. by apply elem_of_dom.
    - apply disjoint_singleton_r. unfold todo_v. rewrite elem_of_filter. intros [Hn _].
      unfold g' in Hn. simpl in Hn. by rewrite lookup_insert in Hn. }
  assert (size (todo_e g') + length ks ≤ size (todo_e g)) as H2.
  { set (L := list_to_set ((λ c, (id, c)) <$> ks) : gset (K * K)).
    assert (size L = length ks) as HL.
    { unfold L. rewrite size_list_to_set.
      - by rewrite fmap_length.
      - apply NoDup_fmap_2; [|done]. by intros ? ? [= ->]. }
    rewrite <-HL, <-size_union.
    - apply subseteq_size. intros [a b] [Hv'|Hv']%elem_of_union.
      + unfold todo_e in *. apply elem_of_filter in Hv' as [Hn Hd]. apply elem_of_filter.
        split; [|exact Hd]. unfold g' in Hn. simpl in Hn. simpl. by apply lookup_insert_None in Hn as [? ?].
      + unfold L in Hv'. apply elem_of_list_to_set, elem_of_list_fmap in Hv' as (c&[= -> ->]&Hc').
        unfold todo_e. apply elem_of_filter. split; [done|]. apply ae_abs. by apply Hks.
    - intros [a b] Ha Hb. unfold L in Hb.
      apply elem_of_list_to_set, elem_of_list_fmap in Hb as (c&[= -> ->]&Hc').
      unfold todo_e in Ha. apply elem_of_filter in Ha as [Hn _].
      unfold g' in Hn. simpl in Hn. by rewrite lookup_insert in Hn. }
  unfold pot. lia.
Qed.

(** A set of vertices is no larger than the graph. *)
Lemma set_size_le g (s : goset K) :
  (∀ w, mem w s → is_Some (vertices g !! w)) → size s ≤ size (vertices g).
Proof.
  intros Hs. rewrite <-!(size_dom (D:=gset K)). apply subseteq_size. intros w.
  rewrite !elem_of_dom. apply Hs.
Qed.
Lemma children_size g id : inv isz g → size (read (outboundEdges g) id) ≤ size (vertices g).
Proof.
  intros Hg. apply set_size_le. intros w Hw. by destruct (inv_dom isz g Hg id w Hw).
Qed.
Lemma parents_size g id : inv isz g → size (read (inboundEdges g) id) ≤ size (vertices g).
Proof.
  intros Hg. apply set_size_le. intros w Hw. apply (inv_mirror isz g Hg) in Hw.
  by destruct (inv_dom isz g Hg w id Hw).
Qed.
Lemma desc_post_size g id r g' :
  inv isz g → desc_post isz g id r g' → size (ignore_err r) ≤ size (vertices g).
Proof.
  intros Hg (Hg'&Hgr&Hr). destruct (checkVertexID isz g id).
  - destruct Hr as [-> _]. simpl. by rewrite map_size_empty; lia.
  - destruct Hr as (s&->&Hs). simpl. destruct Hgr as (<-&_). apply set_size_le. intros w.
    destruct (proj1 (inv_desc isz g' Hg') id s Hs) as (_&_&Hw). rewrite Hw.
    intros Htc. by apply (tc_dom isz) in Htc as [_ ?].
Qed.
Lemma anc_post_size g id r g' :
  inv isz g → anc_post isz g id r g' → size (ignore_err r) ≤ size (vertices g).
Proof.
  intros Hg (Hg'&Hgr&Hr). destruct (checkVertexID isz g id).
  - destruct Hr as [-> _]. simpl. by rewrite map_size_empty; lia.
  - destruct Hr as (s&->&Hs). simpl. destruct Hgr as (<-&_). apply set_size_le. intros w.
    destruct (proj1 (inv_anc isz g' Hg') id s Hs) as (_&_&Hw). rewrite Hw, tc_flip.
    intros Htc. by apply (tc_dom isz) in Htc as [? _].
Qed.

Context (σ σ' : schedule K) (b : nat) (Hσ : legal σ).
Context (Hagree : ∀ n l, length l ≤ b → σ n l = σ' n l).

(** Which vertices get a set. *)
Definition filled g id g' : Prop :=
  ∀ w, is_Some (descendantsCache g' !! w) → is_Some (descendantsCache g !! w) ∨ rtc (E g) id w.

Lemma getDescendantsIDs_cost fuel id g n (A : gset K) :
  inv isz g → size (vertices g) ≤ b →
  A ⊆ dom (vertices g) → (∀ a, a ∈ A → tc (E g) a id) →
  size (vertices g) < fuel + size A →
  cw (getDescendantsIDs isz σ fuel id) (getDescendantsIDs isz σ' fuel id) g n (λ r g' n', filled g id g' ∧ n' + pot g' ≤ n + pot g).
Proof.
  revert id g n A. induction fuel as [|fuel IH]; intros id g n A Hg Hb HAV HA Hf.
  { apply subseteq_size in HAV. rewrite size_dom in HAV. lia. }
  cbn [getDescendantsIDs]. apply cw_bind, cw_get.
  destruct (checkVertexID isz g id) as [e|] eqn:Hid.
  { apply cw_ret. split; [by left|lia]. }
  destruct (descendantsCache g !! id) as [c|] eqn:Hc.
  { apply cw_ret. split; [by left|lia]. }
  pose proof Hid as Hidv. rewrite (checkVertexID_None isz) in Hidv by done.
  assert (id ∉ A) as HidA.
  { intros HidA. by apply (inv_acyclic isz g Hg id), HA. }
  apply cw_bind.
  set (Q := λ (cache : goset K) g' (n' : nat), ∃ ks : list K,
    inv isz g' ∧ grows g g' ∧ NoDup ks ∧ (∀ c, c ∈ ks ↔ E g id c) ∧
    (∀ w, is_Some (descendantsCache g' !! w) → is_Some (descendantsCache g !! w) ∨ tc (E g) id w) ∧
    n' + pot g' ≤ n + S (length ks) + pot g).
  eapply (cw_mono _ _ _ _ Q).
  - destruct (outboundEdges g !! id) as [children|] eqn:Hch.
    2: { assert (∀ c, ¬ E g id c) as HE.
      { intros c. unfold E, adj, read. rewrite Hch. apply mem_empty. }
      apply cw_ret. exists []. split_and!; [done|apply grows_refl|constructor| |by left|simpl; lia].
      intros c. split; [by intros ?%elem_of_nil|]. intros Hc'. by apply HE in Hc'. }
    assert (size children ≤ b) as Hsz.
    { pose proof (children_size g id Hg) as Hs. unfold read in Hs. rewrite Hch in Hs. simpl in Hs. lia. }
    assert (∀ c, E g id c ↔ mem c children) as HE.
    { intros c. unfold E, adj, read. by rewrite Hch. }
    apply cw_bind. apply (cw_range σ σ' b); [done..|]. intros ks Hks.
    assert (∀ c, c ∈ ks ↔ E g id c) as Hks'.
    { intros c. rewrite Hks, HE. apply map_keys_elem. }
    assert (NoDup ks) as Hnd. { rewrite Hks. apply NoDup_keys. }
    apply (cw_for_each _ _ _ (λ pre cache g' n',
      inv isz g' ∧ grows g g' ∧
      (∀ w, is_Some (descendantsCache g' !! w) → is_Some (descendantsCache g !! w) ∨ tc (E g) id w) ∧
      n' + pot g' ≤ n + S (length pre) + pot g)).
    + intros pre x post cache g1 n1 Heq (Hg1&Hgr&Hfill&Hcost).
      assert (E g id x) as Hx. { apply Hks'. rewrite Heq. set_solver. }
      assert ({[id]} ∪ A ⊆ dom (vertices g1)) as P1.
      { destruct Hgr as (->&_). intros a [->%elem_of_singleton|Ha]%elem_of_union.
        + by apply elem_of_dom.
        + by apply HAV. }
      assert (∀ a, a ∈ {[id]} ∪ A → tc (E g1) a x) as P2.
      { intros a Ha. apply (tc_iff _ (E g)); [intros; by apply grows_E|].
        apply elem_of_union in Ha as [->%elem_of_singleton|Ha]; [by apply tc_once|].
        eapply tc_r; [by apply HA|done]. }
      assert (size (vertices g1) < fuel + size ({[id]} ∪ A)) as P3.
      { destruct Hgr as (->&_).
        rewrite size_union, size_singleton by set_solver. lia. }
      apply cw_bind.
      eapply cw_mono.
      { apply cw_wp; [by apply (getDescendantsIDs_wp isz σ fuel x g1 n1 ({[id]} ∪ A))|].
        apply (IH x g1 n1 ({[id]} ∪ A)); [done| |done..]. by destruct Hgr as (->&_). }
      intros r g2 n2 [Hpost [Hfill2 Hcost2]].
      pose proof (desc_post_size _ _ _ _ Hg1 Hpost) as Hrs. pose proof Hpost as (Hg2&Hgr2&Hr).
      assert (is_Some (vertices g1 !! x)) as Hxv.
      { destruct Hgr as (->&_). by apply (inv_dom isz g Hg) in Hx as [_ ?]. }
      apply (checkVertexID_None isz) in Hxv; [|done]. rewrite Hxv in Hr.
      destruct Hr as (s&->&Hs).
      destruct (proj1 (inv_desc isz g2 Hg2) x s Hs) as (Hswf&_&Hsx).
      simpl in Hrs. apply cw_bind. apply (cw_rangev σ σ' b); [done|done| |].
      { destruct Hgr as (Hv1&_). rewrite Hv1 in Hrs. lia. }
      intros vs. apply cw_ret.
      split_and!.
      * done.
      * by eapply grows_trans.
      * intros w [Hw|Hw]%Hfill2; [by apply Hfill|]. right.
        apply rtc_inv_eq_tc in Hw as [->|Hw]; [by apply tc_once|].
        apply (tc_iff _ (E g)) in Hw; [|intros; by apply grows_E]. by eapply tc_l.
      * rewrite app_length. simpl. lia.
    + split_and!; [done|apply grows_refl|by left|simpl; lia].
    + intros cache g1 n1 (Hg1&Hgr&Hfill&Hcost). exists ks. by split_and!.
  - intros cache g1 n1 (ks&Hg1&Hgr&Hnd&Hks&Hfill&Hcost).
    apply cw_bind, cw_modify, cw_ret. split.
    + intros w. simpl. rewrite lookup_insert_is_Some. intros [<-|[_ Hw]]; [right; constructor|].
      destruct (Hfill w Hw); [by left|right; by apply tc_rtc].
    + pose proof (pot_insert g1 id cache ks) as Hp.
      feed specialize Hp.
      * by destruct Hgr as (->&_).
      * destruct (descendantsCache g1 !! id) as [s|] eqn:Hs; [|done]. exfalso.
        destruct (Hfill id) as [Hs'|Hs']; [by exists s|by rewrite Hc in Hs'; destruct Hs'|].
        by apply (inv_acyclic isz g Hg id).
      * done.
      * intros c'. rewrite Hks. symmetry. by apply grows_E.
      * lia.
Qed.

(** Both versions together, and the other direction. *)
Lemma descendantsOf_cost id g n :
  inv isz g → size (vertices g) ≤ b →
  cw (descendantsOf isz σ id) (descendantsOf isz σ' id) g n
    (λ r g' n', desc_post isz g id r g' ∧ n' + pot g' ≤ n + pot g).
Proof using Hσ Hagree.
  intros Hg Hb. eapply cw_mono.
  { apply cw_wp; [by apply descendantsOf_wp|].
    apply cw_bind, cw_get.
    apply (getDescendantsIDs_cost _ _ _ _ ∅); [done..|set_solver|set_solver|].
    unfold fuel_of. rewrite size_empty. lia. }
  intros r g' n' [? [_ ?]]. done.
Qed.

Lemma all_flipg g : inv isz g → all (flipg g) = all g.
Proof.
  intros Hg. unfold all. change (vertices (flipg g)) with (vertices g). f_equal.
  assert (ae (abs (flipg g)) =
    list_to_set ((λ e : K * K, (e.2, e.1)) <$> elements (ae (abs g)))) as ->.
  { apply set_eq. intros [s t]. rewrite ae_abs, (E_flipg isz) by done.
    rewrite elem_of_list_to_set, elem_of_list_fmap. split.
    - intros Hst. exists (t, s). split; [done|]. apply elem_of_elements. by apply ae_abs.
    - intros ([a c]&[= -> ->]&Hab). apply elem_of_elements in Hab. by apply ae_abs. }
  rewrite size_list_to_set.
  - by rewrite fmap_length.
  - apply NoDup_fmap_2; [|apply NoDup_elements]. by intros [? ?] [? ?] [= -> ->].
Qed.

Lemma ancestorsOf_cost id g n :
  inv isz g → size (vertices g) ≤ b →
  cw (ancestorsOf isz σ id) (ancestorsOf isz σ' id) g n
    (λ r g' n', anc_post isz g id r g' ∧ n' ≤ n + all g).
Proof using Hσ Hagree.
  intros Hg Hb. apply cw_wp; [by apply ancestorsOf_wp|].
  apply cw_bind, cw_get. split.
  - rewrite !getAncestorsIDs_flip. f_equal.
    apply (getDescendantsIDs_cost (fuel_of g) id (flipg g) n ∅); [by apply inv_flipg|done|set_solver|set_solver|].
    rewrite size_empty. unfold fuel_of. simpl. lia.
  - intros r g' n'. rewrite getAncestorsIDs_flip.
    destruct (getDescendantsIDs_cost (fuel_of g) id (flipg g) n ∅) as [_ Hc];
      [by apply inv_flipg|done|set_solver|set_solver| |].
    { rewrite size_empty. unfold fuel_of. simpl. lia. }
    destruct (getDescendantsIDs isz σ (fuel_of g) id (flipg g) n) as [[[a g1] n1]| |]; [|done..].
    intros [= <- <- <-]. destruct (Hc _ _ _ eq_refl) as [_ Hle].
    pose proof (pot_all (flipg g)) as Hp. rewrite all_flipg in Hp by done. lia.
Qed.

(** ** The mutators: at most the two queries and four more loops *)
Lemma all_same g g' :
  vertices g' = vertices g → outboundEdges g' = outboundEdges g → all g' = all g.
Proof. intros Hv Ho. unfold all. by rewrite (abs_same g g'), Hv. Qed.

Lemma closures_cost {A} x y (f f' : err + goset K → err + goset K → M (K:=K) (T:=T) A) g n
    (Q : A → graph → nat → Prop) :
  inv isz g → size (vertices g) ≤ b →
  (∀ D U g' n', size (ignore_err D) ≤ b → size (ignore_err U) ≤ b →
     inv isz g' → vertices g' = vertices g → inboundEdges g' = inboundEdges g →
     outboundEdges g' = outboundEdges g → n' ≤ n + 2 * all g →
     cw (f D U) (f' D U) g' n' Q) →
  cw (bind (descendantsOf isz σ x) (λ d, bind (ancestorsOf isz σ y) (f d)))
     (bind (descendantsOf isz σ' x) (λ d, bind (ancestorsOf isz σ' y) (f' d))) g n Q.
Proof using Hσ Hagree.
  intros Hg Hb HQ. apply cw_bind. eapply cw_mono; [by apply descendantsOf_cost|].
  intros D g1 n1 [HD Hn1]. pose proof (desc_post_size _ _ _ _ Hg HD) as HDs.
  destruct HD as (Hg1&(Hv1&Hi1&Ho1&_)&_).
  apply cw_bind. eapply cw_mono; [apply ancestorsOf_cost; [done|by rewrite Hv1]|].
  intros U g2 n2 [HU Hn2]. pose proof (anc_post_size _ _ _ _ Hg1 HU) as HUs.
  destruct HU as (Hg2&(Hv2&Hi2&Ho2&_)&_).
  rewrite Hv1 in HUs. rewrite (all_same g g1) in Hn2 by done.
  pose proof (pot_all g). apply HQ; [lia|lia|done|congruence..|lia].
Qed.

Lemma AddEdge_cost s t g n :
  inv isz g → size (vertices g) ≤ b →
  cw (AddEdge isz σ s t) (AddEdge isz σ' s t) g n (λ _ _ n', n' ≤ n + 2 * all g + 2).
Proof using Hσ Hagree.
  intros Hg Hb. apply cw_bind, cw_get. destruct (checkEdgeIDs isz g s t); [apply cw_ret; lia|].
  destruct (isEdge isz g s t).1; [apply cw_ret; lia|].
  apply closures_cost; [done..|]. intros D U g1 n1 HD HU Hg1 Hv Hi Ho Hn.
  destruct (set_includes _ s); [apply cw_ret; lia|].
  apply cw_bind, cw_get.
  apply cw_bind. eapply (cw_mono _ _ _ _ (λ _ _ n', n' = n1)).
  { destruct (outboundEdges g1 !! s); [by apply cw_ret|by apply cw_modify]. }
  intros _ g2 n2 ->. apply cw_bind. eapply (cw_mono _ _ _ _ (λ _ _ n', n' = n1)).
  { apply cw_bind, cw_get. destruct (outboundEdges g2 !! s); [by apply cw_modify|apply cw_panic]. }
  intros _ g3 n3 ->. apply cw_bind, cw_get.
  apply cw_bind. eapply (cw_mono _ _ _ _ (λ _ _ n', n' = n1)).
  { destruct (inboundEdges g3 !! t); [by apply cw_ret|by apply cw_modify]. }
  intros _ g4 n4 ->. apply cw_bind. eapply (cw_mono _ _ _ _ (λ _ _ n', n' = n1)).
  { apply cw_bind, cw_get. destruct (inboundEdges g4 !! t); [by apply cw_modify|apply cw_panic]. }
  intros _ g5 n5 ->.
  apply cw_bind, (cw_range σ σ' b); [done..|]. intros ks _.
  apply cw_bind, cw_for_each_modify, cw_bind, cw_modify.
  apply cw_bind, (cw_range σ σ' b); [done..|]. intros ks' _.
  apply cw_bind, cw_for_each_modify, cw_bind, cw_modify, cw_ret. lia.
Qed.

Lemma DeleteEdge_cost s t g n :
  inv isz g → size (vertices g) ≤ b →
  cw (DeleteEdge isz σ s t) (DeleteEdge isz σ' s t) g n (λ _ _ n', n' ≤ n + 2 * all g + 2).
Proof using Hσ Hagree.
  intros Hg Hb. apply cw_bind, cw_get. destruct (checkEdgeIDs isz g s t); [apply cw_ret; lia|].
  destruct (negb _); [apply cw_ret; lia|].
  apply closures_cost; [done..|]. intros D U g1 n1 HD HU Hg1 Hv Hi Ho Hn.
  apply cw_bind, cw_modify, cw_bind, cw_modify.
  apply cw_bind, (cw_range σ σ' b); [done..|]. intros ks _.
  apply cw_bind, cw_for_each_modify, cw_bind, cw_modify.
  apply cw_bind, (cw_range σ σ' b); [done..|]. intros ks' _.
  apply cw_bind, cw_for_each_modify, cw_bind, cw_modify, cw_ret. lia.
Qed.

(** Every set of an adjacency map has at most [b] elements. *)
Definition small (m : gmap K (goset K)) : Prop := ∀ k s, m !! k = Some s → size s ≤ b.
Lemma small_alter m k v : small m → small (alter (set_delete v) k m).
Proof.
  intros Hm k' s. rewrite lookup_alter_Some. intros [(->&s'&Hs'&->)|[_ Hs]]; [|by eapply Hm].
  transitivity (size s'); [|by eapply Hm]. rewrite <-!(size_dom (D:=gset K)). apply subseteq_size.
  unfold set_delete. rewrite dom_delete_L. set_solver.
Qed.

Lemma DeleteVertex_cost id g n :
  inv isz g → size (vertices g) ≤ b →
  cw (DeleteVertex isz σ id) (DeleteVertex isz σ' id) g n (λ _ _ n', n' ≤ n + 2 * all g + 4).
Proof using Hσ Hagree.
  intros Hg Hb. apply cw_bind, cw_get. destruct (checkVertexID isz g id); [apply cw_ret; lia|].
  apply closures_cost; [done..|]. intros D U g1 n1 HD HU Hg1 Hv Hi Ho Hn.
  pose proof (parents_size g id Hg) as Hps. pose proof (children_size g id Hg) as Hcs.
  unfold read in Hps, Hcs.
  apply cw_bind, cw_get, cw_bind.
  eapply (cw_mono _ _ _ _ (λ _ g' n', n' ≤ n1 + 1 ∧ small (outboundEdges g'))).
  { assert (small (outboundEdges g1)) as Hsm.
    { intros k c Hk. pose proof (children_size g k Hg) as Hc. unfold read in Hc.
      rewrite Ho in Hk. rewrite Hk in Hc. simpl in Hc. lia. }
    rewrite Hi. destruct (inboundEdges g !! id) as [ps|].
    - simpl in Hps. apply cw_bind, (cw_range σ σ' b); [done|done|lia|]. intros ks Hks.
      apply (cw_for_each _ _ _ (λ _ _ g' n', n' = S n1 ∧ small (outboundEdges g'))).
      + intros pre x post _ g2 n2 _ [-> Hs2]. apply cw_modify. split; [done|]. by apply small_alter.
      + done.
      + intros _ g2 n2 [-> ?]. split; [lia|done].
    - apply cw_ret. split; [lia|done]. }
  intros _ g2 n2 [Hn2 Hsm]. apply cw_bind, cw_get, cw_bind.
  eapply (cw_mono _ _ _ _ (λ _ _ n', n' ≤ n2 + 1)).
  { destruct (outboundEdges g2 !! id) as [cs|] eqn:Hcs2.
    - apply cw_bind, (cw_range σ σ' b); [done|done|by eapply Hsm|]. intros ks Hks.
      apply cw_for_each_modify. lia.
    - apply cw_ret. lia. }
  intros _ g3 n3 Hn3. apply cw_bind, cw_modify, cw_bind, cw_modify.
  apply cw_bind, (cw_rangev σ σ' b); [done..|]. intros ks.
  apply cw_bind, cw_for_each_modify, cw_bind, cw_modify.
  apply cw_bind, (cw_rangev σ σ' b); [done..|]. intros ks'.
  apply cw_bind, cw_for_each_modify, cw_bind, cw_modify, cw_bind, cw_modify, cw_ret. lia.
Qed.

(** ** The queries *)
Lemma loadFromCache_cost s g n :
  size s ≤ b → cw (loadFromCache σ s) (loadFromCache σ' s) g n (λ _ g' n', n' = S n).
Proof using Hσ Hagree.
  intros Hs. apply cw_bind, cw_get, cw_bind, (cw_range σ σ' b); [done..|]. intros ks _.
  by apply cw_for_each_pure.
Qed.
Lemma GetDescendants_cost id g n :
  inv isz g → size (vertices g) ≤ b →
  cw (GetDescendants isz σ id) (GetDescendants isz σ' id) g n (λ _ _ n', n' ≤ n + all g + 1).
Proof using Hσ Hagree.
  intros Hg Hb. apply cw_bind. eapply cw_mono; [by apply descendantsOf_cost|].
  intros D g1 n1 [HD Hn1]. pose proof (desc_post_size _ _ _ _ Hg HD) as HDs. pose proof (pot_all g).
  destruct D as [e|D]; [apply cw_ret; lia|]. simpl in HDs.
  apply cw_bind. eapply cw_mono; [apply loadFromCache_cost; lia|]. intros m g2 n2 ->. apply cw_ret. lia.
Qed.
Lemma GetAncestors_cost id g n :
  inv isz g → size (vertices g) ≤ b →
  cw (GetAncestors isz σ id) (GetAncestors isz σ' id) g n (λ _ _ n', n' ≤ n + all g + 1).
Proof using Hσ Hagree.
  intros Hg Hb. apply cw_bind. eapply cw_mono; [by apply ancestorsOf_cost|].
  intros D g1 n1 [HD Hn1]. pose proof (anc_post_size _ _ _ _ Hg HD) as HDs.
  destruct D as [e|D]; [apply cw_ret; lia|]. simpl in HDs.
  apply cw_bind. eapply cw_mono; [apply loadFromCache_cost; lia|]. intros m g2 n2 ->. apply cw_ret. lia.
Qed.
Lemma GetParents_cost id g n :
  inv isz g → size (vertices g) ≤ b →
  cw (GetParents isz σ id) (GetParents isz σ' id) g n (λ _ _ n', n' ≤ n + 1).
Proof using Hσ Hagree.
  intros Hg Hb. apply cw_bind, cw_get. destruct (checkVertexID isz g id); [apply cw_ret; lia|].
  pose proof (parents_size g id Hg).
  apply cw_bind, (cw_range σ σ' b); [done|done|lia|]. intros ks _.
  apply cw_bind, cw_for_each_pure, cw_ret. lia.
Qed.
Lemma GetChildren_cost id g n :
  inv isz g → size (vertices g) ≤ b →
  cw (GetChildren isz σ id) (GetChildren isz σ' id) g n (λ _ _ n', n' ≤ n + 1).
Proof using Hσ Hagree.
  intros Hg Hb. apply cw_bind, cw_get. destruct (checkVertexID isz g id); [apply cw_ret; lia|].
  pose proof (children_size g id Hg).
  apply cw_bind, (cw_range σ σ' b); [done|done|lia|]. intros ks _.
  apply cw_bind, cw_for_each_pure, cw_ret. lia.
Qed.
Lemma GetVertices_cost g n :
  size (vertices g) ≤ b → cw (GetVertices σ) (GetVertices σ') g n (λ _ _ n', n' ≤ n + 1).
Proof using Hσ Hagree.
  intros Hb. apply cw_bind, cw_get, cw_bind, (cw_range σ σ' b); [done..|]. intros ks _.
  apply cw_for_each_pure. lia.
Qed.
Lemma GetLeaves_cost g n :
  size (vertices g) ≤ b → cw (GetLeaves σ) (GetLeaves σ') g n (λ _ _ n', n' ≤ n + 1).
Proof using Hσ Hagree.
  intros Hb. apply cw_bind, cw_get, cw_bind, (cw_range σ σ' b); [done..|]. intros ks _.
  apply (cw_for_each _ _ _ (λ _ _ _ n', n' = S n)); [|done|intros; lia].
  intros pre x post acc g1 n1 _ ->. destruct (outboundEdges g !! x) as [s|]; [|by apply cw_ret].
  destruct (decide _); by apply cw_ret.
Qed.
Lemma GetRoots_cost g n :
  size (vertices g) ≤ b → cw (GetRoots σ) (GetRoots σ') g n (λ _ g' n', g' = g ∧ n' ≤ n + 1).
Proof using Hσ Hagree.
  intros Hb. apply cw_bind, cw_get, cw_bind, (cw_range σ σ' b); [done..|]. intros ks _.
  apply (cw_for_each _ _ _ (λ _ _ g' n', g' = g ∧ n' = S n)); [|done|intros ??? [-> ->]; split; [done|lia]].
  intros pre x post acc g1 n1 _ [-> ->]. destruct (inboundEdges g !! x) as [s|]; [|by apply cw_ret].
  destruct (decide _); by apply cw_ret.
Qed.
Lemma GetSize_cost g n :
  size (outboundEdges g) ≤ b → cw (GetSize σ) (GetSize σ') g n (λ _ g' n', g' = g ∧ n' ≤ n + 1).
Proof using Hσ Hagree.
  intros Hb. apply cw_bind, cw_get, cw_bind, (cw_range σ σ' b); [done..|]. intros ks _.
  apply cw_for_each_pure. split; [done|lia].
Qed.
Lemma StringOf_cost show g n :
  inv isz g → size (vertices g) ≤ b → size (outboundEdges g) ≤ size (vertices g) →
  cw (StringOf σ show) (StringOf σ' show) g n (λ _ _ n', n' ≤ n + size (vertices g) + 3).
Proof using Hσ Hagree.
  intros Hg Hb Ho. apply cw_bind, cw_bind, cw_get, cw_ret, cw_bind.
  eapply cw_mono; [apply GetSize_cost; lia|]. intros sz g1 n1 [-> Hn1].
  apply cw_bind, cw_get, cw_bind, (cw_range σ σ' b); [done..|]. intros ks _.
  apply cw_bind, cw_for_each_pure, cw_bind, (cw_range σ σ' b); [done|done|lia|]. intros vs Hvs.
  assert (length vs = size (outboundEdges g)) as Hl.
  { apply Permutation_length in Hvs. fold (keys (outboundEdges g)) in Hvs. by rewrite length_keys in Hvs. }
  apply (cw_for_each _ _ _ (λ pre _ g' n', g' = g ∧ n' ≤ n + length pre + 3)).
  - intros pre x post acc g1 n2 _ [-> Hn2]. pose proof (children_size g x Hg).
    apply cw_bind, (cw_range σ σ' b); [done|done|lia|]. intros cs _. apply cw_for_each_pure.
    split; [done|]. rewrite app_length. simpl. lia.
  - split; [done|]. simpl. lia.
  - intros acc g1 n2 [-> Hn2]. lia.
Qed.

(** ** The walks *)
Lemma walkDescendantsLoop_cost fuel fifo visited sent g n :
  inv isz g → size (vertices g) ≤ b →
  cw (walkDescendantsLoop σ fuel fifo visited sent) (walkDescendantsLoop σ' fuel fifo visited sent) g n
    (λ l _ n', n' + length sent = n + length l).
Proof using Hσ Hagree.
  intros Hg Hb. revert fifo visited sent n.
  induction fuel as [|fuel IH]; intros fifo visited sent n; [apply cw_out_of_fuel|].
  cbn [walkDescendantsLoop]. destruct fifo as [|top fifo]; [apply cw_ret; lia|].
  pose proof (children_size g top Hg).
  apply cw_bind, cw_get, cw_bind, (cw_range σ σ' b); [done|done|lia|]. intros ks _.
  destruct (foldl enqueue (fifo, visited) ks) as [fifo' visited'].
  eapply cw_mono; [apply IH|]. intros l g1 n1. rewrite app_length. simpl. lia.
Qed.
Lemma walkDescendants_cost id g n :
  inv isz g → size (vertices g) ≤ b →
  cw (walkDescendants σ id) (walkDescendants σ' id) g n (λ _ _ n', n' ≤ n + size (vertices g) + 1).
Proof using Hσ Hagree.
  intros Hg Hb. eapply cw_mono.
  { apply cw_wp; [by apply (walkDescendants_wp isz)|].
    apply cw_bind, cw_get, cw_bind.
    pose proof (children_size g id Hg). apply (cw_range σ σ' b); [done|done|lia|]. intros ks _.
    destruct (foldl enqueue_first ([], ∅) ks) as [fifo visited].
    by apply walkDescendantsLoop_cost. }
  intros l g' n' [[-> Hbfs] Hn]. simpl in Hn.
  assert (length l ≤ size (vertices g)); [|lia].
  destruct Hbfs as (Hnd&Hin&_).
  rewrite <-(size_list_to_set (C:=gset K)) by done.
  rewrite <-(size_dom (D:=gset K)). apply subseteq_size. intros y Hy.
  rewrite elem_of_list_to_set in Hy. apply elem_of_dom. apply Hin in Hy.
  by apply (tc_dom isz) in Hy as [_ ?].
Qed.
Lemma walkAncestors_cost id g n :
  inv isz g → size (vertices g) ≤ b →
  cw (walkAncestors σ id) (walkAncestors σ' id) g n (λ _ _ n', n' ≤ n + size (vertices g) + 1).
Proof using Hσ Hagree.
  intros Hg Hb. destruct (walkDescendants_cost id (flipg g) n) as [Heq Hc]; [by apply inv_flipg|done|].
  split.
  - rewrite !walkAncestors_flip. by rewrite Heq.
  - intros l g' n'. rewrite walkAncestors_flip.
    destruct (walkDescendants σ id (flipg g) n) as [[[a g1] n1]| |]; [|done..].
    intros [= <- <- <-]. by apply (Hc _ _ _ eq_refl).
Qed.

(** ** The transitive reduction *)
Definition from g (l : list K) : gset (K * K) := filter (λ e, e.1 ∈ l) (ae (abs g)).
Lemma from_snoc g l id ks :
  id ∉ l → NoDup ks → (∀ c, c ∈ ks → E g id c) →
  size (from g l) + length ks ≤ size (from g (l ++ [id])).
Proof.
  intros Hid Hnd Hks. set (L := list_to_set ((λ c, (id, c)) <$> ks) : gset (K * K)).
  assert (size L = length ks) as HL.
  { unfold L. rewrite size_list_to_set.
    - by rewrite fmap_length.
    - apply NoDup_fmap_2; [|done]. by intros ? ? [= ->]. }
  rewrite <-HL, <-size_union.
  - apply subseteq_size. intros [a c] [Hv|Hv]%elem_of_union.
    + unfold from in *. apply elem_of_filter in Hv as [Hn Hd]. apply elem_of_filter.
      split; [|exact Hd]. simpl in *. set_solver.
    + unfold L in Hv. apply elem_of_list_to_set, elem_of_list_fmap in Hv as (c'&[= -> ->]&Hc').
      unfold from. apply elem_of_filter. split; [simpl; set_solver|]. apply ae_abs. by apply Hks.
  - intros [a c] Ha Hb'. unfold L in Hb'.
    apply elem_of_list_to_set, elem_of_list_fmap in Hb' as (c'&[= -> ->]&Hc').
    unfold from in Ha. by apply elem_of_filter in Ha as [Hn _].
Qed.

Lemma ReduceTransitively_cost g n :
  inv isz g → size (vertices g) ≤ b →
  cw (ReduceTransitively isz σ) (ReduceTransitively isz σ') g n (λ _ _ n', n' ≤ n + 3 * all g + 3).
Proof using Hσ Hagree.
  intros Hg Hb. apply cw_bind.
  eapply cw_mono.
  { apply cw_wp; [|by apply GetRoots_cost].
    apply (GetRoots_wp isz _ _ _ (λ r g' _, g' = g ∧ ∀ k, is_Some (r !! k) → is_Some (vertices g !! k))); [done..|].
    intros r n' Hr. split; [done|]. intros k [x Hx]. apply Hr in Hx as [_ Hx]. by eexists. }
  intros roots g' n1 [[-> Hroots] [_ Hn1]].
  assert (size roots ≤ size (vertices g)) as Hrs.
  { rewrite <-!(size_dom (D:=gset K)). apply subseteq_size. intros k. rewrite !elem_of_dom. apply Hroots. }
  apply cw_bind, (cw_range σ σ' b); [done|done|lia|]. intros rs _.
  apply cw_bind. eapply (cw_mono _ _ _ _ (λ _ g' n', inv isz g' ∧ grows g g' ∧ n' ≤ n + all g + 2)).
  { apply (cw_for_each _ _ _ (λ _ _ g' n', inv isz g' ∧ grows g g' ∧ n' + pot g' ≤ n + pot g + 2)).
    - intros pre x post _ g1 n2 _ (Hg1&Hgr&Hn2). apply cw_bind. eapply cw_mono.
      { apply descendantsOf_cost; [done|]. by destruct Hgr as (->&_). }
      intros r g2 n3 [(Hg2&Hgr2&_) Hn3]. apply cw_ret. split_and!; [done|by eapply grows_trans|lia].
    - split_and!; [done|apply grows_refl|lia].
    - intros _ g1 n2 (?&?&?). pose proof (pot_all g). split_and!; [done..|lia]. }
  intros _ g1 n2 (Hg1&Hgr&Hn2). pose proof Hgr as (Hv1&_&Ho1&_).
  apply cw_bind, cw_get, cw_bind, (cw_range σ σ' b); [done|done|by rewrite Hv1|]. intros ids Hids.
  assert (NoDup ids) as Hnd. { rewrite Hids. apply NoDup_keys. }
  assert (length ids = size (vertices g)) as Hlen.
  { apply Permutation_length in Hids. fold (keys (vertices g1)) in Hids. rewrite length_keys in Hids. by rewrite Hids, Hv1. }
  set (I := λ (pre : list K) (_ : bool) g' (n' : nat),
    vertices g' = vertices g1 ∧ descendantsCache g' = descendantsCache g1 ∧
    (∀ s t, E g' s t → E g1 s t) ∧
    n' ≤ n + all g + 3 + 2 * length pre + size (from g1 pre)).
  assert (∀ g' id, vertices g' = vertices g1 → (∀ s t, E g' s t → E g1 s t) →
    size (read (outboundEdges g') id) ≤ b) as Hcs.
  { intros g' id Hv HE. transitivity (size (vertices g1)); [|by rewrite Hv1].
    apply set_size_le. intros w Hw. apply (inv_dom isz g1 Hg1 id w). by apply HE. }
  apply cw_bind. apply (cw_for_each _ _ _ I).
  - intros pre id post b0 g2 n3 Heq (Hv2&Hd2&HE2&Hn3).
    assert (id ∉ pre) as Hidpre.
    { rewrite Heq in Hnd. apply NoDup_app in Hnd as (_&Hnd&_). intros Hpre.
      by apply (Hnd id Hpre); left. }
    apply cw_bind, cw_get, cw_bind, (cw_range σ σ' b); [done|done|by apply Hcs|]. intros ks Hks.
    assert (∀ c, c ∈ ks → E g1 id c) as Hks'.
    { intros c. rewrite Hks. intros Hc. apply HE2. by apply map_keys_elem in Hc. }
    assert (NoDup ks) as Hndk. { rewrite Hks. apply NoDup_keys. }
    pose proof (from_snoc g1 pre id ks Hidpre Hndk Hks') as Hfrom.
    apply cw_bind.
    eapply (cw_mono _ _ _ _ (λ _ g' n', g' = g2 ∧ n' = S n3 + length ks)).
    { apply (cw_for_each _ _ _ (λ cpre _ g' n', g' = g2 ∧ n' = S n3 + length cpre)).
      - intros cpre c cpost cd g' n4 _ [-> ->].
        apply cw_bind, cw_get, cw_bind, (cw_range σ σ' b); [done|done| |].
        { rewrite Hd2. unfold read. destruct (descendantsCache g1 !! c) as [s|] eqn:Hs; simpl.
          - transitivity (size (vertices g1)); [|by rewrite Hv1]. apply set_size_le. intros w.
            destruct (proj1 (inv_desc isz g1 Hg1) c s Hs) as (_&_&Hw). rewrite Hw.
            intros Htc. by apply (tc_dom isz) in Htc as [_ ?].
          - rewrite map_size_empty. lia. }
        intros ds _. apply cw_ret. split; [done|]. rewrite app_length. simpl. lia.
      - split; [done|simpl; lia].
      - done. }
    intros cd g' n4 [-> ->].
    apply cw_bind, cw_get, cw_bind, (cw_range σ σ' b); [done|done|by apply Hcs|]. intros ks2 _.
    apply (cw_for_each _ _ _ (λ _ _ g' n', n' = S (S n3 + length ks) ∧
      vertices g' = vertices g1 ∧ descendantsCache g' = descendantsCache g1 ∧
      (∀ s t, E g' s t → E g1 s t))).
    + intros cpre c cpost b1 g3 n5 _ (->&Hv3&Hd3&HE3).
      destruct (set_includes cd c); [|by apply cw_ret].
      apply cw_bind, cw_modify, cw_bind, cw_modify, cw_ret. split_and!; [done..|].
      intros s t. unfold E. simpl. rewrite adj_alter_delete. intros [Hst _]. by apply HE3.
    + done.
    + intros b1 g3 n5 (->&Hv3&Hd3&HE3). split_and!; [done..|].
      rewrite app_length. simpl. lia.
  - split_and!; [done..|]. simpl. lia.
  - intros b1 g2 n3 (_&_&_&Hn3).
    assert (size (from g1 ids) ≤ size (ae (abs g))) as Hfe.
    { rewrite <-(abs_same g g1) by done. apply subseteq_size. unfold from. set_solver. }
    unfold all in *. destruct b1; [apply cw_modify|apply cw_ret]; lia.
Qed.
End cost.

(** ** Only vertices have an entry in the map of outbound edges *)
Section tight.
Context {K T : Type} `{Countable K} `{Inhabited T} (isz : K → bool) (σ : schedule K) (Hσ : legal σ).
Notation graph := (graph K T).
Implicit Types g : graph.

Definition tight g : Prop := ∀ k, is_Some (outboundEdges g !! k) → is_Some (vertices g !! k).
Lemma tight_size g : tight g → size (outboundEdges g) ≤ size (vertices g).
Proof.
  intros Hg. rewrite <-!(size_dom (D:=gset K)). apply subseteq_size. intros k.
  rewrite !elem_of_dom. apply Hg.
Qed.
Lemma tight_same g g' :
  vertices g' = vertices g → outboundEdges g' = outboundEdges g → tight g → tight g'.
Proof. intros Hv Ho Hg k. rewrite Hv, Ho. apply Hg. Qed.
Lemma tight_alter g f k : tight g → tight (set_outbound (alter f k) g).
Proof. intros Hg k'. simpl. rewrite lookup_alter_is_Some. apply Hg. Qed.

Local Notation "'keep' m" := (∀ g n, tight g → cw m m g n (λ _ g' _, tight g')) (at level 9).
Local Notation "'same' m" := (∀ g n, cw m m g n (λ _ g' _, g' = g)) (at level 9).

Lemma any_range {V} (m : gmap K V) : same (range (T:=T) σ m).
Proof. intros g n. split; [done|]. by intros ??? [= <- <- <-]. Qed.
Lemma any_rangev (s : goset K) : same (rangev (T:=T) σ s).
Proof. intros g n. split; [done|]. by intros ??? [= <- <- <-]. Qed.
Lemma same_keep {A} (m : M (K:=K) (T:=T) A) : same m → keep m.
Proof. intros Hm g n Hg. eapply cw_mono; [apply Hm|]. by intros ??? ->. Qed.
Lemma keep_bind {A B} (m : M (K:=K) (T:=T) A) (f : A → M B) :
  keep m → (∀ a, keep (f a)) → keep (bind m f).
Proof. intros Hm Hf g n Hg. apply cw_bind. eapply cw_mono; [by apply Hm|]. intros a g' n' Hg'. by apply Hf. Qed.
Lemma keep_ret {A} (a : A) : keep (ret a).
Proof. intros g n Hg. by apply cw_ret. Qed.
Lemma keep_get : keep (get (K:=K) (T:=T)).
Proof. intros g n Hg. by apply cw_get. Qed.
Lemma keep_range {V} (m : gmap K V) : keep (range (T:=T) σ m).
Proof. apply same_keep, any_range. Qed.
Lemma keep_rangev (s : goset K) : keep (rangev (T:=T) σ s).
Proof. apply same_keep, any_rangev. Qed.
Lemma keep_for_each {A B} (l : list B) (body : A → B → M (K:=K) (T:=T) A) :
  (∀ acc x, keep (body acc x)) → ∀ acc, keep (for_each l body acc).
Proof.
  intros Hb. induction l as [|x l IH]; intros acc; simpl; [apply keep_ret|].
  apply keep_bind; [apply Hb|]. intros a. apply IH.
Qed.
Lemma keep_modify f : (∀ g, tight g → tight (f g)) → keep (modify f).
Proof. intros Hf g n Hg. by apply cw_modify, Hf. Qed.
Lemma keep_out_of_fuel {A} : keep (out_of_fuel (A:=A)).
Proof. intros g n _. apply cw_out_of_fuel. Qed.
Lemma keep_panic {A} : keep (panic (A:=A)).
Proof. intros g n _. apply cw_panic. Qed.

Lemma keep_getDescendantsIDs fuel : ∀ id, keep (getDescendantsIDs isz σ fuel id).
Proof.
  induction fuel as [|fuel IH]; intros id; [apply keep_out_of_fuel|]. cbn [getDescendantsIDs].
  apply keep_bind; [apply keep_get|]. intros g.
  destruct (checkVertexID isz g id); [apply keep_ret|].
  destruct (descendantsCache g !! id); [apply keep_ret|].
  apply keep_bind.
  - destruct (outboundEdges g !! id) as [cs|]; [|apply keep_ret].
    apply keep_bind; [apply keep_range|]. intros ks. apply keep_for_each. intros acc x.
    apply keep_bind; [apply IH|]. intros r. apply keep_bind; [apply keep_rangev|]. intros vs. apply keep_ret.
  - intros c. apply keep_bind; [|intros _; apply keep_ret]. by apply keep_modify.
Qed.
Lemma keep_getAncestorsIDs fuel : ∀ id, keep (getAncestorsIDs isz σ fuel id).
Proof.
  induction fuel as [|fuel IH]; intros id; [apply keep_out_of_fuel|]. cbn [getAncestorsIDs].
  apply keep_bind; [apply keep_get|]. intros g.
  destruct (checkVertexID isz g id); [apply keep_ret|].
  destruct (ancestorsCache g !! id); [apply keep_ret|].
  apply keep_bind.
  - destruct (inboundEdges g !! id) as [cs|]; [|apply keep_ret].
    apply keep_bind; [apply keep_range|]. intros ks. apply keep_for_each. intros acc x.
    apply keep_bind; [apply IH|]. intros r. apply keep_bind; [apply keep_rangev|]. intros vs. apply keep_ret.
  - intros c. apply keep_bind; [|intros _; apply keep_ret]. by apply keep_modify.
Qed.
Lemma keep_descendantsOf id : keep (descendantsOf isz σ id).
Proof. apply keep_bind; [apply keep_get|]. intros g. apply keep_getDescendantsIDs. Qed.
Lemma keep_ancestorsOf id : keep (ancestorsOf isz σ id).
Proof. apply keep_bind; [apply keep_get|]. intros g. apply keep_getAncestorsIDs. Qed.
Lemma keep_walkDescendantsLoop fuel : ∀ fifo visited sent, keep (walkDescendantsLoop σ fuel fifo visited sent).
Proof.
  induction fuel as [|fuel IH]; intros fifo visited sent; [apply keep_out_of_fuel|].
  cbn [walkDescendantsLoop]. destruct fifo as [|top fifo]; [apply keep_ret|].
  apply keep_bind; [apply keep_get|]. intros g. apply keep_bind; [apply keep_range|]. intros ks.
  destruct (foldl enqueue _ ks). apply IH.
Qed.
Lemma keep_walkAncestorsLoop fuel : ∀ fifo visited sent, keep (walkAncestorsLoop σ fuel fifo visited sent).
Proof.
  induction fuel as [|fuel IH]; intros fifo visited sent; [apply keep_out_of_fuel|].
  cbn [walkAncestorsLoop]. destruct fifo as [|top fifo]; [apply keep_ret|].
  apply keep_bind; [apply keep_get|]. intros g. apply keep_bind; [apply keep_range|]. intros ks.
  destruct (foldl enqueue _ ks). apply IH.
Qed.

Ltac step :=
  match goal with
  | |- ∀ _ _, tight _ → cw (bind _ _) _ _ _ _ => apply keep_bind; [|intros ?]
  | |- ∀ _ _, tight _ → cw (ret _) _ _ _ _ => apply keep_ret
  | |- ∀ _ _, tight _ → cw get _ _ _ _ => apply keep_get
  | |- ∀ _ _, tight _ → cw (range _ _) _ _ _ _ => apply keep_range
  | |- ∀ _ _, tight _ → cw (rangev _ _) _ _ _ _ => apply keep_rangev
  | |- ∀ _ _, tight _ → cw panic _ _ _ _ => apply keep_panic
  | |- ∀ _ _, tight _ → cw (descendantsOf _ _ _) _ _ _ _ => apply keep_descendantsOf
  | |- ∀ _ _, tight _ → cw (ancestorsOf _ _ _) _ _ _ _ => apply keep_ancestorsOf
  | |- ∀ _ _, tight _ → cw (for_each _ _ _) _ _ _ _ => apply keep_for_each; intros ? ?
  | |- ∀ _ _, tight _ → cw (modify _) _ _ _ _ =>
      apply keep_modify; let Hx := fresh "Hx" in first [intros ? Hx; apply tight_alter; exact Hx | done | intros ? Hx; exact Hx]
  | |- ∀ _ _, tight _ → cw (walkDescendantsLoop _ _ _ _ _) _ _ _ _ => apply keep_walkDescendantsLoop
  | |- ∀ _ _, tight _ → cw (walkAncestorsLoop _ _ _ _ _) _ _ _ _ => apply keep_walkAncestorsLoop
  | |- context [match ?x with _ => _ end] => destruct x
  end.

Lemma keep_exec (o : op K T) : match o with
  | OpAddVertex _ _ | OpDeleteVertex _ | OpAddEdge _ _ => True
  | _ => keep (exec isz σ o)
  end.
Proof.
  destruct o; try done; cbn [exec]; unfold mapM, GetVertex, IsEdge, DeleteEdge, GetOrder, GetSize,
    GetLeaves, GetRoots, GetVertices, GetParents, GetChildren, GetAncestors, GetDescendants,
    GetOrderedAncestors, GetOrderedDescendants, ReduceTransitively, StringOf, loadFromCache,
    walkAncestors, walkDescendants, GetRoots, GetOrder, GetSize, flushCaches; repeat step.
Qed.

Lemma keep_AddVertex id v : keep (AddVertex isz id v).
Proof.
  unfold AddVertex. repeat step.
  apply keep_modify. intros g Hg k Hk. simpl. apply lookup_insert_is_Some.
  destruct (decide (id = k)); [by left|right]. split; [done|]. by apply Hg.
Qed.

Lemma keep_AddEdge s t : keep (AddEdge isz σ s t).
Proof using Hσ.
  intros g n Hg. apply cw_bind, cw_get. destruct (checkEdgeIDs isz g s t) eqn:Hchk; [by apply cw_ret|].
  destruct (isEdge isz g s t).1; [by apply cw_ret|].
  assert (is_Some (vertices g !! s)) as Hs.
  { unfold checkEdgeIDs in Hchk. destruct (isz s), (isz t); [done..|].
    destruct (decide (s = t)); [done|]. by destruct (vertices g !! s). }
  assert (∀ fuel id g' n', vertices g' = vertices g → cw (getDescendantsIDs isz σ fuel id)
    (getDescendantsIDs isz σ fuel id) g' n' (λ _ g' _, vertices g' = vertices g)) as HD.
  { induction fuel as [|fuel IH]; intros id g' n' Hv; [apply cw_out_of_fuel|]. cbn [getDescendantsIDs].
    apply cw_bind, cw_get. destruct (checkVertexID isz g' id); [by apply cw_ret|].
    destruct (descendantsCache g' !! id); [by apply cw_ret|].
    apply cw_bind. eapply (cw_mono _ _ _ _ (λ _ g' _, vertices g' = vertices g)).
    - destruct (outboundEdges g' !! id) as [cs|]; [|by apply cw_ret].
      apply cw_bind. eapply cw_mono; [apply any_range|]. intros ks ? n1 ->.
      apply (cw_for_each _ _ _ (λ _ _ g' _, vertices g' = vertices g)); [|done..].
      intros pre x post acc g1 n2 _ Hv1. apply cw_bind. eapply cw_mono; [by apply IH|].
      intros r g2 n3 Hv2. apply cw_bind. eapply cw_mono; [apply any_rangev|]. intros vs ? n4 ->. by apply cw_ret.
    - intros c g1 n1 Hv1. by apply cw_bind, cw_modify, cw_ret. }
  assert (∀ fuel id g' n', vertices g' = vertices g → cw (getAncestorsIDs isz σ fuel id)
    (getAncestorsIDs isz σ fuel id) g' n' (λ _ g' _, vertices g' = vertices g)) as HA.
  { intros fuel id g' n' Hv. split; [done|]. intros r g1 n1. rewrite getAncestorsIDs_flip.
    destruct (HD fuel id (flipg g') n' Hv) as [_ Hc].
    destruct (getDescendantsIDs isz σ fuel id (flipg g') n') as [[[a g2] n2]| |]; [|done..].
    intros [= <- <- <-]. by apply (Hc _ _ _ eq_refl). }
  apply cw_bind. eapply (cw_mono _ _ _ _ (λ _ g' _, tight g' ∧ vertices g' = vertices g)).
  { split; [done|]. intros r g1 n1 Hr. split.
    - by apply (proj2 (keep_descendantsOf t g n Hg) _ _ _ Hr).
    - by apply (proj2 (HD (fuel_of g) t g n eq_refl) _ _ _ Hr). }
  intros D g1 n1 [Hg1 Hv1]. apply cw_bind. eapply (cw_mono _ _ _ _ (λ _ g' _, tight g' ∧ vertices g' = vertices g)).
  { split; [done|]. intros r g2 n2 Hr. split.
    - by apply (proj2 (keep_ancestorsOf s g1 n1 Hg1) _ _ _ Hr).
    - by apply (proj2 (HA (fuel_of g1) s g1 n1 Hv1) _ _ _ Hr). }
  intros U g2 n2 [Hg2 Hv2]. cbv beta zeta. destruct (set_includes (ignore_err D) s); [by apply cw_ret|].
  apply cw_bind, cw_get, cw_bind.
  eapply (cw_mono _ _ _ _ (λ _ g' _, vertices g' = vertices g ∧ tight g')).
  { destruct (outboundEdges g2 !! s); [by apply cw_ret|]. apply cw_modify. split; [done|].
    intros k. simpl. rewrite lookup_insert_is_Some. intros [<-|[_ Hk]]; [by rewrite Hv2|by apply Hg2]. }
  intros _ g3 n3 [Hv3 Hg3]. apply cw_bind.
  eapply (cw_mono _ _ _ _ (λ _ g' _, tight g')).
  { apply cw_bind, cw_get. destruct (outboundEdges g3 !! s); [|apply cw_panic]. apply cw_modify.
    intros k. simpl. rewrite lookup_insert_is_Some. intros [<-|[_ Hk]]; [by rewrite Hv3|by apply Hg3]. }
  intros _ g4 n4 Hg4. revert g4 n4 Hg4. cbv beta. unfold add_inbound. repeat step.
Qed.

Lemma keep_DeleteVertex id : keep (DeleteVertex isz σ id).
Proof.
  intros g n Hg. apply cw_bind, cw_get. destruct (checkVertexID isz g id); [by apply cw_ret|].
  apply cw_bind. eapply cw_mono; [by apply keep_descendantsOf|]. intros D g1 n1 Hg1.
  apply cw_bind. eapply cw_mono; [by apply keep_ancestorsOf|]. intros U g2 n2 Hg2.
  apply cw_bind, cw_get, cw_bind. eapply (cw_mono _ _ _ _ (λ _ g' _, tight g')).
  { destruct (inboundEdges g2 !! id) as [ps|]; [|by apply cw_ret]. refine (keep_bind _ _ _ _ g2 n2 Hg2); [apply keep_range|]. intros ks. apply keep_for_each. intros _ x. repeat step. }
  intros _ g3 n3 Hg3.
  apply cw_bind, cw_get, cw_bind. eapply (cw_mono _ _ _ _ (λ _ g' _, tight g')).
  { destruct (outboundEdges g3 !! id) as [ps|]; [|by apply cw_ret]. refine (keep_bind _ _ _ _ g3 n3 Hg3); [apply keep_range|]. intros ks. apply keep_for_each. intros _ x. repeat step. }
  intros _ g4 n4 Hg4. apply cw_bind, cw_modify, cw_bind, cw_modify, cw_bind.
  eapply cw_mono; [apply any_rangev|]. intros ks g5 n5 ->.
  apply cw_bind, cw_for_each_modify. rewrite foldl_set_anc. apply cw_bind, cw_modify, cw_bind.
  eapply cw_mono; [apply any_rangev|]. intros ks' g6 n6 ->.
  apply cw_bind, cw_for_each_modify. rewrite foldl_set_desc. apply cw_bind, cw_modify, cw_bind, cw_modify, cw_ret.
  intros k. simpl. rewrite !lookup_delete_is_Some. intros [Hne Hk]. split; [done|]. by apply Hg4.
Qed.

Lemma tight_call (o : op K T) g r g' : tight g → call isz σ o g = Ok (r, g') → tight g'.
Proof using Hσ.
  intros Hg Hc. assert (keep (exec isz σ o)) as Hk.
  { pose proof (keep_exec o) as Ho. destruct o; try exact Ho; cbn [exec]; unfold mapM;
      (apply keep_bind; [|intros; by apply keep_ret]).
    - apply keep_AddVertex.
    - apply keep_DeleteVertex.
    - apply keep_AddEdge. }
  unfold call in Hc. destruct (Hk g 0 Hg) as [_ Hq].
  destruct (exec isz σ o g 0) as [[[r1 g1] n1]| |]; [|done..].
  injection Hc as <- <-. by apply (Hq _ _ _ eq_refl).
Qed.
End tight.

Section main.
Context {K T : Type} `{Countable K} `{Inhabited T} (isz : K → bool).
Notation graph := (graph K T).
Implicit Types g : graph.

Lemma reachable_tight g : reachable isz g → tight g.
Proof.
  intros (h&outs&Hh&Hr).
  assert (∀ g1 outs, tight g1 → run isz h g1 = Ok (outs, g) → tight g) as Hgen.
  { clear outs Hr. induction Hh as [|[σ o] h Hσ Hh IH]; intros g1 outs Hg1; simpl.
    - by intros [= _ <-].
    - destruct (call isz σ o g1) as [[r g2]| |] eqn:Hc; [|done..].
      destruct (run isz h g2) as [[rs g3]| |] eqn:Hr; [|done..]. intros [= _ <-].
      eapply IH; [|done]. by eapply tight_call. }
  eapply Hgen; [|done]. intros k. simpl. rewrite lookup_empty. by intros [? ?].
Qed.

(** [exec] counts the map loops that it executes. *)
Lemma exec_cost σ σ' (o : op K T) g :
  reachable isz g → legal σ →
  (∀ n l, length l ≤ size (vertices g) → σ n l = σ' n l) →
  cw (exec isz σ o) (exec isz σ' o) g 0 (λ _ _ n', n' ≤ 3 * all g + 4).
Proof.
  intros Hr Hσ Hagree. pose proof (reachable_inv isz g Hr) as Hg.
  pose proof (tight_size g (reachable_tight g Hr)) as Ht.
  assert (size (vertices g) ≤ all g) as Hva by (unfold all; lia).
  assert (∀ A (f : A → out K T) (m m' : M (K:=K) (T:=T) A), cw m m' g 0 (λ _ _ n', n' ≤ 3 * all g + 4) →
    cw (mapM f m) (mapM f m') g 0 (λ _ _ n', n' ≤ 3 * all g + 4)) as Hmap.
  { intros A f m m' Hm. apply cw_bind. eapply cw_mono; [done|]. intros a g' n' Hn. by apply cw_ret. }
  assert (∀ A (m m' : M (K:=K) (T:=T) A) (P : A → graph → nat → Prop),
    cw m m' g 0 P → (∀ a g' n', P a g' n' → n' ≤ 3 * all g + 4) → cw m m' g 0 (λ _ _ n', n' ≤ 3 * all g + 4)) as Hw.
  { intros A m m' P Hm HP. eapply cw_mono; [done|]. done. }
  destruct o; cbn [exec]; apply Hmap.
  - apply cw_bind, cw_get. destruct (isz id); [apply cw_ret; lia|].
    destruct (vertices g !! id); [apply cw_ret; lia|]. apply cw_bind, cw_modify, cw_ret. lia.
  - apply cw_bind, cw_get. destruct (checkVertexID isz g id); apply cw_ret; lia.
  - eapply Hw; [by eapply (DeleteVertex_cost isz σ σ' (size (vertices g)))|]. simpl. intros. lia.
  - eapply Hw; [by eapply (AddEdge_cost isz σ σ' (size (vertices g)))|]. simpl. intros. lia.
  - apply cw_bind, cw_get, cw_ret. lia.
  - eapply Hw; [by eapply (DeleteEdge_cost isz σ σ' (size (vertices g)))|]. simpl. intros. lia.
  - apply cw_bind, cw_get, cw_ret. lia.
  - eapply Hw; [by eapply (GetSize_cost σ σ' (size (vertices g)))|]. simpl. intros. lia.
  - eapply Hw; [by eapply (GetLeaves_cost σ σ' (size (vertices g)))|]. simpl. intros. lia.
  - eapply Hw; [by eapply (GetRoots_cost σ σ' (size (vertices g)))|]. simpl. intros. lia.
  - eapply Hw; [by eapply (GetVertices_cost σ σ' (size (vertices g)))|]. simpl. intros. lia.
  - eapply Hw; [by eapply (GetParents_cost isz σ σ' (size (vertices g)))|]. simpl. intros. lia.
  - eapply Hw; [by eapply (GetChildren_cost isz σ σ' (size (vertices g)))|]. simpl. intros. lia.
  - eapply Hw; [by eapply (GetAncestors_cost isz σ σ' (size (vertices g)))|]. simpl. intros. lia.
  - apply cw_bind, cw_get. destruct (checkVertexID isz g id); [apply cw_ret; lia|].
    apply cw_bind. eapply cw_mono; [by eapply (walkAncestors_cost isz σ σ' (size (vertices g)))|].
    simpl. intros. apply cw_ret. lia.
  - eapply Hw; [by eapply (GetDescendants_cost isz σ σ' (size (vertices g)))|]. simpl. intros. lia.
  - apply cw_bind, cw_get. destruct (checkVertexID isz g id); [apply cw_ret; lia|].
    apply cw_bind. eapply cw_mono; [by eapply (walkDescendants_cost isz σ σ' (size (vertices g)))|].
    simpl. intros. apply cw_ret. lia.
  - eapply Hw; [by eapply (ReduceTransitively_cost isz σ σ' (size (vertices g)))|]. simpl. intros. lia.
  - eapply Hw; [by eapply (StringOf_cost isz σ σ' (size (vertices g)))|]. simpl. intros. lia.
Qed.

Lemma order_is σ g v g1 : call isz σ OpGetOrder g = Ok (RInt v, g1) → v = size (vertices g).
Proof. unfold call. simpl. by intros [= <- <-]. Qed.
Lemma size_is σ g e g2 :
  legal σ → call isz σ OpGetSize g = Ok (RInt e, g2) → e = size (ae (abs g)).
Proof.
  intros Hσ. unfold call. cbn [exec]. unfold mapM.
  pose proof (GetSize_wp (T:=T) σ g 0 (λ e' _ _, e' = size (ae (abs g))) Hσ (λ _, eq_refl)) as Hw.
  unfold wp in Hw. unfold bind at 1. destruct (GetSize σ g 0) as [[[e' g'] n']| |]; [|done..].
  unfold ret. by intros [= <- <-].
Qed.

(*P C93_few_loops *)
(** A call starts at most [3 * (vertices + edges) + 4] loops over maps. *)
Lemma few_loops σ σ1 σ2 (o : op K T) g r g' n v e g1 g2 :
  reachable isz g → legal σ → legal σ2 →
  call isz σ1 OpGetOrder g = Ok (RInt v, g1) →
  call isz σ2 OpGetSize g = Ok (RInt e, g2) →
  exec isz σ o g 0 = Ok (r, g', n) →
  n ≤ 3 * (v + e) + 4.
Proof.
  intros Hr Hσ Hσ2 ->%order_is ->%size_is Hx; [|done].
  by apply (proj2 (exec_cost σ σ o g Hr Hσ (λ _ _ _, eq_refl)) _ _ _ Hx).
Qed.

(*P C93_short_loops *)
(** None of these loops is over a map with more entries than the graph has
    vertices: the order of such a map has no influence at all. *)
Lemma short_loops σ σ' σ1 (o : op K T) g v g1 :
  reachable isz g → legal σ →
  call isz σ1 OpGetOrder g = Ok (RInt v, g1) →
  (∀ n l, length l ≤ v → σ n l = σ' n l) →
  exec isz σ o g 0 = exec isz σ' o g 0.
Proof. intros Hr Hσ ->%order_is Hagree. by apply exec_cost. Qed.
End main.
