(** * Proofs about calls in several goroutines: the beginning *)
From stdpp Require Import base list gmap fin_map_dom.
From Verif Require Import GoBase SetModel DagModel DagMem DagMemFacts DagProg DagRaceSpec DagRace.

Section start.
Context {K T : Type} `{Countable K} `{Inhabited T} (isz : K → bool).
Notation prog := (prog K T).
Notation mem := (mem K T).
Notation cell := (cell K T).
Notation heap := (gmap loc cell).
Implicit Types (m : mem) (h : heap).

(** The cells of [m] in a set *)
Definition only m (S : gset loc) : heap := filter (λ p, p.1 ∈ S) (cells m).
Lemma only_some m S l x : only m S !! l = Some x ↔ cells m !! l = Some x ∧ l ∈ S.
Proof. unfold only. by rewrite map_filter_lookup_Some. Qed.
Lemma only_sub m S : only m S ⊆ cells m.
Proof. apply map_filter_subseteq. Qed.
Lemma only_mono m S S' : S ⊆ S' → only m S ⊆ only m S'.
Proof. intros HS. apply map_subseteq_spec. intros l x. rewrite !only_some. set_solver. Qed.
Lemma only_dom m S l : l ∈ dom (only m S) → l ∈ S.
Proof. intros [x Hx]%elem_of_dom. rewrite only_some in Hx. by destruct Hx. Qed.
Lemma only_in m S l : is_Some (cells m !! l) → l ∈ S → only m S !! l = cells m !! l.
Proof. intros [x Hx] Hl. rewrite Hx. by apply only_some. Qed.

(** A map of sets and the sets in it *)
Definition place m l : gset loc := {[l]} ∪ list_to_set ((map_to_list (sets_at m l)).*2).
Lemma place_l m l : l ∈ place m l.
Proof. unfold place. set_solver. Qed.
Lemma place_in m l k l' : sets_at m l !! k = Some l' → l' ∈ place m l.
Proof. intros E. unfold place. apply elem_of_union_r, elem_of_list_to_set, elem_of_list_fmap. exists (k, l'). split; [done|]. by apply elem_of_map_to_list. Qed.
Lemma place_inv m l l' : l' ∈ place m l → l' = l ∨ ∃ k, sets_at m l !! k = Some l'.
Proof.
  unfold place. intros [->%elem_of_singleton|(p & -> & Hp)%elem_of_list_to_set%elem_of_list_fmap]%elem_of_union; [by left|]. destruct p as [k l']. apply elem_of_map_to_list in Hp. right. by exists k.
Qed.
Definition shared m : gset loc := {[rvertices (this m)]} ∪ place m (rinbound (this m)) ∪ place m (routbound (this m)).
Definition cached m (ca cd : bool) : gset loc := (if ca then place m (ranc (this m)) else ∅) ∪ (if cd then place m (rdesc (this m)) else ∅).
Definition known_at m ca cd : heap := only m (shared m ∪ cached m ca cd).
(** What every goroutine knows; [wa] and [wd] say whether the caches are complete. *)
Definition base m (wa wd : bool) : heap := known_at m wa wd.
Definition owns m (ca cd : bool) : gset loc := (if ca then {[ranc (this m)]} else ∅) ∪ (if cd then {[rdesc (this m)]} else ∅).

Lemma sets_known m S l k l' : is_Some (cells m !! l) → l ∈ S → as_sets (only m S !! l) !! k = Some l' → sets_at m l !! k = Some l'.
Proof. intros Hl HS. rewrite only_in by done. unfold sets_at, as_sets. done. Qed.
Lemma sep_some m : sep m → is_Some (cells m !! rvertices (this m)) ∧ ∀ f, is_Some (cells m !! outer (this m) f).
Proof. intros Hs. split; [destruct (sep_v _ Hs) as [? ->]; by eexists|]. intros f. destruct (sep_o _ Hs f) as [? ->]. by eexists. Qed.
Lemma sep_inner m f k l : sep m → sets_at m (outer (this m) f) !! k = Some l → is_Some (cells m !! l).
Proof. intros Hs E. destruct (sep_i _ Hs f k l E) as [? ->]. by eexists. Qed.
Lemma base_closed m wa wd : sep m → closed (base m wa wd) (this m).
Proof.
  intros Hs. destruct (sep_some m Hs) as [Hv Ho]. pose proof (Ho FI) as Hi. pose proof (Ho FO) as Hout. cbn [outer] in *.
  assert (∀ l, is_Some (cells m !! l) → l ∈ shared m → is_Some (base m wa wd !! l)) as Hb by (intros l Hl HS; unfold base, known_at; rewrite only_in; [done|done|set_solver]).
  unfold shared in Hb. pose proof (place_l m (rinbound (this m))). pose proof (place_l m (routbound (this m))). split.
  - apply Hb; [done|set_solver].
  - apply Hb; [done|set_solver].
  - apply Hb; [done|set_solver].
  - intros k l E. apply sets_known in E; [|done|unfold shared; set_solver]. apply Hb; [by apply (sep_inner m FI k)|]. apply place_in in E. set_solver.
  - intros k l E. apply sets_known in E; [|done|unfold shared; set_solver]. apply Hb; [by apply (sep_inner m FO k)|]. apply place_in in E. set_solver.
Qed.
Lemma owns_inv m ca cd l : l ∈ owns m ca cd → (ca = true ∧ l = outer (this m) FA) ∨ (cd = true ∧ l = outer (this m) FD).
Proof. unfold owns. destruct ca, cd; set_solver. Qed.
(** A map of a cache is not one of the shared maps, nor a set. *)
Lemma cache_not_set m f f' k : sep m → sets_at m (outer (this m) f) !! k = Some (outer (this m) f') → False.
Proof. intros Hs E. destruct (sep_i _ Hs f k _ E) as [? E1]. destruct (sep_o _ Hs f') as [? E2]. congruence. Qed.
Lemma outer_place m f f' : sep m → outer (this m) f ∈ place m (outer (this m) f') → f = f'.
Proof. intros Hs [E|[k E]]%place_inv; [by apply (sep_d _ Hs)|]. by apply cache_not_set in E. Qed.
Lemma outer_verts m f : sep m → outer (this m) f ≠ rvertices (this m).
Proof. intros Hs E. destruct (sep_v _ Hs) as [? E1]. destruct (sep_o _ Hs f) as [? E2]. congruence. Qed.
Lemma cache_not_shared m f : sep m → f = FA ∨ f = FD → outer (this m) f ∉ shared m.
Proof.
  unfold shared. intros Hs Hf [[E%elem_of_singleton|E]%elem_of_union|E]%elem_of_union.
  - by apply outer_verts in E.
  - apply (outer_place m f FI) in E; [|done]. naive_solver.
  - apply (outer_place m f FO) in E; [|done]. naive_solver.
Qed.
Lemma owns_known m ca cd ca' cd' : sep m → (ca = true → ca' = false) → (cd = true → cd' = false) → owns m ca cd ## dom (known_at m ca' cd').
Proof.
  intros Hs Ha Hd l Hl Hk. apply only_dom, elem_of_union in Hk as [Hk|Hk].
  - destruct (owns_inv _ _ _ _ Hl) as [[_ ->]|[_ ->]]; (eapply cache_not_shared; [done| |exact Hk]); auto.
  - assert ((ca' = true ∧ l ∈ place m (outer (this m) FA)) ∨ (cd' = true ∧ l ∈ place m (outer (this m) FD))) as Hk' by (unfold cached in Hk; destruct ca', cd'; set_solver).
    destruct (owns_inv _ _ _ _ Hl) as [[E ->]|[E ->]], Hk' as [[E' Hp]|[E' Hp]]; apply outer_place in Hp; try done.
    + rewrite Ha in E' by done. done.
    + rewrite Hd in E' by done. done.
Qed.
Lemma owns_dom m wa wd ca cd : sep m → owns m ca cd ⊆ dom (known_at m (wa || ca) (wd || cd)).
Proof.
  intros Hs l Hl. destruct (sep_some m Hs) as [_ Ho]. apply elem_of_dom. unfold known_at. rewrite only_in.
  - destruct (owns_inv _ _ _ _ Hl) as [[_ ->]|[_ ->]]; apply Ho.
  - destruct (owns_inv _ _ _ _ Hl) as [[_ ->]|[_ ->]]; apply Ho.
  - destruct (owns_inv _ _ _ _ Hl) as [[-> ->]|[-> ->]]; apply elem_of_union_r; unfold cached; cbn [outer]; rewrite orb_true_r.
    + pose proof (place_l m (ranc (this m))). set_solver.
    + pose proof (place_l m (rdesc (this m))). set_solver.
Qed.
Lemma cached_mono m ca cd ca' cd' : (ca = true → ca' = true) → (cd = true → cd' = true) → cached m ca cd ⊆ cached m ca' cd'.
Proof. intros Ha Hd. unfold cached. destruct ca, cd; rewrite ?Ha, ?Hd by done; set_solver. Qed.
Lemma cached_or m wa wd ca cd : cached m wa wd ⊆ cached m (wa || ca) (wd || cd).
Proof. apply cached_mono; by intros ->. Qed.
(** The maps of a cache that is known, and the sets in it *)
Lemma cache_known m f ca cd : sep m → place m (outer (this m) f) ⊆ cached m ca cd →
  ∀ k l, as_sets (known_at m ca cd !! outer (this m) f) !! k = Some l → l ∈ dom (known_at m ca cd).
Proof.
  intros Hs Hpl k l E. pose proof (place_l m (outer (this m) f)). apply sets_known in E; [|by apply sep_some|set_solver].
  apply elem_of_dom. pose proof (sep_inner m f k l Hs E) as Hl. unfold known_at. rewrite only_in; [done|done|]. apply place_in in E. set_solver.
Qed.
Lemma start_inv m wa wd ca cd : sep m → (ca = true → wa = false) → (cd = true → wd = false) →
  inv (base m wa wd) ca cd (this m) (owns m ca cd) (known_at m (wa || ca) (wd || cd)).
Proof.
  intros Hs Ha Hd. split.
  - apply only_mono. pose proof (cached_or m wa wd ca cd). set_solver.
  - by apply owns_known.
  - by apply owns_dom.
  - assert (∀ f, (ca = true ∧ f = FA) ∨ (cd = true ∧ f = FD) → outer (this m) f ∈ owns m ca cd ∧
      ∀ k l, as_sets (known_at m (wa || ca) (wd || cd) !! outer (this m) f) !! k = Some l → l ∈ dom (known_at m (wa || ca) (wd || cd))) as Hc.
    { intros f Hf. split; [destruct Hf as [[-> ->]|[-> ->]]; unfold owns; cbn [outer]; set_solver|]. apply cache_known; [done|].
      destruct Hf as [[-> ->]|[-> ->]]; unfold cached; cbn [outer]; rewrite orb_true_r; set_solver. }
    intros f [[Hca ->]|[Hcd ->]]; [apply (Hc FA); by left|apply (Hc FD); by right].
Qed.
(** A cache that has all vertices *)
Lemma start_warm m wa wd f r : sep m → outer (this m) f = r (this m) → place m (outer (this m) f) ⊆ cached m wa wd → complete m r → warm (base m wa wd) (this m) r.
Proof.
  intros Hs Er Hpl Hc. pose proof (place_l m (outer (this m) f)). destruct (sep_some m Hs) as [Hv Ho]. specialize (Ho f).
  assert (base m wa wd !! r (this m) = cells m !! r (this m)) as E by (unfold base, known_at; rewrite <- Er; apply only_in; [done|set_solver]).
  split.
  - rewrite E, <- Er. done.
  - intros k l Hk. rewrite <- Er in Hk. apply elem_of_dom. by eapply cache_known.
  - intros k Hk. rewrite E. apply Hc. unfold vertex in Hk. unfold base, known_at in Hk. rewrite only_in in Hk; [done|done|unfold shared; set_solver].
Qed.
Definition flag (kind : op K T → bool) (os : list (op K T)) : bool := existsb kind os.
Lemma flag_true kind os : (∃ o, o ∈ os ∧ kind o = true) → flag kind os = true.
Proof. intros (o & Ho & E). apply existsb_exists. exists o. split; [by apply elem_of_list_In|done]. Qed.
Lemma flag_inv kind os : flag kind os = true → ∃ o, o ∈ os ∧ kind o = true.
Proof. intros (o & Ho & E)%existsb_exists. exists o. split; [by apply elem_of_list_In|done]. Qed.
Definition part_of m wa wd (t : task K T) : part :=
  Part (owns m (negb wa && flag asks_ancestors (task_calls t)) (negb wd && flag asks_descendants (task_calls t)))
    (known_at m (wa || flag asks_ancestors (task_calls t)) (wd || flag asks_descendants (task_calls t))) (task_prog isz t).
Lemma in_one_flag kind ts i j (t t' : task K T) : in_one kind ts → i ≠ j → ts !! i = Some t → ts !! j = Some t' → flag kind (task_calls t) = true → flag kind (task_calls t') = false.
Proof.
  intros H1 Hij Hi Hj (o & Ho & E)%flag_inv. destruct (flag kind (task_calls t')) eqn:E'; [|done]. apply flag_inv in E' as (o' & Ho' & E'). destruct Hij. by eapply H1.
Qed.
Lemma or_negb (a b : bool) : a || (negb a && b) = a || b.
Proof. by destruct a, b. Qed.
Lemma start_parted m (wa wd : bool) ts : sep m → Forall queries ts →
  (if wa then complete m ranc else in_one asks_ancestors ts) → (if wd then complete m rdesc else in_one asks_descendants ts) →
  parted (this m) m m (map (task_prog isz) ts) (map (part_of m wa wd) ts).
Proof.
  intros Hs Hq Ha Hd. split; [done| |].
  - apply Forall2_fmap_2. apply Forall2_same_length_lookup. split; [done|]. intros i t t' H1 H2. simplify_eq. split.
    + cbn [pw ph part_of]. rewrite <- (or_negb wa), <- (or_negb wd).
      eapply wp_mono; [eapply (tri_task isz (base m wa wd) (negb wa && flag asks_ancestors (task_calls t)) (negb wd && flag asks_descendants (task_calls t)))|done].
      * by apply base_closed.
      * by eapply Forall_lookup_1 in Hq.
      * intros Ho. destruct wa; [right|left; by apply flag_true in Ho]. apply (start_warm m true wd FA); [done|done|unfold cached; cbn [outer]; set_solver|done].
      * intros Ho. destruct wd; [right|left; by apply flag_true in Ho]. apply (start_warm m wa true FD); [done|done|unfold cached; cbn [outer]; set_solver|done].
      * apply start_inv; [done|by destruct wa|by destruct wd].
    + cbn [pw ph part_of]. split; [apply only_sub|]. split; [rewrite <- (or_negb wa), <- (or_negb wd); by apply owns_dom|].
      exists m. split; [apply rtc_refl|]. split; [done|]. cbn [ph part_of]. split; [apply only_sub|done].
  - intros i j x y Hij Hx Hy. rewrite list_lookup_fmap in Hx, Hy. destruct (ts !! i) as [t|] eqn:Ei; [|done]. destruct (ts !! j) as [t'|] eqn:Ej; [|done].
    injection Hx as <-. injection Hy as <-. cbn [pw ph part_of]. apply owns_known; [done| |].
    + destruct wa; [done|]. cbn [negb andb orb]. intros E. by eapply in_one_flag.
    + destruct wd; [done|]. cbn [negb andb orb]. intros E. by eapply in_one_flag.
Qed.
Lemma start_some m ts : sep m → Forall queries ts →
  complete m ranc ∨ in_one asks_ancestors ts → complete m rdesc ∨ in_one asks_descendants ts →
  ∃ wa wd, parted (this m) m m (map (task_prog isz) ts) (map (part_of m wa wd) ts).
Proof.
  intros Hs Hq [Ha|Ha] [Hd|Hd].
  - exists true, true. by apply start_parted.
  - exists true, false. by apply start_parted.
  - exists false, true. by apply start_parted.
  - exists false, false. by apply start_parted.
Qed.
Lemma queries_safe m ts s : sep m → Forall queries ts →
  complete m ranc ∨ in_one asks_ancestors ts → complete m rdesc ∨ in_one asks_descendants ts →
  reaches isz m ts s → ¬ race s.2 ∧ ¬ panics s.2.
Proof.
  intros Hs Hq Ha Hd Hr. destruct (start_some m ts Hs Hq Ha Hd) as (wa & wd & Hst).
  destruct (parted_reach _ _ _ _ _ _ Hst Hr) as (xs & Hp & _). by eapply parted_safe.
Qed.
Lemma queries_alone m ts s i p : sep m → Forall queries ts →
  complete m ranc ∨ in_one asks_ancestors ts → complete m rdesc ∨ in_one asks_descendants ts →
  reaches isz m ts s → s.2 !! i = Some p → ∃ t m', ts !! i = Some t ∧ rtc astep (m, task_prog isz t) (m', p).
Proof.
  intros Hs Hq Ha Hd Hr Hi. destruct (start_some m ts Hs Hq Ha Hd) as (wa & wd & Hst). destruct (parted_reach _ _ _ _ _ _ Hst Hr) as (xs & Hp & Hx).
  destruct (Forall2_lookup_l _ _ _ _ _ (pt_fine _ _ _ _ _ Hp) Hi) as (x & Hxi & _ & _ & _ & mi & Hmi & _).
  assert (map p0 xs !! i = Some (p0 x)) as E by (by rewrite list_lookup_fmap, Hxi). rewrite Hx, map_map, list_lookup_fmap in E.
  destruct (ts !! i) as [t|]; [|done]. injection E as E. exists t, mi. split; [done|]. cbn [p0 part_of] in E. by rewrite E.
Qed.
End start.
