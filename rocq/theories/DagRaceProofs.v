(** * Proofs of the properties of calls in several goroutines *)
From stdpp Require Import base list gmap fin_map_dom.
From Verif Require Import GoBase SetModel DagModel DagObs DagRefine DagMem DagMemFacts DagMemPropProofs DagProg DagProgProofs DagRaceSpec
  DagRaceFill DagRaceSerial DagRaceStart DagRaceMeet.

Section props.
Context {K T : Type} `{Countable K} `{Inhabited T} `{A0 : Alloc} (isz : K → bool).
Notation mem := (mem K T).
Implicit Types (m : mem) (p : list (step K T)) (ts : list (task K T)).

Lemma started p m0 outs given m : legal_history (calls p) → hrun isz p [] (start m0) = Ok (outs, given, m) →
  run isz (calls p) NewAcyclicGraph = Ok (outs, view m) ∧ sep m ∧ DagInv.inv isz (view m).
Proof.
  intros Hl Hr. destruct (run_start isz p m0 Hl) as (outs1 & given1 & m1 & Hr1 & Hrun & Hs & Hi & _). rewrite Hr in Hr1. by injection Hr1 as <- <- <-.
Qed.
(*P C83_no_race *)
(** Some client has built a graph with the calls and writes [p].  Then goroutines make any
    queries and any walkers run, in any interleaving.  For each cache: it has every vertex, or
    only one of the goroutines makes the calls that use it.  No two goroutines are ever about
    to access the same memory, one of them to change it, and none panics. *)
Lemma p83_safe p m0 outs given m ts s :
  legal_history (calls p) →
  hrun isz p [] (start m0) = Ok (outs, given, m) →
  Forall queries ts →
  complete m ranc ∨ in_one asks_ancestors ts →
  complete m rdesc ∨ in_one asks_descendants ts →
  reaches isz m ts s →
  ¬ race s.2 ∧ ¬ panics s.2.
Proof. intros Hl Hr. destruct (started p m0 outs given m Hl Hr) as (_ & Hs & _). by apply queries_safe. Qed.
(*P C83_fill_cache *)
(** A client that ends with GetAncestors, or GetDescendants, of all vertices has a cache with
    every vertex. *)
Lemma p83_fill p m0 outs given m (up : bool) (l : list (schedule K * K)) :
  legal_history (calls p) →
  Forall (λ x, legal x.1) l →
  hrun isz (p ++ map (λ x, Call x.1 (if up then OpGetAncestors x.2 else OpGetDescendants x.2)) l) [] (start m0) = Ok (outs, given, m) →
  (∀ k, is_Some (verts_at m (rvertices (this m)) !! k) → ∃ x, x ∈ l ∧ x.2 = k) →
  complete m (if up then ranc else rdesc).
Proof.
  intros Hl Hx Hr Hall. assert (∀ l', calls (map (λ x : schedule K * K, Call x.1 (if up then OpGetAncestors x.2 else OpGetDescendants x.2)) l') = map (λ x, (x.1, ask up x.2)) l' :> list (schedule K * op K T)) as Ec.
  { intros l'. induction l' as [|[σ k] l' IH]; [done|]. cbn [map calls fst snd]. by rewrite IH. }
  assert (∀ p1 p2 : list (step K T), calls (p1 ++ p2) = calls p1 ++ calls p2) as Ea.
  { intros p1 p2. induction p1 as [|[σ o|i c] p1 IH]; [done|..]; cbn [app calls]; by rewrite IH. }
  destruct (started _ _ _ _ _ (ltac:(rewrite Ea, Ec; apply Forall_app; split; [exact Hl|by apply Forall_map]) : legal_history (calls (p ++ _))) Hr) as (Hrun & Hs & Hi).
  rewrite Ea, Ec in Hrun. destruct (run_app_inv isz _ _ _ _ _ Hrun) as (outs1 & g1 & outs2 & R1 & R2 & _).
  assert (DagInv.inv isz g1) as Hi1.
  { destruct (run_ok isz (calls p) NewAcyclicGraph Hl (DagInv.inv_new isz)) as (o1 & g2 & R1' & Hg2 & _). rewrite R1 in R1'. by injection R1' as <- <-. }
  destruct (run_fills isz up l g1 outs2 (view m) Hx Hi1 R2) as (Hv & _ & Hin). apply complete_view. intros k Hk. apply Hin.
  - destruct (Hall k Hk) as (x & Hxl & <-). apply elem_of_list_fmap. by exists x.
  - by rewrite <- Hv.
Qed.
(*P C83_else_race *)
(** Otherwise there are races: two goroutines that begin with GetAncestors, or both with
    GetDescendants, of vertices that are not in the cache, get to a state where both are about
    to change it. *)
Lemma p83_meet p m0 outs given m ts (up : bool) i j id id' os os' :
  legal_history (calls p) →
  hrun isz p [] (start m0) = Ok (outs, given, m) →
  i ≠ j →
  ts !! i = Some (Calls ((if up then OpGetAncestors id else OpGetDescendants id) :: os)) →
  ts !! j = Some (Calls ((if up then OpGetAncestors id' else OpGetDescendants id') :: os')) →
  is_Some (verts_at m (rvertices (this m)) !! id) →
  is_Some (verts_at m (rvertices (this m)) !! id') →
  sets_at m (if up then ranc (this m) else rdesc (this m)) !! id = None →
  sets_at m (if up then ranc (this m) else rdesc (this m)) !! id' = None →
  ∃ s, reaches isz m ts s ∧ race s.2.
Proof.
  intros Hl Hr Hij Hi Hj Hv Hv' Hc Hc'. destruct (started p m0 outs given m Hl Hr) as (_ & Hs & Hinv).
  apply (asks_meet isz up m ts i j id id' os os'); try done; apply not_elem_of_dom; rewrite view_cache; by apply not_elem_of_dom.
Qed.
(*P C83_programs_agree *)
(** The programs of single accesses that the goroutines run are those of the model: a call
    that runs alone does what it does there. *)
Lemma p83_agree σ (o : op K T) m n :
  alone σ (pcall isz o) m n = hexec isz σ o m n.
Proof. apply call_alone. Qed.
(*P C84_same_answers *)
(** When such a goroutine has ended, it has read what it would have read had it made its
    calls [os] right after those of the client, with no other goroutine running. *)
Lemma p84_serial p m0 outs given m ts s i os outs' :
  legal_history (calls p) →
  hrun isz p [] (start m0) = Ok (outs, given, m) →
  Forall queries ts →
  complete m ranc ∨ in_one asks_ancestors ts →
  complete m rdesc ∨ in_one asks_descendants ts →
  reaches isz m ts s →
  ts !! i = Some (Calls os) →
  s.2 !! i = Some (Ret outs') →
  ∃ σs g', length σs = length os ∧ Forall legal σs ∧
    run isz (calls p ++ zip σs os) NewAcyclicGraph = Ok (outs ++ outs', g').
Proof.
  intros Hl Hr Hq Ha Hd Hre Hi Hp. destruct (started p m0 outs given m Hl Hr) as (Hrun & Hs & Hinv).
  destruct (queries_alone isz m ts s i _ Hs Hq Ha Hd Hre Hp) as (t & m' & Ht & Hal). rewrite Hi in Ht. injection Ht as <-. cbn [task_prog] in Hal.
  assert (Forall (λ o, query o = true) os) as Hqo by (apply Forall_forall; intros o Ho; exact (Forall_lookup_1 _ _ _ _ Hq Hi o Ho)).
  destruct (alone_serial isz os m m' outs' Hqo Hs Hinv Hal) as (σs & Hlen & Hlg & Hrun').
  exists σs, (view m'). split; [done|]. split; [done|]. by eapply run_app.
Qed.
End props.
