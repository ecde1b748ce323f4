(** * Proofs about calls in several goroutines: two calls that meet at a cache *)
From stdpp Require Import base list gmap fin_map_dom.
From Verif Require Import GoBase SetModel DagModel DagObs DagMem DagMemFacts DagMemPropProofs DagProg DagProgProofs DagRaceSpec DagRaceFill DagRace DagRaceStart.

Section meet.
Context {K T : Type} `{Countable K} `{Inhabited T} `{A0 : Alloc} (isz : K → bool).
Notation prog := (prog K T).
Notation mem := (mem K T).
Notation heap := (gmap loc (cell K T)).
Implicit Types (m : mem) (h : heap).

Lemma alone_astep {A} σ (p : prog A) m n a m' n' : legal σ → alone σ p m n = Ok (a, m', n') → rtc astep (m, p) (m', Ret a).
Proof.
  intros Hσ. revert m n. induction p as [x| | |l k IH|l c k IH|c k IH|k IH|u k IH|ks k IH|k IH]; intros m n E; cbn [alone] in E; try done.
  - injection E as -> -> _. apply rtc_refl.
  - eapply rtc_l; [|by eapply IH]. apply (s_read m l k).
  - eapply rtc_l; [|by eapply IH]. apply (s_put m l c k).
  - eapply rtc_l; [|by eapply IH]. apply (s_new m c k). apply not_elem_of_dom, a_free.
  - eapply rtc_l; [|by eapply IH]. apply (s_self m k).
  - eapply rtc_l; [|by eapply IH]. apply (s_set_self m u k).
  - eapply rtc_l; [|by eapply IH]. apply (s_order m ks k). apply Hσ.
  - eapply rtc_l; [|by eapply IH]. apply (s_fuel m k).
Qed.
Lemma astep_bind {A B} (p q : prog A) (f : A → prog B) m m' : rtc astep (m, p) (m', q) → rtc astep (m, pbind p f) (m', pbind q f).
Proof.
  intros Hr. remember (m, p) as s eqn:E. remember (m', q) as s' eqn:E'. revert m p E. induction Hr as [s|s [m1 p1] s' Hst Hr IH]; intros m p ->.
  - injection E' as -> ->. apply rtc_refl.
  - eapply rtc_l; [|by apply IH]. unfold astep in *. cbn [fst snd] in *. inversion Hst; subst; cbn [pbind].
    + apply (s_read m1 l (λ c, pbind (k c) f)).
    + constructor.
    + by apply (s_new m c (λ l, pbind (k l) f)).
    + apply (s_self m1 (λ g, pbind (k g) f)).
    + constructor.
    + by apply (s_order m1 ks (λ ks, pbind (k ks) f)).
    + apply (s_fuel m1 (λ n, pbind (k n) f)).
Qed.
Lemma astep_tstep {A} (ps : list (prog A)) i p p' m m' : ps !! i = Some p → rtc astep (m, p) (m', p') → rtc tstep (m, ps) (m', <[i := p']> ps).
Proof.
  intros Hi Hr. remember (m, p) as s eqn:E. remember (m', p') as s' eqn:E'. revert m p ps Hi E. induction Hr as [s|s [m1 p1] s' Hst Hr IH]; intros m p ps Hi ->.
  - injection E' as -> ->. rewrite list_insert_id by done. apply rtc_refl.
  - unfold astep in Hst. cbn [fst snd] in *. eapply rtc_l; [by apply (t_step m ps i p m1 p1)|].
    assert (<[i := p1]> ps !! i = Some p1) as Hi1 by (apply list_lookup_insert; by eapply lookup_lt_Some).
    specialize (IH E' m1 p1 _ Hi1 eq_refl). by rewrite list_insert_insert in IH.
Qed.

(** A goroutine that changes the cell [l] of the memory [m0] gets to the point where it is
    about to do so, and has left [m0] as it was until then. *)
Lemma until_put {A} g (p : prog A) l m0 Q : is_Some (cells m0 !! l) → ∀ m w h m' a,
  rtc astep (m, p) (m', Ret a) → wp g p w h Q → this m = g → h ⊆ cells m → (∀ l', l' ∈ w → l' ≠ l → cells m0 !! l' = None) → cells m0 ⊆ cells m →
  ¬ (cells m' !! l = cells m0 !! l ∧ this m' = g) → ∃ m2 c k, rtc astep (m, p) (m2, Put l c k) ∧ cells m0 ⊆ cells m2 ∧ this m2 = g.
Proof.
  intros [c0 Hc0] m w h m' a Hr. remember (m, p) as s eqn:E. remember (m', Ret a) as s' eqn:E'. revert m p w h E.
  induction Hr as [s|s [m1 p1] s' Hst Hr IH]; intros m p w h -> Hwp Ht Hh Hw Hm Hn.
  - injection E' as -> ->. destruct Hn. split; [|done]. rewrite Hc0. by eapply lookup_weaken.
  - specialize (IH E'). unfold astep in Hst. cbn [fst snd] in Hst.
    assert (∀ w' h', wp g p1 w' h' Q → this m1 = g → h' ⊆ cells m1 → (∀ l', l' ∈ w' → l' ≠ l → cells m0 !! l' = None) → cells m0 ⊆ cells m1 →
      ∃ m2 c k, rtc astep (m, p) (m2, Put l c k) ∧ cells m0 ⊆ cells m2 ∧ this m2 = g) as Hgo.
    { intros w' h' H1 H2 H3 H4 H5. destruct (IH m1 p1 w' h' eq_refl H1 H2 H3 H4 H5 Hn) as (m2 & c & k & Hr2 & Hm2 & Ht2). exists m2, c, k. split; [|done]. eapply rtc_l; [|exact Hr2]. exact Hst. }
    clear IH Hr. inversion Hst as [? l' k|? l' c k|? c k l' Hl'|? k|? u k|? ks k ks' Hks|? k n]; subst; cbn [wp] in Hwp.
    + destruct Hwp as [[c Hc] Hwp]. apply (Hgo w h); try done. by rewrite (lookup_weaken _ _ _ _ Hc Hh), <- Hc.
    + destruct Hwp as [Hlw Hwp]. destruct (decide (l' = l)) as [->|Hne].
      * exists m, c, p1. split; [apply rtc_refl|done].
      * apply (Hgo w (<[l' := c]> h)); try done; cbn [cells put]; [by apply insert_mono|]. apply insert_subseteq_r; [by apply Hw|done].
    + assert (h !! l' = None) as Hn' by (destruct (h !! l') eqn:E; [by rewrite (lookup_weaken _ _ _ _ E Hh) in Hl'|done]).
      assert (cells m0 !! l' = None) as Hn0 by (destruct (cells m0 !! l') eqn:E; [by rewrite (lookup_weaken _ _ _ _ E Hm) in Hl'|done]).
      apply (Hgo ({[l']} ∪ w) (<[l' := c]> h)); try done; cbn [cells put].
      * by apply Hwp.
      * by apply insert_mono.
      * intros l1 [->%elem_of_singleton|Hl1]%elem_of_union; [done|by apply Hw].
      * by apply insert_subseteq_r.
    + by apply (Hgo w h).
    + done.
    + apply (Hgo w h); try done. by apply Hwp.
    + apply (Hgo w h); try done.
Qed.

(** More memory *)
Lemma more_sets m m' l : cells m ⊆ cells m' → is_Some (cells m !! l) → cells m' !! l = cells m !! l.
Proof. intros Hm [c Hc]. rewrite Hc. by eapply lookup_weaken. Qed.
Lemma more_inner m m' f k : sep m → cells m ⊆ cells m' → this m' = this m → inner m' f k = inner m f k.
Proof. intros Hs Hm Ht. unfold inner, sets_at. rewrite Ht. rewrite (more_sets m m'); [done|done|]. by apply sep_some. Qed.
Lemma more_sep m m' : sep m → cells m ⊆ cells m' → this m' = this m → sep m' ∧ view m' = view m.
Proof.
  intros Hs Hm Ht. destruct (sep_some m Hs) as [Hv Ho]. split.
  - split.
    + rewrite Ht, (more_sets m m') by done. apply (sep_v _ Hs).
    + intros f. rewrite Ht, (more_sets m m') by done. apply (sep_o _ Hs).
    + rewrite Ht. apply (sep_d _ Hs).
    + intros f k l E. rewrite (more_inner m m') in E by done. destruct (sep_i _ Hs f k l E) as [s Es]. exists s. by eapply lookup_weaken.
    + intros f k f' k' l E E'. rewrite (more_inner m m') in E by done. rewrite (more_inner m m') in E' by done. by eapply (sep_j _ Hs).
  - assert (∀ f, deep m' f = deep m f) as Hd.
    { intros f. apply map_eq. intros k. unfold deep. rewrite !lookup_fmap. pose proof (more_inner m m' f k Hs Hm Ht) as E. unfold inner in E. rewrite E.
      destruct (sets_at m (outer (this m) f) !! k) as [l|] eqn:El; [|done]. cbn. f_equal. unfold set_at. rewrite (more_sets m m'); [done|done|]. by eapply sep_inner. }
    unfold view. rewrite !Hd. f_equal. unfold verts_at. rewrite Ht. by rewrite (more_sets m m').
Qed.

Definition cache_at m (up : bool) : loc := if up then ranc (this m) else rdesc (this m).
(** A call that finds no entry is going to change the cache. *)
Lemma ask_until (up : bool) id m : sep m → DagInv.inv isz (view m) → is_Some (vertices (view m) !! id) → cache_of up (view m) !! id = None →
  ∃ m2 c k, rtc astep (m, pcall isz (ask up id)) (m2, Put (cache_at m up) c k) ∧ cells m ⊆ cells m2 ∧ this m2 = this m.
Proof.
  intros Hs Hi Hv Hc. assert (legal (λ _ ks, ks : list K)) as Hσ by by intros ? ?.
  destruct (exec_mem isz _ (ask up id) m Hσ Hs Hi) as (r & m1 & n1 & Hx & S1 & I1 & Hcall & _ & _).
  rewrite <- (call_alone isz _ (ask up id) m 0) in Hx. apply alone_astep in Hx; [|done].
  destruct (ask_fills isz _ up id (view m) _ _ Hσ Hi Hcall) as [_ [_ _ Hin]]. specialize (Hin Hv).
  eapply (until_put (this m) _ (cache_at m up) m _ _ m (owns m up (negb up)) (known_at m up (negb up))); [exact Hx| |done|apply only_sub| |done|].
  - eapply (tri_call isz (base m false false) up (negb up)); [by apply base_closed|by destruct up|destruct up; cbn; auto|destruct up; cbn; auto|].
    apply (start_inv isz m false false up (negb up)); [done|done|done].
  - intros l Hl Hne. destruct up; unfold owns, cache_at in *; cbn in *; set_solver.
  - intros [E Et]. assert (cache_at m1 up = cache_at m up) as El by (unfold cache_at; by rewrite Et).
    apply elem_of_dom in Hin. rewrite view_cache in Hin. fold (cache_at m1 up) in Hin. rewrite El in Hin. unfold sets_at in Hin. rewrite E in Hin.
    fold (sets_at m (cache_at m up)) in Hin. unfold cache_at in Hin. rewrite <- view_cache in Hin. apply elem_of_dom in Hin. rewrite Hc in Hin. by destruct Hin.
  Unshelve. destruct (sep_some m Hs) as [_ Ho]. destruct up; [apply (Ho FA)|apply (Ho FD)].
Qed.
Lemma asks_meet (up : bool) m ts i j id id' os os' : sep m → DagInv.inv isz (view m) → i ≠ j →
  ts !! i = Some (Calls (ask up id :: os)) → ts !! j = Some (Calls (ask up id' :: os')) →
  is_Some (vertices (view m) !! id) → is_Some (vertices (view m) !! id') →
  cache_of up (view m) !! id = None → cache_of up (view m) !! id' = None →
  ∃ s, reaches isz m ts s ∧ race s.2.
Proof.
  intros Hs Hi Hij Hti Htj Hv Hv' Hc Hc'. destruct (ask_until up id m Hs Hi Hv Hc) as (m1 & c1 & k1 & R1 & M1 & T1).
  destruct (more_sep m m1 Hs M1 T1) as [S1 V1]. assert (cache_at m1 up = cache_at m up) as El by (unfold cache_at; by rewrite T1).
  destruct (ask_until up id' m1) as (m2 & c2 & k2 & R2 & M2 & T2); [done|by rewrite V1|by rewrite V1|by rewrite V1|]. rewrite El in R2.
  set (f o := λ r, pbind (pread r) (λ x : out K T, pbind (goroutine isz o) (λ xs, Ret (x :: xs)))).
  apply (astep_bind _ _ (f os)) in R1. apply (astep_bind _ _ (f os')) in R2.
  set (ps := map (task_prog isz) ts).
  assert (ps !! i = Some (task_prog isz (Calls (ask up id :: os)))) as Hpi by (unfold ps; by rewrite list_lookup_fmap, Hti).
  assert (ps !! j = Some (task_prog isz (Calls (ask up id' :: os')))) as Hpj by (unfold ps; by rewrite list_lookup_fmap, Htj).
  pose proof (astep_tstep ps i _ _ _ _ Hpi R1) as Q1.
  set (ps1 := <[i := _]> ps) in Q1.
  assert (ps1 !! j = Some (task_prog isz (Calls (ask up id' :: os')))) as Hpj1 by (unfold ps1; by rewrite list_lookup_insert_ne).
  pose proof (astep_tstep ps1 j _ _ _ _ Hpj1 R2) as Q2.
  eexists. split; [unfold reaches; etrans; [exact Q1|exact Q2]|]. cbn [snd].
  exists i, j. eexists _, _, (Some (cache_at m up)), true, true. split; [done|].
  split; [rewrite list_lookup_insert_ne by done; unfold ps1; apply list_lookup_insert; by eapply lookup_lt_Some|].
  split; [apply list_lookup_insert; by eapply lookup_lt_Some|]. cbn [pbind access]. auto.
Qed.
End meet.
