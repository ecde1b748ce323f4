(** * Proofs about calls in several goroutines: a goroutine that runs alone *)
From stdpp Require Import base list gmap fin_map_dom.
From Verif Require Import GoBase SetModel DagModel DagObs DagInv DagRefine DagMem DagMemFacts DagMemPropProofs DagProg DagProgProofs DagRaceSpec.

(** ** More fuel *)
Section fuel.
Context {K T : Type} `{Countable K} `{Inhabited T} (isz : K → bool).
Notation prog := (prog K T).
Notation mem := (mem K T).

(** [q] is like [p], but may go on where [p] is out of fuel. *)
Inductive ple {A} : prog A → prog A → Prop :=
| le_nofuel q : ple NoFuel q
| le_ret a : ple (Ret a) (Ret a)
| le_stop : ple Stop Stop
| le_read l k k' : (∀ c, ple (k c) (k' c)) → ple (Read l k) (Read l k')
| le_put l c k k' : ple k k' → ple (Put l c k) (Put l c k')
| le_new c k k' : (∀ l, ple (k l) (k' l)) → ple (New c k) (New c k')
| le_self k k' : (∀ g, ple (k g) (k' g)) → ple (Self k) (Self k')
| le_set_self u k k' : ple k k' → ple (SetSelf u k) (SetSelf u k')
| le_order ks k k' : (∀ ks', ple (k ks') (k' ks')) → ple (Order ks k) (Order ks k')
| le_fuel k k' : (∀ n, ple (k n) (k' n)) → ple (Fuel k) (Fuel k').
Lemma ple_refl {A} (p : prog A) : ple p p.
Proof. induction p; by constructor. Qed.
Lemma ple_bind {A B} (p p' : prog A) (f f' : A → prog B) : ple p p' → (∀ a, ple (f a) (f' a)) → ple (pbind p f) (pbind p' f').
Proof. intros Hp Hf. induction Hp; cbn [pbind]; try by constructor. done. Qed.
Lemma ple_for {A B} (l : list B) (f f' : A → B → prog A) acc : (∀ a x, ple (f a x) (f' a x)) → ple (pfor l f acc) (pfor l f' acc).
Proof. intros Hf. revert acc. induction l as [|x l IH]; intros acc; cbn [pfor]; [constructor|]. apply ple_bind; [done|]. apply IH. Qed.
Lemma ple_again {A} s (p p' : prog A) : ple p p' → ple (again s p) (again s p').
Proof. destruct s; [|done]. intros Hp. by constructor. Qed.
Lemma ple_range {A} s (f f' : A → K → prog A) acc : (∀ a x, ple (f a x) (f' a x)) → ple (prange s f acc) (prange s f' acc).
Proof. intros Hf. apply ple_bind; [apply ple_refl|]. intros st. constructor. intros ks. apply ple_for. intros. by apply ple_again. Qed.
Lemma ple_range_in {A} e id (f f' : A → K → prog A) acc : (∀ a x, ple (f a x) (f' a x)) → ple (prange_in e id f acc) (prange_in e id f' acc).
Proof. intros Hf. apply ple_bind; [apply ple_refl|]. intros st. by apply ple_range. Qed.
Lemma getIDs_le f f' n : ∀ n' id, n ≤ n' → ple (pgetIDs isz f f' n id) (pgetIDs isz f f' n' id).
Proof.
  induction n as [|n IH]; intros n' id Hn; [constructor|]. destruct n' as [|n']; [lia|]. cbn [pgetIDs].
  apply ple_bind; [apply ple_refl|]. intros [e|]; [apply ple_refl|]. apply ple_bind; [apply ple_refl|]. intros [l|]; [apply ple_refl|].
  apply ple_bind; [apply ple_refl|]. intros c. apply ple_bind; [apply ple_refl|]. intros next. apply ple_bind; [|intros; apply ple_refl].
  destruct next as [next|]; [|apply ple_refl]. apply ple_range. intros a x. apply ple_bind; [apply IH; lia|]. intros r. apply ple_refl.
Qed.
Lemma walkLoop_le f v n : ∀ n' fifo sent, n ≤ n' → ple (pwalkLoop f n fifo v sent) (pwalkLoop f n' fifo v sent).
Proof.
  induction n as [|n IH]; intros n' fifo sent Hn; [constructor|]. destruct n' as [|n']; [lia|]. cbn [pwalkLoop]. destruct fifo as [|top fifo]; [apply ple_refl|].
  apply ple_bind; [apply ple_refl|]. intros fifo'. apply IH. lia.
Qed.

(** Every use of fuel is such that more fuel does no harm. *)
Fixpoint mono {A} (p : prog A) : Prop :=
  match p with
  | Ret _ | Stop | NoFuel => True
  | Read _ k => ∀ c, mono (k c)
  | Put _ _ k => mono k
  | New _ k => ∀ l, mono (k l)
  | Self k => ∀ g, mono (k g)
  | SetSelf _ k => mono k
  | Order _ k => ∀ ks, mono (k ks)
  | Fuel k => (∀ n n', n ≤ n' → ple (k n) (k n')) ∧ ∀ n, mono (k n)
  end.
Lemma mono_bind {A B} (p : prog A) (f : A → prog B) : mono p → (∀ a, mono (f a)) → mono (pbind p f).
Proof.
  intros Hp Hf. induction p as [a| | |l k IH|l c k IH|c k IH|k IH|u k IH|ks k IH|k IH]; cbn [mono pbind] in *; auto.
  destruct Hp as [H1 H2]. split; [|by intros n; apply IH]. intros n n' Hn. apply ple_bind; [by apply H1|]. intros. apply ple_refl.
Qed.
Lemma mono_for {A B} (l : list B) (f : A → B → prog A) acc : (∀ a x, mono (f a x)) → mono (pfor l f acc).
Proof. intros Hf. revert acc. induction l as [|x l IH]; intros acc; cbn [pfor]; [done|]. apply mono_bind; [done|]. apply IH. Qed.
Lemma mono_again {A} s (p : prog A) : mono p → mono (again s p).
Proof. destruct s; [|done]. intros Hp c. done. Qed.
Lemma mono_set_of s : mono (pset_of s).
Proof. by destruct s. Qed.
Lemma mono_range {A} s (f : A → K → prog A) acc : (∀ a x, mono (f a x)) → mono (prange s f acc).
Proof. intros Hf. apply mono_bind; [apply mono_set_of|]. intros st ks. apply mono_for. intros. by apply mono_again. Qed.
Lemma mono_rangev {A} s (f : A → K → prog A) acc : (∀ a x, mono (f a x)) → mono (prangev s f acc).
Proof. intros Hf. apply mono_bind; [apply mono_set_of|]. intros st ks. apply mono_for. intros. by apply mono_again. Qed.
Lemma mono_inner f id : mono (pinner f id).
Proof. done. Qed.
Lemma mono_payload id : mono (ppayload id).
Proof. done. Qed.
Lemma mono_range_in {A} e id (f : A → K → prog A) acc : (∀ a x, mono (f a x)) → mono (prange_in e id f acc).
Proof. intros Hf. apply mono_bind; [apply mono_inner|]. intros st. by apply mono_range. Qed.
Lemma mono_range_vertices {A} (f : A → K → prog A) acc : (∀ a x, mono (f a x)) → mono (prange_vertices f acc).
Proof. intros Hf g c ks. apply mono_for. intros a x c'. apply Hf. Qed.
Lemma mono_range_sets {A} e (f : A → K → prog A) acc : (∀ a x, mono (f a x)) → mono (prange_sets e f acc).
Proof. intros Hf g c ks. apply mono_for. intros a x c'. apply Hf. Qed.
Lemma mono_add s v : mono (pAdd s v).
Proof. by destruct s. Qed.
Lemma mono_includes s v : mono (pIncludes s v).
Proof. by destruct s. Qed.
Lemma mono_copy l k : mono (pcopy_vertex l k).
Proof. done. Qed.
Lemma mono_store f id l : mono (pstore f id l).
Proof. done. Qed.
Lemma mono_new c : mono (pnew c).
Proof. done. Qed.
Lemma mono_ret {A} (a : A) : mono (Ret a).
Proof. done. Qed.
Lemma mono_check id : mono (pcheckVertexID isz id).
Proof. unfold pcheckVertexID. by destruct (isz id). Qed.
Lemma mono_check_edge s t : mono (pcheckEdgeIDs isz s t).
Proof.
  unfold pcheckEdgeIDs. destruct (isz s), (isz t); try done. destruct (decide (s = t)); [done|]. apply mono_bind; [done|]. by intros [].
Qed.
Ltac mo := repeat first
  [ apply mono_ret | apply mono_check | apply mono_check_edge | apply mono_inner | apply mono_payload | apply mono_new | apply mono_copy | apply mono_add | apply mono_includes | apply mono_store | apply mono_set_of
  | apply mono_range; intros ? ? | apply mono_rangev; intros ? ? | apply mono_range_in; intros ? ? | apply mono_range_vertices; intros ? ? | apply mono_range_sets; intros ? ?
  | apply mono_bind; [|intros ?]
  | match goal with |- mono (match ?x with _ => _ end) => destruct x end ].
Lemma mono_getIDs f f' n : ∀ id, mono (pgetIDs isz f f' n id).
Proof. induction n as [|n IH]; intros id; cbn [pgetIDs]; [done|]. mo. apply IH. Qed.
Lemma mono_walkLoop f n v : ∀ fifo sent, mono (pwalkLoop f n fifo v sent).
Proof. induction n as [|n IH]; intros fifo sent; cbn [pwalkLoop]; [done|]. mo. apply IH. Qed.
Lemma mono_ancestors id : mono (pancestorsOf isz id).
Proof. split; [intros; by apply getIDs_le|intros; apply mono_getIDs]. Qed.
Lemma mono_descendants id : mono (pdescendantsOf isz id).
Proof. split; [intros; by apply getIDs_le|intros; apply mono_getIDs]. Qed.
Lemma mono_ordered f id : mono (pordered isz f id).
Proof.
  unfold pordered. mo. unfold pwalk. mo. split; [intros n n' Hn; apply walkLoop_le; lia|intros; apply mono_walkLoop].
Qed.
Lemma mono_call o : query o = true → mono (pcall isz o).
Proof.
  intros Hq. destruct o; cbn [query pcall] in *; try done; (apply mono_bind; [|intros; apply mono_ret]).
  - unfold pGetVertex. mo.
  - unfold pIsEdge. mo.
  - unfold pGetSize. mo.
  - unfold pGetLeaves. mo.
  - unfold pGetRoots. mo.
  - unfold pGetVertices. mo.
  - unfold pGetParents, pneighbours. mo.
  - unfold pGetChildren, pneighbours. mo.
  - unfold pGetAncestors. apply mono_bind; [apply mono_ancestors|]. intros r. unfold ploadFromCache. mo.
  - apply mono_ordered.
  - unfold pGetDescendants. apply mono_bind; [apply mono_descendants|]. intros r. unfold ploadFromCache. mo.
  - apply mono_ordered.
  - unfold pString. mo; first [done|unfold pGetSize; mo].
Qed.
Lemma mono_goroutine os : Forall (λ o, query o = true) os → mono (goroutine isz os).
Proof.
  intros Hq. induction Hq as [|o os Ho Hq IH]; [done|]. cbn [goroutine]. apply mono_bind; [by apply mono_call|]. intros r.
  apply mono_bind; [by destruct r as [| | | | |[]|[]| |]|]. intros x. apply mono_bind; [done|]. done.
Qed.

(** ** Running with a fixed fuel *)
Fixpoint runs {A} (a : Alloc) (F : mem → nat) (σ : schedule K) (p : prog A) (m : mem) (n : nat) : res (A * mem * nat) :=
  match p with
  | Ret a => Ok (a, m, n)
  | Stop => Panic
  | NoFuel => OutOfFuel
  | Read l k => runs a F σ (k (cells m !! l)) m n
  | Put l c k => runs a F σ k (put m l c) n
  | New c k => let l := a_cell (dom (cells m)) in runs a F σ (k l) (put m l c) n
  | Self k => runs a F σ (k (this m)) m n
  | SetSelf u k => runs a F σ k (Mem (cells m) (u (this m))) n
  | Order ks k => runs a F σ (k (σ n ks)) m (S n)
  | Fuel k => runs a F σ (k (F m)) m n
  end.
Lemma runs_alone {A} (a : Alloc) σ (p : prog A) m n : alone σ p m n = runs a hfuel_of σ p m n.
Proof. revert m n. induction p; intros m n; cbn [alone runs]; auto. Qed.
Lemma runs_le {A} (a : Alloc) N σ (p q : prog A) m n r : ple p q → runs a (λ _, N) σ p m n = Ok r → runs a (λ _, N) σ q m n = Ok r.
Proof. intros Hle. revert m n. induction Hle; intros m n; cbn [runs]; auto; done. Qed.
Lemma runs_more {A} (a : Alloc) F σ (p : prog A) m n r : mono p → runs a F σ p m n = Ok r → ∃ N0, ∀ N, N0 ≤ N → runs a (λ _, N) σ p m n = Ok r.
Proof.
  revert m n. induction p as [x| | |l k IH|l c k IH|c k IH|k IH|u k IH|ks k IH|k IH]; intros m n Hm Hr; cbn [mono runs] in *; try (by apply IH); try done; try by (exists 0).
  destruct Hm as [H1 H2]. destruct (IH _ _ _ (H2 _) Hr) as [N0 HN]. exists (N0 `max` F m). intros N Hle. eapply runs_le; [apply (H1 (F m)); lia|]. apply HN. lia.
Qed.
Lemma runs_ext {A} (a a' : Alloc) F σ σ' (p : prog A) m n :
  (∀ i ks, n ≤ i → σ i ks = σ' i ks) → (∀ X, dom (cells m) ⊆ X → @a_cell a X = @a_cell a' X) → runs a F σ p m n = runs a' F σ' p m n.
Proof.
  revert m n. induction p as [x| | |l k IH|l c k IH|c k IH|k IH|u k IH|ks k IH|k IH]; intros m n Hσ Ha; cbn [runs]; try done; try by apply IH.
  - apply IH; [done|]. cbn [cells put]. intros X HX. apply Ha. rewrite dom_insert in HX. set_solver.
  - rewrite (Ha _ (reflexivity _)). apply IH; [done|]. cbn [cells put]. intros X HX. apply Ha. rewrite dom_insert in HX. set_solver.
  - rewrite Hσ by done. apply IH; [|done]. intros i ks' Hi. apply Hσ. lia.
Qed.
Lemma runs_shift {A} (a : Alloc) F σ d (p : prog A) m n :
  runs a F σ p m (d + n) = match runs a F (λ i, σ (d + i)) p m n with Ok (x, m', n') => Ok (x, m', d + n') | Panic => Panic | OutOfFuel => OutOfFuel end.
Proof.
  revert m n. induction p as [x| | |l k IH|l c k IH|c k IH|k IH|u k IH|ks k IH|k IH]; intros m n; cbn [runs]; try done. rewrite <- IH. f_equal. lia.
Qed.
Lemma runs_bind {A B} (a : Alloc) F σ (p : prog A) (f : A → prog B) m n :
  runs a F σ (pbind p f) m n = match runs a F σ p m n with Ok (x, m', n') => runs a F σ (f x) m' n' | Panic => Panic | OutOfFuel => OutOfFuel end.
Proof. revert m n. induction p; intros m n; cbn [pbind runs]; done. Qed.

(** ** A run of a goroutine alone, with some places for new maps and some order of its loops *)
Definition set_order (σ : schedule K) n ks ks' : schedule K := λ i l, if decide (i = n ∧ l = ks) then ks' else σ i l.
Lemma set_order_legal σ n ks ks' : legal σ → ks' ≡ₚ ks → legal (set_order σ n ks ks').
Proof. intros Hσ Hk i l. unfold set_order. destruct (decide _) as [[-> ->]|]; [done|apply Hσ]. Qed.
Program Definition set_place (a : Alloc) (X0 : gset loc) (l : loc) (Hl : l ∉ X0) : Alloc :=
  {| a_cell X := if decide (X = X0) then l else @a_cell a X |}.
Next Obligation. intros a X0 l Hl X. cbn. destruct (decide _) as [->|]; [done|apply a_free]. Qed.
Lemma set_place_eq a X0 l Hl : @a_cell (set_place a X0 l Hl) X0 = l.
Proof. cbn. by rewrite decide_True. Qed.
Lemma set_place_ne a X0 l Hl X : X ≠ X0 → @a_cell (set_place a X0 l Hl) X = @a_cell a X.
Proof. intros Hx. cbn. by rewrite decide_False. Qed.
Definition first : Alloc := {| a_cell := fresh; a_free := is_fresh |}.
Lemma astep_runs {A} (p : prog A) m m' x n : mono p → rtc astep (m, p) (m', Ret x) →
  ∃ (a : Alloc) σ N0 n', legal σ ∧ ∀ N, N0 ≤ N → runs a (λ _, N) σ p m n = Ok (x, m', n').
Proof.
  intros Hm Hr. remember (m, p) as s eqn:E. remember (m', Ret x) as s' eqn:E'. revert m p n Hm E.
  induction Hr as [s|s [m1 p1] s' Hst Hr IH]; intros m p n Hm ->.
  - injection E' as -> ->. exists first, (λ _ ks, ks), 0, n. split; [by intros ? ?|done].
  - specialize (IH E'). unfold astep in Hst. cbn [fst snd] in Hst. inversion Hst as [? l k|? l c k|? c k l Hl|? k|? u k|? ks k ks' Hks|? k j]; subst; cbn [mono] in Hm.
    + destruct (IH m1 _ n (Hm _) eq_refl) as (a & σ & N0 & n' & Hσ & HN). by exists a, σ, N0, n'.
    + destruct (IH _ _ n Hm eq_refl) as (a & σ & N0 & n' & Hσ & HN). by exists a, σ, N0, n'.
    + destruct (IH _ _ n (Hm l) eq_refl) as (a & σ & N0 & n' & Hσ & HN). assert (l ∉ dom (cells m)) as Hld by by apply not_elem_of_dom.
      exists (set_place a (dom (cells m)) l Hld), σ, N0, n'. split; [done|]. intros N Hle. cbn [runs]. rewrite set_place_eq.
      rewrite <- (HN N Hle). apply runs_ext; [done|]. intros X HX. apply set_place_ne. intros ->. apply Hld, HX. cbn [cells put]. set_solver.
    + destruct (IH m1 _ n (Hm _) eq_refl) as (a & σ & N0 & n' & Hσ & HN). by exists a, σ, N0, n'.
    + destruct (IH _ _ n Hm eq_refl) as (a & σ & N0 & n' & Hσ & HN). by exists a, σ, N0, n'.
    + destruct (IH m1 _ (S n) (Hm _) eq_refl) as (a & σ & N0 & n' & Hσ & HN). exists a, (set_order σ n ks ks'), N0, n'. split; [by apply set_order_legal|].
      intros N Hle. cbn [runs]. unfold set_order at 2. rewrite decide_True by done. rewrite <- (HN N Hle). apply runs_ext; [|done].
      intros i l Hi. unfold set_order. rewrite decide_False; [done|]. intros [-> _]. lia.
    + destruct Hm as [H1 H2]. destruct (IH m1 _ n (H2 _) eq_refl) as (a & σ & N0 & n' & Hσ & HN). exists a, σ, (N0 `max` j), n'. split; [done|].
      intros N Hle. cbn [runs]. eapply runs_le; [apply (H1 j); lia|]. apply HN. lia.
Qed.
Lemma runs_pread (a : Alloc) F σ r m n : runs a F σ (pread r) m n = Ok (read_out m r, m, n).
Proof. by destruct r as [| | | | |[]|[]| |]. Qed.
Lemma goroutine_runs (a : Alloc) σ os : legal σ → Forall (λ o, query o = true) os → ∀ m n N0 outs m' n', sep m → inv isz (view m) →
  (∀ N, N0 ≤ N → runs a (λ _, N) σ (goroutine isz os) m n = Ok (outs, m', n')) →
  ∃ σs, length σs = length os ∧ Forall legal σs ∧ run isz (zip σs os) (view m) = Ok (outs, view m').
Proof.
  intros Hσ Hq. induction Hq as [|o os Ho Hq IH]; intros m n N0 outs m' n' Hs Hi HN.
  - cbn [goroutine runs] in HN. specialize (HN N0 (reflexivity _)). injection HN as <- <- _. by exists [].
  - set (σ1 := λ i, σ (n + i)). assert (legal σ1) as Hσ1 by (intros i l; apply Hσ).
    destruct (exec_mem isz σ1 o m Hσ1 Hs Hi) as (r & m1 & n1 & Hx & S1 & I1 & Hc & _). rewrite <- (call_alone isz σ1 o m 0), (runs_alone a) in Hx.
    destruct (runs_more a _ _ _ _ _ _ (mono_call o Ho) Hx) as [N1 HN1].
    assert (∀ N, N1 ≤ N → runs a (λ _, N) σ (pcall isz o) m n = Ok (r, m1, n + n1)) as HNc.
    { intros N Hle. pose proof (runs_shift a (λ _, N) σ n (pcall isz o) m 0) as Hsh. fold σ1 in Hsh. by rewrite (HN1 N Hle), Nat.add_0_r in Hsh. }
    assert (∀ N, N0 `max` N1 ≤ N → ∃ outs', outs = read_out m1 r :: outs' ∧ runs a (λ _, N) σ (goroutine isz os) m1 (n + n1) = Ok (outs', m', n')) as HN2.
    { intros N Hle. assert (N0 ≤ N) as Hle0 by lia. assert (N1 ≤ N) as Hle1 by lia. specialize (HN N Hle0). cbn [goroutine] in HN.
      rewrite runs_bind, (HNc N Hle1), runs_bind, runs_pread, runs_bind in HN.
      destruct (runs a (λ _, N) σ (goroutine isz os) m1 (n + n1)) as [[[outs2 m3] n3]| |]; [|done|done]. cbn [runs] in HN. injection HN as <- <- <-. by exists outs2. }
    destruct (HN2 _ (reflexivity _)) as (outs' & -> & _).
    destruct (IH m1 (n + n1) (N0 `max` N1) outs' m' n' S1 I1) as (σs & Hl & Hlg & Hrun).
    { intros N Hle. destruct (HN2 N Hle) as (outs'' & [= <-] & E). done. }
    exists (σ1 :: σs). split; [cbn [length]; by rewrite Hl|]. split; [by constructor|]. cbn [zip zip_with run]. by rewrite Hc, Hrun.
Qed.
Lemma alone_serial (os : list (op K T)) (m m' : mem) outs : Forall (λ o, query o = true) os → sep m → inv isz (view m) → rtc astep (m, goroutine isz os) (m', Ret outs) →
  ∃ σs, length σs = length os ∧ Forall legal σs ∧ run isz (zip σs os) (view m) = Ok (outs, view m').
Proof.
  intros Hq Hs Hi Hr. destruct (astep_runs _ _ _ _ 0 (mono_goroutine os Hq) Hr) as (a & σ & N0 & n' & Hσ & HN). by eapply goroutine_runs.
Qed.
End fuel.
