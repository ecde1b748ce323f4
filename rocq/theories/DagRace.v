(** * Proofs about calls in several goroutines *)
From stdpp Require Import base list gmap fin_map_dom.
From Verif Require Import GoBase SetModel DagModel DagMem DagMemFacts DagProg DagRaceSpec.

Section race.
Context {K T : Type} `{Countable K} `{Inhabited T} (isz : K → bool).
Notation prog := (prog K T).
Notation mem := (mem K T).
Notation cell := (cell K T).
Notation heap := (gmap loc cell).
Implicit Types (h : heap) (w : gset loc) (g : gref).

(** ** What a goroutine does with its part of the memory
    [h] are the cells it knows, [w] those of them that only it uses. *)
Fixpoint wp {A} g (p : prog A) w h (Q : A → gset loc → heap → Prop) : Prop :=
  match p with
  | Ret a => Q a w h
  | Stop => False
  | NoFuel => True
  | Read l k => is_Some (h !! l) ∧ wp g (k (h !! l)) w h Q
  | Put l c k => l ∈ w ∧ wp g k w (<[l := c]> h) Q
  | New c k => ∀ l, h !! l = None → wp g (k l) ({[l]} ∪ w) (<[l := c]> h) Q
  | Self k => wp g (k g) w h Q
  | SetSelf _ _ => False
  | Order ks k => ∀ ks', ks' ≡ₚ ks → wp g (k ks') w h Q
  | Fuel k => ∀ n, wp g (k n) w h Q
  end.
Lemma wp_mono {A} g (p : prog A) w h (Q Q' : A → gset loc → heap → Prop) :
  wp g p w h Q → (∀ a w' h', Q a w' h' → Q' a w' h') → wp g p w h Q'.
Proof.
  revert w h. induction p as [a| | |l k IH|l c k IH|c k IH|k IH|u k IH|ks k IH|k IH]; intros w h Hp HQ; cbn [wp] in *; naive_solver.
Qed.
Lemma wp_bind {A B} g (p : prog A) (f : A → prog B) w h Q :
  wp g p w h (λ a w' h', wp g (f a) w' h' Q) → wp g (pbind p f) w h Q.
Proof.
  revert w h. induction p as [a| | |l k IH|l c k IH|c k IH|k IH|u k IH|ks k IH|k IH]; intros w h Hp; cbn [wp pbind] in *; naive_solver.
Qed.
Lemma wp_for {A B} g (l : list B) (body : A → B → prog A) (I : A → gset loc → heap → Prop) acc w h :
  (∀ a x w h, x ∈ l → I a w h → wp g (body a x) w h I) → I acc w h → wp g (pfor l body acc) w h I.
Proof.
  revert acc w h. induction l as [|x l IH]; intros acc w h Hb HI; [done|]. cbn [pfor]. apply wp_bind.
  eapply wp_mono; [apply Hb; [by apply elem_of_list_here|done]|]. intros a w' h' Ha. apply IH; [|done]. intros. apply Hb; [by apply elem_of_list_further|done].
Qed.

(** ** Several goroutines *)
Section several.
Context {A : Type} (g : gref) (m0 : mem).
(** The part of a goroutine: what it may change, what it knows, the program it began with. *)
Record part : Type := Part { pw : gset loc; ph : heap; p0 : prog A }.
(** What the goroutine does, it can do alone as well. *)
Definition solo (m : mem) (p : prog A) (x : part) : Prop :=
  ∃ mi, rtc astep (m0, p0 x) (mi, p) ∧ this mi = g ∧ ph x ⊆ cells mi ∧ dom (cells mi) ⊆ dom (cells m).
Definition fine (m : mem) (p : prog A) (x : part) : Prop :=
  wp g p (pw x) (ph x) (λ _ _ _, True) ∧ ph x ⊆ cells m ∧ pw x ⊆ dom (ph x) ∧ solo m p x.
Record parted (m : mem) (ps : list (prog A)) (xs : list part) : Prop := {
  pt_this : this m = g;
  pt_fine : Forall2 (fine m) ps xs;
  pt_sep i j x y : i ≠ j → xs !! i = Some x → xs !! j = Some y → pw x ## dom (ph y)
}.
Lemma parted_safe m (ps : list (prog A)) xs : parted m ps xs → ¬ race ps ∧ ¬ panics ps.
Proof.
  intros [Ht Hf Hs]. split.
  - intros (i & j & p & q & x & b & b' & Hij & Hp & Hq & Ap & Aq & Hb).
    destruct (Forall2_lookup_l _ _ _ _ _ Hf Hp) as (xp & Hxp & Hwp & Hhp & _ & _). destruct (Forall2_lookup_l _ _ _ _ _ Hf Hq) as (xq & Hxq & Hwq & Hhq & _ & _).
    assert (∀ (p : prog A) w h x b Q, wp g p w h Q → w ⊆ dom h → access p = Some (x, b) →
      match x with Some l => l ∈ dom h ∧ (b = true → l ∈ w) | None => b = false end) as Hacc.
    { clear m0 m ps xs Ht Hf Hs i j p q x b b' Hij Hp Hq Ap Aq Hb xp Hxp Hwp Hhp xq Hxq Hwq Hhq. intros p w h x b Q Hwp Hd Ha. destruct p; cbn in *; try done; injection Ha as <- <-; try done.
      - destruct Hwp as [[c Hc] _]. split; [|done]. by apply elem_of_dom_2 in Hc.
      - destruct Hwp as [Hc _]. auto. }
    assert (∀ (p q : prog A) x y l b', wp g p (pw x) (ph x) (λ _ _ _, True) → wp g q (pw y) (ph y) (λ _ _ _, True) → pw x ⊆ dom (ph x) → pw y ⊆ dom (ph y) → pw x ## dom (ph y) →
      access p = Some (l, true) → access q = Some (l, b') → False) as Hno.
    { intros p1 q1 x1 y1 l1 b1 W1 W2 D1 D2 Hd A1 A2. pose proof (Hacc _ _ _ _ _ _ W1 D1 A1) as E1. pose proof (Hacc _ _ _ _ _ _ W2 D2 A2) as E2.
      destruct l1 as [l1|]; [|done]. destruct E1 as [_ E1]. destruct E2 as [E2 _]. specialize (E1 eq_refl). by apply (Hd l1). }
    destruct (Forall2_lookup_l _ _ _ _ _ Hf Hp) as (? & ? & _ & _ & Hdp & _). destruct (Forall2_lookup_l _ _ _ _ _ Hf Hq) as (? & ? & _ & _ & Hdq & _). simplify_eq.
    destruct Hb as [-> | ->].
    + eapply (Hno p q xp xq x b'); try done. by eapply (Hs i j).
    + eapply (Hno q p xq xp x b); try done. by eapply (Hs j i).
  - intros Hp. apply elem_of_list_lookup in Hp as [i Hi]. by destruct (Forall2_lookup_l _ _ _ _ _ Hf Hi) as (xp & Hxp & Hwp & _).
Qed.
Lemma parted_step m (ps : list (prog A)) xs m' ps' :
  parted m ps xs → tstep (m, ps) (m', ps') → ∃ xs', parted m' ps' xs' ∧ map p0 xs' = map p0 xs.
Proof.
  intros [Ht Hf Hs] Hst. revert Ht. inversion Hst as [? ? i p ? p' Hi Hstep]; subst; clear Hst. intros Ht.
  destruct (Forall2_lookup_l _ _ _ _ _ Hf Hi) as ([w h q0] & Hx & Hwp & Hh & Hw & mi & Hmi & Hti & Hhi & Hdi). cbn [pw ph p0] in *.
  assert (i < length xs) as Hlen by (by eapply lookup_lt_Some).
  (* the memory stays, the part stays *)
  assert (∀ p1, wp g p1 w h (λ _ _ _, True) → pstep mi p mi p1 → ∃ xs', parted m (<[i := p1]> ps) xs' ∧ map p0 xs' = map p0 xs) as Hsame.
  { intros p1 Hp1 Hst1. exists xs. split; [|done]. split; [done| |done]. rewrite <- (list_insert_id xs i _ Hx). apply Forall2_insert; [done|].
    split; [done|]. split; [done|]. split; [done|]. exists mi. split; [|done]. eapply rtc_r; [exact Hmi|done]. }
  (* one cell of the part changes or is added *)
  assert (∀ p1 l c w', l ∈ w ∨ cells m !! l = None → w' = w ∨ w' = {[l]} ∪ w → wp g p1 w' (<[l := c]> h) (λ _ _ _, True) →
    pstep mi p (put mi l c) p1 →
    ∃ xs', parted (put m l c) (<[i := p1]> ps) xs' ∧ map p0 xs' = map p0 xs) as Hupd.
  { intros p1 l c w' Hl Hw' Hp1 Hst1. exists (<[i := Part w' (<[l := c]> h) q0]> xs).
    split; [|rewrite list_fmap_insert; apply list_insert_id; cbn [p0]; by rewrite list_lookup_fmap, Hx].
    assert (∀ j y q, i ≠ j → xs !! j = Some y → ps !! j = Some q → l ∉ dom (ph y)) as Hother.
    { intros j y q Hij Hy Hq Hin. destruct Hl as [Hl|Hl]; [by apply (Hs i j _ _ Hij Hx Hy l)|].
      destruct (Forall2_lookup_lr _ _ _ _ _ _ Hf Hq Hy) as (_ & Hhq & _). apply elem_of_dom in Hin as [c' Hc']. by rewrite (lookup_weaken _ _ _ _ Hc' Hhq) in Hl. }
    split; [done| |].
    - apply Forall2_same_length_lookup. rewrite !insert_length. split; [by apply Forall2_length in Hf|]. intros j q y Hq Hy.
      destruct (decide (i = j)) as [<-|Hne].
      + rewrite list_lookup_insert in Hq by (by eapply lookup_lt_Some). rewrite list_lookup_insert in Hy by done. simplify_eq. split; [done|]. cbn [pw ph p0 cells put].
        split; [by apply insert_mono|]. split; [rewrite dom_insert; destruct Hw' as [-> | ->]; set_solver|].
        exists (put mi l c). split; [eapply rtc_r; [exact Hmi|done]|]. split; [done|]. cbn [ph cells put]. split; [by apply insert_mono|]. rewrite !dom_insert. set_solver.
      + rewrite list_lookup_insert_ne in Hq by done. rewrite list_lookup_insert_ne in Hy by done.
        destruct (Forall2_lookup_lr _ _ _ _ _ _ Hf Hq Hy) as (Hwq & Hhq & Hwdq & mj & Hmj & Htj & Hhj & Hdj). split; [done|].
        split; [cbn [cells put]; apply insert_subseteq_r; [|done]; apply not_elem_of_dom; by eapply Hother|]. split; [done|].
        exists mj. split; [done|]. split; [done|]. split; [done|]. cbn [cells put]. rewrite dom_insert. set_solver.
    - intros j k x y Hjk Hj Hk. destruct (decide (i = j)) as [<-|Hij], (decide (i = k)) as [<-|Hik]; [done|..].
      + rewrite list_lookup_insert in Hj by done. rewrite list_lookup_insert_ne in Hk by done. simplify_eq. cbn [pw].
        destruct (Forall2_lookup_r _ _ _ _ _ Hf Hk) as (q & Hq & _). pose proof (Hother k y q Hik Hk Hq). pose proof (Hs i k _ _ Hik Hx Hk) as Hd. cbn [pw] in Hd.
        destruct Hw' as [-> | ->]; set_solver.
      + rewrite list_lookup_insert in Hk by done. rewrite list_lookup_insert_ne in Hj by done. simplify_eq. cbn [ph].
        destruct (Forall2_lookup_r _ _ _ _ _ Hf Hj) as (q & Hq & _ & _ & Hwq & _). pose proof (Hother j x q Hij Hj Hq). pose proof (Hs j i _ _ Hjk Hj Hx) as Hd. cbn [ph] in Hd.
        rewrite dom_insert. set_solver.
      + rewrite list_lookup_insert_ne in Hk by done. rewrite list_lookup_insert_ne in Hj by done. by eapply (Hs j k). }
  revert Ht.
  inversion Hstep as [? l k E1|? l c k|? c k l Hl|? k|? u k|? ks k ks' Hks|? k n]; subst; cbn [wp] in Hwp; intros Ht.
  - destruct Hwp as [[c Hc] Hwp]. apply Hsame; [rewrite Hc in Hwp; by rewrite (lookup_weaken _ _ _ _ Hc Hh)|].
    rewrite (lookup_weaken _ _ _ _ Hc Hh), <- (lookup_weaken _ _ _ _ Hc Hhi). constructor.
  - destruct Hwp as [Hlw Hwp]. eapply Hupd; [by left|by left|done|constructor].
  - eapply Hupd; [by right|by right| |].
    + apply Hwp. destruct (h !! l) eqn:E; [|done]. by rewrite (lookup_weaken _ _ _ _ E Hh) in Hl.
    + constructor. apply not_elem_of_dom. apply not_elem_of_dom in Hl. set_solver.
  - apply Hsame; [by rewrite Ht|]. rewrite Ht, <- Hti. constructor.
  - done.
  - apply Hsame; [by apply Hwp|by constructor].
  - apply Hsame; [by apply Hwp|constructor].
Qed.
Lemma parted_reach m (ps : list (prog A)) xs s : parted m ps xs → rtc tstep (m, ps) s → ∃ xs', parted s.1 s.2 xs' ∧ map p0 xs' = map p0 xs.
Proof.
  intros Hp Hr. remember (m, ps) as s0 eqn:E. revert m ps xs Hp E. induction Hr as [s|s0 [m1 ps1] s Hst Hr IH]; intros m ps xs Hp ->.
  - by exists xs.
  - destruct (parted_step _ _ _ _ _ Hp Hst) as (xs' & Hp' & <-). by eapply IH.
Qed.
End several.

(** ** Queries
    [B] are the cells of the vertices and edges, [ca] and [cd] say whether the goroutine may use the
    caches of ancestors and of descendants. *)
Section queries.
Context (B : heap) (ca cd : bool) (g : gref).
Record closed : Prop := {
  cl_v : is_Some (B !! rvertices g);
  cl_i : is_Some (B !! rinbound g);
  cl_o : is_Some (B !! routbound g);
  cl_is k l : as_sets (B !! rinbound g) !! k = Some l → is_Some (B !! l);
  cl_os k l : as_sets (B !! routbound g) !! k = Some l → is_Some (B !! l)
}.
Hypothesis HB : closed.
Definition cache_fld (f : gref → loc) : Prop := (ca = true ∧ f = ranc) ∨ (cd = true ∧ f = rdesc).
Definition edge_fld (f : gref → loc) : Prop := f = rinbound ∨ f = routbound.
Record inv w h : Prop := {
  i_base : B ⊆ h;
  i_sep : w ## dom B;
  i_dom : w ⊆ dom h;
  i_cache f : cache_fld f → f g ∈ w ∧ ∀ k l, as_sets (h !! f g) !! k = Some l → l ∈ dom h
}.
Definition own w l : Prop := l ∈ w ∧ (∀ f, cache_fld f → l ≠ f g).
Definition known h (s : setvar) : Prop := ∀ l, s = Some l → l ∈ dom h.
Lemma own_mono w w' l : own w l → w ⊆ w' → own w' l.
Proof. intros [H1 H2] Hw. split; [by apply Hw|done]. Qed.
Lemma known_mono h h' s : known h s → dom h ⊆ dom h' → known h' s.
Proof. intros H1 Hd l E. by apply Hd, H1. Qed.
Lemma known_none h : known h None.
Proof. by intros l. Qed.

Definition tri {A} w h (p : prog A) (R : A → gset loc → heap → Prop) : Prop :=
  wp g p w h (λ a w' h', inv w' h' ∧ w ⊆ w' ∧ dom h ⊆ dom h' ∧ R a w' h').
Definition any {A} (a : A) w h : Prop := True.
Lemma tri_bind {A A'} w h (p : prog A) (f : A → prog A') R R' :
  tri w h p R → (∀ a w' h', inv w' h' → w ⊆ w' → dom h ⊆ dom h' → R a w' h' → tri w' h' (f a) R') → tri w h (pbind p f) R'.
Proof.
  intros Hp Hf. apply wp_bind. eapply wp_mono; [exact Hp|]. intros a w' h' (Hi & Hw & Hd & HR). eapply wp_mono; [by apply Hf|].
  intros a' w'' h'' (Hi' & Hw' & Hd' & HR'). split; [done|]. split; [by etrans|]. split; [by etrans|done].
Qed.
Lemma tri_ret {A} w h (a : A) (R : A → gset loc → heap → Prop) : inv w h → R a w h → tri w h (Ret a) R.
Proof. intros Hi HR. by split. Qed.
Lemma tri_for {A X} w h (l : list X) (body : A → X → prog A) (R : A → gset loc → heap → Prop) acc :
  inv w h → R acc w h →
  (∀ a x w' h', inv w' h' → w ⊆ w' → dom h ⊆ dom h' → R a w' h' → tri w' h' (body a x) R) → tri w h (pfor l body acc) R.
Proof.
  intros Hi HR Hb. apply wp_for; [|done]. intros a x w' h' _ (Hi' & Hw & Hd & HR'). eapply wp_mono; [by apply Hb|].
  intros a' w'' h'' (Hi'' & Hw' & Hd' & HR''). split; [done|]. split; [by etrans|]. split; [by etrans|done].
Qed.
Lemma tri_read {A} w h l (k : option cell → prog A) R : l ∈ dom h → tri w h (k (h !! l)) R → tri w h (Read l k) R.
Proof. intros Hl Hk. split; [by apply elem_of_dom|done]. Qed.
Lemma tri_order {A} w h ks (k : list K → prog A) R : (∀ ks', tri w h (k ks') R) → tri w h (Order ks k) R.
Proof. intros Hk ks' _. apply Hk. Qed.
Lemma tri_again {A} w h s (p : prog A) R : known h s → tri w h p R → tri w h (again s p) R.
Proof. destruct s as [l|]; [|done]. intros Hs Hp. apply tri_read; [by apply Hs|done]. Qed.
Lemma tri_put w h l x : inv w h → own w l → tri w h (pput l x) any.
Proof.
  intros [H1 H2 H3 H4] [Hl Hl']. split; [done|]. cbn [wp]. assert (l ∈ dom h) as Hld by (by apply H3). assert (dom (<[l:=x]> h) = dom h) as Ed by (rewrite dom_insert_L; set_solver).
  split; [|split; [done|split; [by rewrite Ed|done]]]. split.
  - apply insert_subseteq_r; [|done]. apply not_elem_of_dom. set_solver.
  - done.
  - by rewrite Ed.
  - intros f Hf. destruct (H4 f Hf) as [H5 H6]. split; [done|]. rewrite lookup_insert_ne by (by apply Hl'). intros k l' E. rewrite Ed. by eapply H6.
Qed.
Lemma tri_new w h x : inv w h → tri w h (pnew x) (λ l w' h', own w' l).
Proof.
  intros [H1 H2 H3 H4] l Hl. assert (l ∉ dom h) as Hld by (by apply not_elem_of_dom). assert (dom (<[l:=x]> h) = {[l]} ∪ dom h) as Ed by (by rewrite dom_insert_L).
  cbn [wp]. split; [|split; [set_solver|split; [set_solver|]]].
  - split.
    + apply insert_subseteq_r; [|done]. destruct (B !! l) eqn:E; [|done]. by rewrite (lookup_weaken _ _ _ _ E H1) in Hl.
    + assert (l ∉ dom B) as HlB; [|set_solver]. intros [y Hy]%elem_of_dom. by rewrite (lookup_weaken _ _ _ _ Hy H1) in Hl.
    + set_solver.
    + intros f Hf. destruct (H4 f Hf) as [H5 H6]. split; [set_solver|]. rewrite lookup_insert_ne by set_solver. intros k l' E. specialize (H6 k l' E). set_solver.
  - split; [set_solver|]. intros f Hf. destruct (H4 f Hf) as [H5 _]. set_solver.
Qed.
Lemma base_dom w h l : inv w h → is_Some (B !! l) → l ∈ dom h ∧ h !! l = B !! l.
Proof. intros [H1 _ _ _] [x Hx]. pose proof (lookup_weaken _ _ _ _ Hx H1) as E. split; [by apply elem_of_dom_2 in E|by rewrite E, Hx]. Qed.
Lemma tri_self {A} w h (k : gref → prog A) R : tri w h (k g) R → tri w h (Self k) R.
Proof. done. Qed.
Lemma tri_payload w h id : inv w h → tri w h (ppayload id) any.
Proof. intros Hi. destruct (base_dom w h _ Hi (cl_v HB)) as [Hd _]. apply tri_self. cbn [pverts_at pbind]. apply tri_read; [done|]. by apply tri_ret. Qed.
Lemma tri_edge w h f id : edge_fld f → inv w h → tri w h (pinner f id) (λ s w' h', known h' s).
Proof.
  intros Hf Hi. assert (is_Some (B !! f g)) as Hs by (destruct Hf as [-> | ->]; apply HB). destruct (base_dom w h _ Hi Hs) as [Hd E].
  apply tri_self. cbn [pbind]. apply tri_read; [done|]. apply tri_ret; [done|]. rewrite E. intros l El.
  assert (is_Some (B !! l)) as Hl by (destruct Hf as [-> | ->]; [by eapply (cl_is HB)|by eapply (cl_os HB)]). by destruct (base_dom w h _ Hi Hl).
Qed.
Lemma tri_cache w h f id : cache_fld f → inv w h → tri w h (pinner f id) (λ s w' h', known h' s).
Proof.
  intros Hf Hi. destruct (i_cache _ _ Hi f Hf) as [H1 H2]. apply tri_self. cbn [pbind]. apply tri_read; [by apply (i_dom _ _ Hi)|].
  apply tri_ret; [done|]. intros l E. by eapply H2.
Qed.
Lemma tri_set_of w h s : inv w h → known h s → tri w h (pset_of s) any.
Proof. intros Hi Hs. destruct s as [l|]; [|by apply tri_ret]. apply tri_read; [by apply Hs|]. by apply tri_ret. Qed.
Lemma tri_verts_at w h l : inv w h → l ∈ dom h → tri w h (pverts_at l) any.
Proof. intros Hi Hs. apply tri_read; [done|]. by apply tri_ret. Qed.
Lemma own_dom w h l : inv w h → own w l → l ∈ dom h.
Proof. intros Hi [Hl _]. by apply (i_dom _ _ Hi). Qed.
Lemma tri_add w h l v : inv w h → own w l → tri w h (pAdd (Some l) v) any.
Proof. intros Hi Hl. apply tri_read; [by eapply own_dom|]. by apply tri_put. Qed.
Lemma tri_includes w h s v : inv w h → known h s → tri w h (pIncludes s v) any.
Proof. intros Hi Hs. eapply tri_bind; [by apply tri_set_of|]. intros. by apply tri_ret. Qed.
Lemma tri_store w h f id l : cache_fld f → inv w h → own w l → tri w h (pstore f id l) any.
Proof.
  intros Hf Hi Hl. pose proof (own_dom _ _ _ Hi Hl) as Hld. destruct Hi as [H1 H2 H3 H4]. destruct (H4 f Hf) as [H5 H6]. apply tri_self. apply tri_read; [by apply H3|].
  set (x := CSets _). split; [done|]. cbn [wp]. assert (dom (<[f g:=x]> h) = dom h) as Ed by (rewrite dom_insert_L; set_solver).
  split; [|split; [done|split; [by rewrite Ed|done]]]. split.
  - apply insert_subseteq_r; [|done]. apply not_elem_of_dom. set_solver.
  - done.
  - by rewrite Ed.
  - intros f' Hf'. destruct (H4 f' Hf') as [H5' H6']. split; [done|]. rewrite Ed. intros k l' E.
    destruct (decide (f g = f' g)) as [E'|Hne].
    + rewrite <- E', lookup_insert in E. cbn [as_sets x] in E. destruct (decide (id = k)) as [->|Hk].
      * rewrite lookup_insert in E. by injection E as <-.
      * rewrite lookup_insert_ne in E by done. by eapply H6.
    + rewrite lookup_insert_ne in E by done. by eapply H6'.
Qed.
(** Loops *)
Lemma tri_range {A} w h s (body : A → K → prog A) (R : A → gset loc → heap → Prop) acc :
  inv w h → known h s → R acc w h →
  (∀ a x w' h', inv w' h' → w ⊆ w' → dom h ⊆ dom h' → R a w' h' → tri w' h' (body a x) R) → tri w h (prange s body acc) R.
Proof.
  intros Hi Hs HR Hb. unfold prange. destruct s as [l|].
  - cbn [pset_of pbind]. apply tri_read; [by apply Hs|]. apply tri_order. intros ks. apply tri_for; [done|done|]. intros a x w' h' Hi' Hw Hd HR'.
    apply tri_again; [by eapply known_mono|by apply Hb].
  - cbn [pset_of pbind]. apply tri_order. intros ks. apply tri_for; [done|done|]. intros. by apply Hb.
Qed.
Lemma tri_rangev {A} w h s (body : A → K → prog A) (R : A → gset loc → heap → Prop) acc :
  inv w h → known h s → R acc w h →
  (∀ a x w' h', inv w' h' → w ⊆ w' → dom h ⊆ dom h' → R a w' h' → tri w' h' (body a x) R) → tri w h (prangev s body acc) R.
Proof.
  intros Hi Hs HR Hb. unfold prangev. destruct s as [l|].
  - cbn [pset_of pbind]. apply tri_read; [by apply Hs|]. apply tri_order. intros ks. apply tri_for; [done|done|]. intros a x w' h' Hi' Hw Hd HR'.
    apply tri_again; [by eapply known_mono|by apply Hb].
  - cbn [pset_of pbind]. apply tri_order. intros ks. apply tri_for; [done|done|]. intros. by apply Hb.
Qed.
Lemma tri_range_in {A} w h f id (body : A → K → prog A) acc :
  edge_fld f → inv w h →
  (∀ a x w' h', inv w' h' → w ⊆ w' → dom h ⊆ dom h' → tri w' h' (body a x) any) → tri w h (prange_in f id body acc) any.
Proof.
  intros Hf Hi Hb. eapply tri_bind; [by apply tri_edge|]. intros s w1 h1 Hi1 Hw1 Hd1 Hs. apply tri_range; [done|done|done|].
  intros a x w2 h2 Hi2 Hw2 Hd2 _. apply Hb; [done|by etrans|by etrans].
Qed.
Lemma tri_range_verts {A} w h l (body : A → K → prog A) acc :
  inv w h → l ∈ dom h →
  (∀ a x w' h', inv w' h' → w ⊆ w' → dom h ⊆ dom h' → tri w' h' (body a x) any) → tri w h (prange_verts l body acc) any.
Proof.
  intros Hi Hl Hb. apply tri_read; [done|]. cbn [pbind]. apply tri_order. intros ks. apply tri_for; [done|done|]. intros a x w' h' Hi' Hw Hd _.
  apply tri_again; [|by apply Hb]. intros ? [= <-]. by apply Hd.
Qed.
Lemma tri_range_vertices {A} w h (body : A → K → prog A) acc :
  inv w h →
  (∀ a x w' h', inv w' h' → w ⊆ w' → dom h ⊆ dom h' → tri w' h' (body a x) any) → tri w h (prange_vertices body acc) any.
Proof. intros Hi Hb. apply tri_self, tri_range_verts; [done| |done]. by destruct (base_dom w h _ Hi (cl_v HB)). Qed.
Lemma tri_range_sets {A} w h f (body : A → K → prog A) acc :
  edge_fld f → inv w h →
  (∀ a x w' h', inv w' h' → w ⊆ w' → dom h ⊆ dom h' → tri w' h' (body a x) any) → tri w h (prange_sets f body acc) any.
Proof.
  intros Hf Hi Hb. assert (is_Some (B !! f g)) as Hs by (destruct Hf as [-> | ->]; apply HB). destruct (base_dom w h _ Hi Hs) as [Hl _].
  apply tri_self. apply tri_read; [done|]. apply tri_order. intros ks. apply tri_for; [done|done|]. intros a x w' h' Hi' Hw Hd _.
  apply tri_again; [|by apply Hb]. intros ? [= <-]. by apply Hd.
Qed.
(** Calls *)
Lemma tri_weak {A} w h (p : prog A) (R R' : A → gset loc → heap → Prop) : tri w h p R → (∀ a w h, R a w h → R' a w h) → tri w h p R'.
Proof. intros Hp HR. eapply wp_mono; [exact Hp|]. intros a w' h' (? & ? & ? & ?). auto. Qed.
(** The vertices, and the caches that have all of them *)
Definition vertex (k : K) : Prop := is_Some (as_verts (B !! rvertices g) !! k).
Record warm (f : gref → loc) : Prop := {
  wm_some : is_Some (B !! f g);
  wm_sets k l : as_sets (B !! f g) !! k = Some l → is_Some (B !! l);
  wm_all k : vertex k → is_Some (as_sets (B !! f g) !! k)
}.
Definition checked (id : K) (e : option err) (w : gset loc) h : Prop := e = None → vertex id.
Lemma tri_check w h id : inv w h → tri w h (pcheckVertexID isz id) (checked id).
Proof.
  intros Hi. unfold pcheckVertexID. destruct (isz id); [by apply tri_ret|]. destruct (base_dom w h _ Hi (cl_v HB)) as [Hd E].
  apply tri_self. cbn [pverts_at pbind]. apply tri_read; [done|]. apply tri_ret; [done|]. rewrite E. unfold checked, vertex. by destruct (as_verts _ !! id).
Qed.
Lemma tri_check_edge w h s t : inv w h → tri w h (pcheckEdgeIDs isz s t) any.
Proof.
  intros Hi. unfold pcheckEdgeIDs. destruct (isz s), (isz t); try by apply tri_ret. destruct (decide (s = t)); [by apply tri_ret|].
  eapply tri_bind; [by apply tri_payload|]. intros [] ? ? ? ? ? ?; [|by apply tri_ret]. eapply tri_bind; [by apply tri_payload|]. intros. by apply tri_ret.
Qed.
Lemma tri_GetVertex w h id : inv w h → tri w h (pGetVertex isz id) any.
Proof.
  intros Hi. eapply tri_bind; [by apply tri_check|]. intros [] ? ? ? ? ? ?; [by apply tri_ret|]. eapply tri_bind; [by apply tri_payload|]. intros. by apply tri_ret.
Qed.
Lemma tri_warm f f' fuel : warm f' → ∀ id w h, inv w h → tri w h (pgetIDs isz f f' fuel id) (λ r w' h', known h' r.1).
Proof.
  intros Hf id w h Hi. destruct fuel as [|fuel]; [done|]. cbn [pgetIDs]. eapply tri_bind; [by apply tri_check|].
  intros [e|] w1 h1 Hi1 Hw1 Hd1 Hv; [apply tri_ret; [done|apply known_none]|]. specialize (Hv eq_refl).
  destruct (base_dom w1 h1 _ Hi1 (wm_some _ Hf)) as [Hd E]. destruct (wm_all _ Hf id Hv) as [l Hl]. apply tri_self. cbn [pbind]. apply tri_read; [done|].
  cbn [pbind]. rewrite E, Hl. apply tri_ret; [done|]. intros ? [= <-]. by destruct (base_dom w1 h1 l Hi1 (wm_sets _ Hf _ _ Hl)).
Qed.
Lemma tri_getIDs f f' fuel : edge_fld f → cache_fld f' ∨ warm f' → ∀ id w h, inv w h → tri w h (pgetIDs isz f f' fuel id) (λ r w' h', known h' r.1).
Proof.
  intros Hf Hf'. destruct Hf' as [Hf'|Hf']; [|by apply tri_warm]. induction fuel as [|fuel IH]; intros id w h Hi; [done|]. cbn [pgetIDs]. eapply tri_bind; [by apply tri_check|].
  intros [] w1 h1 Hi1 Hw1 Hd1 _; [apply tri_ret; [done|apply known_none]|]. eapply tri_bind; [by apply tri_cache|].
  intros [l|] w2 h2 Hi2 Hw2 Hd2 Hk2; [by apply tri_ret|]. eapply tri_bind; [by apply tri_new|]. intros l w3 h3 Hi3 Hw3 Hd3 Hl. cbn beta in Hl.
  eapply tri_bind; [by apply tri_edge|]. intros s w4 h4 Hi4 Hw4 Hd4 Hk4. cbn beta in Hk4.
  eapply (tri_bind _ _ _ _ any).
  { destruct s as [s|]; [|by apply tri_ret]. apply tri_range; [done|done|done|]. intros [] x w5 h5 Hi5 Hw5 Hd5 _.
    eapply tri_bind; [by apply IH|]. intros r w6 h6 Hi6 Hw6 Hd6 Hk6. cbn beta in Hk6. eapply (tri_bind _ _ _ _ any).
    - apply tri_rangev; [done|done|done|]. intros [] y w7 h7 Hi7 Hw7 Hd7 _. apply tri_add; [done|]. eapply own_mono; [exact Hl|]. set_solver.
    - intros [] w7 h7 Hi7 Hw7 Hd7 _. apply tri_add; [done|]. eapply own_mono; [exact Hl|]. set_solver. }
  intros [] w5 h5 Hi5 Hw5 Hd5 _. eapply tri_bind; [apply tri_store; [done|done|]; eapply own_mono; [exact Hl|]; set_solver|].
  intros [] w6 h6 Hi6 Hw6 Hd6 _. apply tri_ret; [done|]. intros l' [= <-]. eapply own_dom; [done|]. eapply own_mono; [exact Hl|]. set_solver.
Qed.
Lemma tri_IsEdge w h s t : inv w h → tri w h (pIsEdge isz s t) any.
Proof.
  intros Hi. eapply tri_bind; [by apply tri_check_edge|]. intros [] w1 h1 Hi1 Hw1 Hd1 _; [by apply tri_ret|]. eapply tri_bind; [apply tri_edge; [by right|done]|].
  intros [l|] w2 h2 Hi2 Hw2 Hd2 Hk; [|by apply tri_ret]. eapply tri_bind; [by apply tri_includes|]. intros [] ? ? ? ? ? ?; by apply tri_ret.
Qed.
Lemma tri_GetOrder w h : inv w h → tri w h pGetOrder any.
Proof. intros Hi. destruct (base_dom w h _ Hi (cl_v HB)) as [Hd _]. apply tri_self. cbn [pverts_at pbind]. apply tri_read; [done|]. by apply tri_ret. Qed.
Lemma tri_GetSize w h : inv w h → tri w h pGetSize any.
Proof.
  intros Hi. apply tri_range_sets; [by right|done|]. intros a x w1 h1 Hi1 Hw1 Hd1. eapply tri_bind; [apply tri_edge; [by right|done]|].
  intros s w2 h2 Hi2 Hw2 Hd2 Hk. eapply tri_bind; [by apply tri_set_of|]. intros. by apply tri_ret.
Qed.
Lemma tri_copy w h l k : inv w h → own w l → tri w h (pcopy_vertex l k) any.
Proof.
  intros Hi Hl. eapply tri_bind; [apply tri_verts_at; [done|by eapply own_dom]|]. intros a w1 h1 Hi1 Hw1 Hd1 _. eapply tri_bind; [by apply tri_payload|].
  intros b w2 h2 Hi2 Hw2 Hd2 _. apply tri_put; [done|]. eapply own_mono; [exact Hl|]. set_solver.
Qed.
Definition got (r : err + loc) (w : gset loc) h : Prop := ∀ l, r = inr l → l ∈ dom h.
Lemma got_inr l w h : l ∈ dom h → got (inr l) w h.
Proof. by intros Hl ? [= <-]. Qed.
Lemma got_inl e w h : got (inl e) w h.
Proof. by intros ?. Qed.
Lemma tri_GetLeaves w h : inv w h → tri w h pGetLeaves (λ l w' h', l ∈ dom h').
Proof.
  intros Hi. eapply tri_bind; [by apply tri_new|]. intros l w1 h1 Hi1 Hw1 Hd1 Hl. cbn beta in Hl. eapply (tri_bind _ _ _ _ any); [|intros [] w9 h9 Hi9 Hw9 Hd9 _; apply tri_ret; [done|eapply own_dom; [done|]; by eapply own_mono]].
  apply tri_range_vertices; [done|]. intros [] x w2 h2 Hi2 Hw2 Hd2. assert (own w2 l) as Hl2 by (eapply own_mono; [exact Hl|set_solver]).
  eapply tri_bind; [apply tri_edge; [by right|done]|]. intros [s|] w3 h3 Hi3 Hw3 Hd3 Hs; cbn beta in Hs; [|apply tri_copy; [done|by eapply own_mono]].
  eapply tri_bind; [by apply tri_set_of|]. intros st w4 h4 Hi4 Hw4 Hd4 _. destruct (decide _); [|by apply tri_ret]. apply tri_copy; [done|]. eapply own_mono; [exact Hl2|]. set_solver.
Qed.
Lemma tri_GetRoots w h : inv w h → tri w h pGetRoots (λ l w' h', l ∈ dom h').
Proof.
  intros Hi. eapply tri_bind; [by apply tri_new|]. intros l w1 h1 Hi1 Hw1 Hd1 Hl. cbn beta in Hl. eapply (tri_bind _ _ _ _ any); [|intros [] w9 h9 Hi9 Hw9 Hd9 _; apply tri_ret; [done|eapply own_dom; [done|]; by eapply own_mono]].
  apply tri_range_vertices; [done|]. intros [] x w2 h2 Hi2 Hw2 Hd2. assert (own w2 l) as Hl2 by (eapply own_mono; [exact Hl|set_solver]).
  eapply tri_bind; [apply tri_edge; [by left|done]|]. intros [s|] w3 h3 Hi3 Hw3 Hd3 Hs; cbn beta in Hs; [|apply tri_copy; [done|by eapply own_mono]].
  eapply tri_bind; [by apply tri_set_of|]. intros st w4 h4 Hi4 Hw4 Hd4 _. destruct (decide _); [|by apply tri_ret]. apply tri_copy; [done|]. eapply own_mono; [exact Hl2|]. set_solver.
Qed.
Lemma tri_GetVertices w h : inv w h → tri w h pGetVertices (λ l w' h', l ∈ dom h').
Proof.
  intros Hi. eapply tri_bind; [by apply tri_new|]. intros l w1 h1 Hi1 Hw1 Hd1 Hl. cbn beta in Hl. eapply (tri_bind _ _ _ _ any); [|intros [] w9 h9 Hi9 Hw9 Hd9 _; apply tri_ret; [done|eapply own_dom; [done|]; by eapply own_mono]].
  apply tri_range_vertices; [done|]. intros [] x w2 h2 Hi2 Hw2 Hd2. apply tri_copy; [done|by eapply own_mono].
Qed.
Lemma tri_neighbours w h f id : edge_fld f → inv w h → tri w h (pneighbours isz f id) got.
Proof.
  intros Hf Hi. eapply tri_bind; [by apply tri_check|]. intros [] w0 h0 Hi0 Hw0 Hd0 _; [apply tri_ret; [done|apply got_inl]|].
  eapply tri_bind; [by apply tri_new|]. intros l w1 h1 Hi1 Hw1 Hd1 Hl. cbn beta in Hl. eapply (tri_bind _ _ _ _ any); [|intros [] w9 h9 Hi9 Hw9 Hd9 _; apply tri_ret; [done|apply got_inr; eapply own_dom; [done|]; by eapply own_mono]].
  apply tri_range_in; [done|done|]. intros [] x w2 h2 Hi2 Hw2 Hd2. apply tri_copy; [done|by eapply own_mono].
Qed.
Lemma tri_load w h s : inv w h → known h s → tri w h (ploadFromCache s) (λ l w' h', l ∈ dom h').
Proof.
  intros Hi Hs. eapply tri_bind; [by apply tri_new|]. intros l w1 h1 Hi1 Hw1 Hd1 Hl. cbn beta in Hl. eapply (tri_bind _ _ _ _ any); [|intros [] w9 h9 Hi9 Hw9 Hd9 _; apply tri_ret; [done|eapply own_dom; [done|]; by eapply own_mono]].
  apply (tri_range _ _ _ _ any); [done|by eapply known_mono|done|]. intros [] x w2 h2 Hi2 Hw2 Hd2 _. apply tri_copy; [done|by eapply own_mono].
Qed.
Lemma tri_fuel {A} w h (k : nat → prog A) R : (∀ n, tri w h (k n) R) → tri w h (Fuel k) R.
Proof. done. Qed.
Lemma tri_GetAncestors w h id : ca = true ∨ warm ranc → inv w h → tri w h (pGetAncestors isz id) got.
Proof.
  intros Hc Hi. eapply tri_bind; [apply tri_fuel; intros n; apply tri_getIDs; [by left|destruct Hc; [left; by left|by right]|done]|]. intros r w1 h1 Hi1 Hw1 Hd1 Hr. destruct r.2; [apply tri_ret; [done|apply got_inl]|].
  eapply tri_bind; [by apply tri_load|]. intros l w2 h2 Hi2 Hw2 Hd2 Hl. apply tri_ret; [done|by apply got_inr].
Qed.
Lemma tri_GetDescendants w h id : cd = true ∨ warm rdesc → inv w h → tri w h (pGetDescendants isz id) got.
Proof.
  intros Hc Hi. eapply tri_bind; [apply tri_fuel; intros n; apply tri_getIDs; [by right|destruct Hc; [left; by right|by right]|done]|]. intros r w1 h1 Hi1 Hw1 Hd1 Hr. destruct r.2; [apply tri_ret; [done|apply got_inl]|].
  eapply tri_bind; [by apply tri_load|]. intros l w2 h2 Hi2 Hw2 Hd2 Hl. apply tri_ret; [done|by apply got_inr].
Qed.
Lemma tri_walkLoop f v fuel : edge_fld f → ∀ fifo sent w h, inv w h → own w v → tri w h (pwalkLoop f fuel fifo v sent) any.
Proof.
  intros Hf. induction fuel as [|fuel IH]; intros fifo sent w h Hi Hv; [done|]. cbn [pwalkLoop]. destruct fifo as [|top fifo]; [by apply tri_ret|].
  eapply tri_bind; [|intros fifo' w1 h1 Hi1 Hw1 Hd1 _; apply IH; [done|by eapply own_mono]].
  apply tri_range_in; [done|done|]. intros a x w1 h1 Hi1 Hw1 Hd1. assert (own w1 v) as Hv1 by (by eapply own_mono).
  eapply tri_bind; [apply tri_includes; [done|intros ? [= <-]; by eapply own_dom]|]. intros [] w2 h2 Hi2 Hw2 Hd2 _; [by apply tri_ret|].
  eapply tri_bind; [apply tri_add; [done|by eapply own_mono]|]. intros. by apply tri_ret.
Qed.
Lemma tri_walk w h f id : edge_fld f → inv w h → tri w h (pwalk f id) any.
Proof.
  intros Hf Hi. eapply tri_bind; [by apply tri_new|]. intros l w1 h1 Hi1 Hw1 Hd1 Hl. cbn beta in Hl. eapply tri_bind; [|intros fifo w2 h2 Hi2 Hw2 Hd2 _; apply tri_fuel; intros n; apply tri_walkLoop; [done|done|by eapply own_mono]].
  apply tri_range_in; [done|done|]. intros a x w2 h2 Hi2 Hw2 Hd2. eapply tri_bind; [apply tri_add; [done|by eapply own_mono]|]. intros. by apply tri_ret.
Qed.
Lemma tri_ordered w h f id : edge_fld f → inv w h → tri w h (pordered isz f id) got.
Proof.
  intros Hf Hi. eapply tri_bind; [by apply tri_check|]. intros [] w0 h0 Hi0 Hw0 Hd0 _; [apply tri_ret; [done|apply got_inl]|].
  eapply tri_bind; [by apply tri_walk|].
  intros ids w1 h1 Hi1 Hw1 Hd1 _. eapply tri_bind; [by apply tri_new|]. intros l w2 h2 Hi2 Hw2 Hd2 Hl. cbn beta in Hl. apply tri_ret; [done|]. apply got_inr. by eapply own_dom.
Qed.
Lemma tri_String w h show : inv w h → tri w h (pString show) any.
Proof.
  intros Hi. eapply tri_bind; [by apply tri_GetOrder|]. intros order w1 h1 Hi1 Hw1 Hd1 _. eapply tri_bind; [by apply tri_GetSize|]. intros size_ w2 h2 Hi2 Hw2 Hd2 _.
  cbn zeta. eapply tri_bind; [apply tri_range_vertices; [done|]; intros; by apply tri_ret|]. intros sb w3 h3 Hi3 Hw3 Hd3 _.
  apply tri_range_sets; [by right|done|]. intros a x w4 h4 Hi4 Hw4 Hd4. apply tri_range_in; [by right|done|]. intros. by apply tri_ret.
Qed.
Definition held (r : hout K T) (w : gset loc) h : Prop := ∀ l, l ∈ refs r → l ∈ dom h.
Lemma held_nil r w h : refs r = [] → held r w h.
Proof. intros E l. rewrite E. by intros ?%elem_of_nil. Qed.
Lemma held_one r l w h : refs r = [l] → l ∈ dom h → held r w h.
Proof. intros E Hl l'. rewrite E. by intros ->%elem_of_list_singleton. Qed.
Lemma tri_map {A A'} (f : A → A') w h p (R : A → gset loc → heap → Prop) (R' : A' → gset loc → heap → Prop) :
  tri w h p R → (∀ a w' h', R a w' h' → R' (f a) w' h') → tri w h (pmap f p) R'.
Proof. intros Hp HR. eapply tri_bind; [exact Hp|]. intros. apply tri_ret; [done|by apply HR]. Qed.
Lemma got_map r w h : got r w h → held (HMapErr r) w h.
Proof. destruct r as [e|l]; intros Hr; [by apply held_nil|]. by apply (held_one _ l), Hr. Qed.
Lemma got_list r w h : got r w h → held (HList r) w h.
Proof. destruct r as [e|l]; intros Hr; [by apply held_nil|]. by apply (held_one _ l), Hr. Qed.
Lemma tri_call w h o : query o = true → (asks_ancestors o = true → ca = true ∨ warm ranc) → (asks_descendants o = true → cd = true ∨ warm rdesc) → inv w h → tri w h (pcall isz o) held.
Proof.
  intros Hq Hca Hcd Hi. destruct o; cbn [query asks_ancestors asks_descendants pcall] in *; try done.
  - eapply tri_map; [by apply tri_GetVertex|]. intros. by apply held_nil.
  - eapply tri_map; [by apply tri_IsEdge|]. intros. by apply held_nil.
  - eapply tri_map; [by apply tri_GetOrder|]. intros. by apply held_nil.
  - eapply tri_map; [by apply tri_GetSize|]. intros. by apply held_nil.
  - eapply tri_map; [by apply tri_GetLeaves|]. intros. by eapply held_one.
  - eapply tri_map; [by apply tri_GetRoots|]. intros. by eapply held_one.
  - eapply tri_map; [by apply tri_GetVertices|]. intros. by eapply held_one.
  - eapply tri_map; [apply tri_neighbours; [by left|done]|]. intros. by apply got_map.
  - eapply tri_map; [apply tri_neighbours; [by right|done]|]. intros. by apply got_map.
  - eapply tri_map; [by apply tri_GetAncestors; [apply Hca|]|]. intros. by apply got_map.
  - eapply tri_map; [apply tri_ordered; [by left|done]|]. intros. by apply got_list.
  - eapply tri_map; [by apply tri_GetDescendants; [apply Hcd|]|]. intros. by apply got_map.
  - eapply tri_map; [apply tri_ordered; [by right|done]|]. intros. by apply got_list.
  - eapply tri_map; [by apply tri_String|]. intros. by apply held_nil.
Qed.
Lemma tri_pread w h r : inv w h → held r w h → tri w h (pread r) any.
Proof.
  intros Hi Hr. destruct r as [| | | |l|[?|l]|[?|l]| |]; try by apply tri_ret.
  all: apply tri_read; [apply Hr; cbn [refs]; by apply elem_of_list_singleton|by apply tri_ret].
Qed.
Lemma tri_goroutine os : ∀ w h, Forall (λ o, query o = true) os →
  ((∃ o, o ∈ os ∧ asks_ancestors o = true) → ca = true ∨ warm ranc) → ((∃ o, o ∈ os ∧ asks_descendants o = true) → cd = true ∨ warm rdesc) →
  inv w h → tri w h (goroutine isz os) any.
Proof.
  induction os as [|o os IH]; intros w h Hq Hca Hcd Hi; [by apply tri_ret|]. cbn [goroutine]. apply Forall_cons in Hq as [Hq1 Hq2].
  eapply tri_bind.
  { apply tri_call; [done| | |done]; intros E; [apply Hca|apply Hcd]; exists o; (split; [apply elem_of_list_here|done]). }
  intros r w1 h1 Hi1 _ _ Hr. eapply tri_bind; [by apply tri_pread|]. intros x w2 h2 Hi2 _ _ _.
  eapply tri_bind; [|intros; by apply tri_ret]. apply IH; [done| | |done].
  - intros (o' & Ho & E). apply Hca. exists o'. split; [by apply elem_of_list_further|done].
  - intros (o' & Ho & E). apply Hcd. exists o'. split; [by apply elem_of_list_further|done].
Qed.
Lemma tri_task t w h : queries t →
  ((∃ o, o ∈ task_calls t ∧ asks_ancestors o = true) → ca = true ∨ warm ranc) → ((∃ o, o ∈ task_calls t ∧ asks_descendants o = true) → cd = true ∨ warm rdesc) →
  inv w h → tri w h (task_prog isz t) any.
Proof.
  intros Hq Hca Hcd Hi. destruct t as [os|up id]; cbn [task_prog task_calls] in *.
  - apply tri_goroutine; [|done..]. by apply Forall_forall.
  - eapply tri_map; [|done]. apply tri_walk; [|done]. destruct up; [by left|by right].
Qed.
End queries.
End race.
