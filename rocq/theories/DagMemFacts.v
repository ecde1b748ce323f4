(** * Separation in the memory of [DagMem], and rules for its statements *)
From stdpp Require Import base list gmap fin_map_dom.
From Verif Require Import GoBase SetModel DagModel DagWp DagMem.

(** The four fields that hold sets. *)
Inductive fld : Type := FI | FO | FA | FD.
Definition outer (r : gref) (f : fld) : loc :=
  match f with FI => rinbound r | FO => routbound r | FA => ranc r | FD => rdesc r end.

Global Instance fld_eq : EqDecision fld.
Proof. solve_decision. Defined.

Section facts.
Context {K T : Type} `{Countable K} `{Inhabited T} `{A0 : Alloc}.
Notation mem := (mem K T).
Notation graph := (graph K T).
Implicit Types (m : mem) (g : graph) (f : fld) (k : K) (l : loc).

Definition pget f g : gmap K (goset K) :=
  match f with
  | FI => inboundEdges g | FO => outboundEdges g
  | FA => ancestorsCache g | FD => descendantsCache g
  end.
Definition pset f : (gmap K (goset K) → gmap K (goset K)) → graph → graph :=
  match f with FI => set_inbound | FO => set_outbound | FA => set_anc | FD => set_desc end.

(** The reference to the set that field [f] has for [k]. *)
Definition inner m f k : setvar := sets_at m (outer (this m) f) !! k.
Definition deep m f : gmap K (goset K) := set_at m <$> sets_at m (outer (this m) f).
(** The graph as a value. *)
Definition view m : graph :=
  Graph (verts_at m (rvertices (this m))) (deep m FI) (deep m FO) (deep m FA) (deep m FD).

(** The maps of the graph exist and no two of them are the same. *)
Record sep m : Prop := {
  sep_v : ∃ s, cells m !! rvertices (this m) = Some (CVerts s);
  sep_o f : ∃ s, cells m !! outer (this m) f = Some (CSets s);
  sep_d f f' : outer (this m) f = outer (this m) f' → f = f';
  sep_i f k l : inner m f k = Some l → ∃ s, cells m !! l = Some (CSet s);
  sep_j f k f' k' l : inner m f k = Some l → inner m f' k' = Some l → f = f' ∧ k = k'
}.

(** Cells that calls may change. *)
Definition mut m l : Prop :=
  l = rvertices (this m) ∨ (∃ f, l = outer (this m) f) ∨
  (∃ k, inner m FI k = Some l) ∨ (∃ k, inner m FO k = Some l).
(** Cells of the graph. *)
Definition owned m l : Prop :=
  l = rvertices (this m) ∨ (∃ f, l = outer (this m) f) ∨ (∃ f k, inner m f k = Some l).

(** From [m] to [m'] only cells of the graph that may change have changed, and the graph
    has not got hold of other cells that were there. *)
Record frame m m' : Prop := {
  fr_dom l : is_Some (cells m !! l) → is_Some (cells m' !! l);
  fr_same l : is_Some (cells m !! l) → ¬ mut m l → cells m' !! l = cells m !! l;
  fr_mut l : is_Some (cells m !! l) → ¬ mut m l → ¬ mut m' l;
  fr_owned l : is_Some (cells m !! l) → ¬ owned m l → ¬ owned m' l
}.

Lemma mut_owned m l : mut m l → owned m l.
Proof. unfold mut, owned. naive_solver. Qed.

Lemma frame_refl m : frame m m.
Proof. by split. Qed.
Lemma frame_trans m1 m2 m3 : frame m1 m2 → frame m2 m3 → frame m1 m3.
Proof.
  intros [D1 S1 M1 O1] [D2 S2 M2 O2]. split; intros l Hl.
  - auto.
  - intros Hm. rewrite S2; auto.
  - intros Hm. apply M2; auto.
  - intros Ho. apply O2; auto.
Qed.

Lemma lookup_put m l c l' :
  cells (put m l c) !! l' = if decide (l = l') then Some c else cells m !! l'.
Proof.
  unfold put. simpl. destruct (decide (l = l')) as [->|]; [apply lookup_insert|].
  by apply lookup_insert_ne.
Qed.
Lemma lookup_put_eq m l c : cells (put m l c) !! l = Some c.
Proof. rewrite lookup_put. by rewrite decide_True. Qed.
Lemma lookup_put_ne m l c l' : l ≠ l' → cells (put m l c) !! l' = cells m !! l'.
Proof. intros. rewrite lookup_put. by rewrite decide_False. Qed.
Lemma put_put m l c c' : put (put m l c) l c' = put m l c'.
Proof. unfold put. simpl. by rewrite insert_insert. Qed.
Lemma put_id m l c : cells m !! l = Some c → put m l c = m.
Proof. intros Hl. unfold put. destruct m as [h r]. simpl in *. by rewrite insert_id. Qed.

Lemma at_put_ne m l c l' : l ≠ l' →
  verts_at (put m l c) l' = verts_at m l' ∧ sets_at (put m l c) l' = sets_at m l' ∧
  set_at (put m l c) l' = set_at m l'.
Proof. intros. unfold verts_at, sets_at, set_at. by rewrite lookup_put_ne. Qed.

Lemma inner_look m f k l : inner m f k = Some l → ∃ s, cells m !! outer (this m) f = Some (CSets s) ∧ s !! k = Some l.
Proof.
  unfold inner, sets_at. intros E.
  destruct (cells m !! outer (this m) f) as [[]|]; try by rewrite lookup_empty in E.
  eauto.
Qed.

Lemma deep_lookup m f k : deep m f !! k = set_at m <$> inner m f k.
Proof. unfold deep. apply lookup_fmap. Qed.
Lemma pget_view m f : pget f (view m) = deep m f.
Proof. by destruct f. Qed.
Lemma read_deep m f k : read (deep m f) k = set_of m (inner m f k).
Proof. unfold read. rewrite deep_lookup. by destruct (inner m f k). Qed.
Lemma pset_ext m m' f F :
  verts_at m' (rvertices (this m')) = verts_at m (rvertices (this m)) →
  deep m' f = F (deep m f) → (∀ f', f' ≠ f → deep m' f' = deep m f') →
  view m' = pset f F (view m).
Proof.
  intros Hv Hf Ho. unfold view. rewrite Hv.
  destruct f; simpl; rewrite Hf, !Ho by done; done.
Qed.

(** Writing to a cell that does not belong to the graph. *)
Lemma inner_put_free m l c f k : ¬ owned m l → inner (put m l c) f k = inner m f k.
Proof.
  intros Ho. unfold inner. simpl.
  destruct (at_put_ne m l c (outer (this m) f)) as (_&->&_); [|done].
  intros ->. apply Ho. right. left. eauto.
Qed.
Lemma owned_put_free m l c x : ¬ owned m l → owned (put m l c) x ↔ owned m x.
Proof.
  intros Ho. pose proof (λ f k, inner_put_free m l c f k Ho) as Hi.
  unfold owned. setoid_rewrite Hi. done.
Qed.
Lemma mut_put_free m l c x : ¬ owned m l → mut (put m l c) x ↔ mut m x.
Proof.
  intros Ho. pose proof (λ f k, inner_put_free m l c f k Ho) as Hi.
  unfold mut. setoid_rewrite Hi. done.
Qed.
Lemma sep_put_free m l c : sep m → ¬ owned m l → sep (put m l c).
Proof.
  intros [V O D I J] Ho. split.
  - destruct V as [s Hs]. exists s. rewrite lookup_put_ne; [done|].
    intros E. apply Ho. by left.
  - intros f. destruct (O f) as [s Hs]. exists s. rewrite lookup_put_ne; [done|].
    intros E. apply Ho. right. left. by exists f.
  - done.
  - intros f k x. rewrite inner_put_free by done. intros Hx. destruct (I _ _ _ Hx) as [s Hs].
    exists s. rewrite lookup_put_ne; [done|].
    intros ->. apply Ho. right. right. eauto.
  - intros f k f' k' x. rewrite !inner_put_free by done. apply J.
Qed.
Lemma deep_put_free m l c f : ¬ owned m l → deep (put m l c) f = deep m f.
Proof.
  intros Ho. apply map_eq. intros k. rewrite !deep_lookup, inner_put_free by done.
  destruct (inner m f k) as [x|] eqn:E; [|done]. simpl. f_equal.
  apply at_put_ne. intros ->. apply Ho. right. right. eauto.
Qed.
Lemma view_put_free m l c : ¬ owned m l → view (put m l c) = view m.
Proof.
  intros Ho. unfold view. rewrite !deep_put_free by done. f_equal. simpl.
  apply at_put_ne. intros ->. apply Ho. by left.
Qed.
Lemma frame_put_free m0 m l c :
  frame m0 m → ¬ owned m l → cells m0 !! l = None → frame m0 (put m l c).
Proof.
  intros [FD FS FM FO'] Ho Hl. split; intros x Hx.
  - rewrite lookup_put. destruct (decide (l = x)); [by eexists|auto].
  - intros Hm. rewrite lookup_put_ne; [auto|]. intros ->. rewrite Hl in Hx. by destruct Hx.
  - intros Hm. rewrite mut_put_free by done. auto.
  - intros Hm. rewrite owned_put_free by done. auto.
Qed.

(** A cell that is not there does not belong to the graph. *)
Lemma owned_there m l : sep m → owned m l → is_Some (cells m !! l).
Proof.
  intros [V O D I J] [->|[[f ->]|(f&k&E)]].
  - destruct V as [s ->]. by eexists.
  - destruct (O f) as [s ->]. by eexists.
  - destruct (I _ _ _ E) as [s ->]. by eexists.
Qed.
Lemma fresh_not_owned m l : sep m → cells m !! l = None → ¬ owned m l.
Proof. intros Hs Hl Ho. destruct (owned_there m l Hs Ho) as [? E]. by rewrite Hl in E. Qed.
Lemma frame_owned m0 m l : frame m0 m → is_Some (cells m0 !! l) → ¬ owned m0 l → ¬ owned m l.
Proof. intros F. apply (fr_owned _ _ F). Qed.

(** *** Writing to the cells of the graph *)

(** [vertices] *)
Lemma inner_put_v m c f k : sep m → inner (put m (rvertices (this m)) c) f k = inner m f k.
Proof.
  intros [V O D I J]. unfold inner. simpl.
  destruct (at_put_ne m (rvertices (this m)) c (outer (this m) f)) as (_&->&_); [|done].
  intros E. destruct V as [s Hs], (O f) as [s' Hs']. rewrite E, Hs' in Hs. done.
Qed.
Lemma put_v m vs :
  sep m →
  let m' := put m (rvertices (this m)) (CVerts vs) in
  sep m' ∧ view m' = set_vertices (λ _, vs) (view m) ∧ (∀ m0, frame m0 m → frame m0 m').
Proof.
  intros Hs m'. pose proof (λ f k, inner_put_v m (CVerts vs) f k Hs) as Hi. fold m' in Hi.
  assert (Hm : this m' = this m) by done.
  destruct (Hs) as [V O D I J].
  assert (Hne : ∀ l s, cells m !! l = Some (CSet s) → rvertices (this m) ≠ l).
  { intros l s E <-. destruct V as [s' Hs']. congruence. }
  assert (Hneo : ∀ f, rvertices (this m) ≠ outer (this m) f).
  { intros f E. destruct V as [s' Hs'], (O f) as [s'' Hs'']. congruence. }
  split; [|split].
  - split.
    + exists vs. rewrite Hm. apply lookup_put_eq.
    + intros f. destruct (O f) as [s E]. exists s. rewrite Hm. unfold m'.
      by rewrite lookup_put_ne.
    + done.
    + intros f k l. rewrite Hi. intros E. destruct (I _ _ _ E) as [s Es].
      exists s. unfold m'. rewrite lookup_put_ne; eauto.
    + intros f k f' k' l. rewrite !Hi. apply J.
  - assert (Hdp : ∀ f, deep m' f = deep m f).
    { intros f. apply map_eq. intros k. rewrite !deep_lookup, Hi.
      destruct (inner m f k) as [x|] eqn:E; [|done]. simpl. f_equal.
      apply at_put_ne. destruct (I _ _ _ E) as [s Es]. eauto. }
    unfold view, set_vertices. simpl. rewrite !Hdp. f_equal.
    unfold verts_at, m'. by rewrite lookup_put_eq.
  - intros m0 [FD FS FM FO']. split; intros l Hl.
    + unfold m'. rewrite lookup_put. destruct (decide _); [by eexists|auto].
    + intros Hml. unfold m'. rewrite lookup_put_ne; [auto|].
      intros <-. apply FM in Hml; [|done]. apply Hml. by left.
    + intros Hml Hml'. apply (FM l Hl Hml). unfold mut in *. rewrite Hm in Hml'.
      setoid_rewrite Hi in Hml'. done.
    + intros Hml Hml'. apply (FO' l Hl Hml). unfold owned in *. rewrite Hm in Hml'.
      setoid_rewrite Hi in Hml'. done.
Qed.

(** An outer map. *)
Lemma outer_not_set m f l s : sep m → cells m !! l = Some (CSet s) → outer (this m) f ≠ l.
Proof. intros Hs E <-. destruct (sep_o _ Hs f) as [s' E']. congruence. Qed.
Lemma inner_put_o m f ls f' k :
  sep m → inner (put m (outer (this m) f) (CSets ls)) f' k = if decide (f' = f) then ls !! k else inner m f' k.
Proof.
  intros Hs. unfold inner. simpl. unfold sets_at. rewrite lookup_put.
  destruct (decide (f' = f)) as [->|Hne].
  - by rewrite decide_True.
  - rewrite decide_False; [done|]. intros E. apply (sep_d _ Hs) in E. done.
Qed.

Lemma put_o m f ls :
  sep m →
  (∀ k l, ls !! k = Some l → ∃ s, cells m !! l = Some (CSet s)) →
  (∀ k k' l, ls !! k = Some l → ls !! k' = Some l → k = k') →
  (∀ k l f' k', ls !! k = Some l → inner m f' k' = Some l → f' = f) →
  let m' := put m (outer (this m) f) (CSets ls) in
  sep m' ∧ view m' = pset f (λ _, set_at m <$> ls) (view m) ∧
  (∀ m0, frame m0 m →
     (∀ k l, ls !! k = Some l → inner m f k = Some l ∨ cells m0 !! l = None) →
     frame m0 m').
Proof.
  intros Hs Hk Hj Hf m'. pose proof (λ f' k, inner_put_o m f ls f' k Hs) as Hi. fold m' in Hi.
  assert (Hm : this m' = this m) by done.
  assert (Hset : ∀ l s, cells m !! l = Some (CSet s) → cells m' !! l = Some (CSet s)).
  { intros l s E. unfold m'. rewrite lookup_put_ne; [done|]. by eapply outer_not_set. }
  assert (Hv : outer (this m) f ≠ rvertices (this m)).
  { intros E. destruct (sep_v _ Hs) as [s Es], (sep_o _ Hs f) as [s' Es']. congruence. }
  split; [|split].
  - split.
    + destruct (sep_v _ Hs) as [s Es]. exists s. rewrite Hm. unfold m'. by rewrite lookup_put_ne.
    + intros f'. rewrite Hm. unfold m'. rewrite lookup_put.
      destruct (decide _); [by eexists|]. apply (sep_o _ Hs).
    + apply (sep_d _ Hs).
    + intros f' k l. rewrite Hi. destruct (decide _) as [->|].
      * intros E. destruct (Hk _ _ E) as [s Es]. exists s. auto.
      * intros E. destruct (sep_i _ Hs _ _ _ E) as [s Es]. exists s. auto.
    + intros f1 k1 f2 k2 l. rewrite !Hi.
      destruct (decide (f1 = f)) as [->|], (decide (f2 = f)) as [->|]; intros E1 E2.
      * split; [done|]. by eapply Hj.
      * exfalso. by eapply Hf in E2; [|done].
      * exfalso. by eapply Hf in E1; [|done].
      * by eapply (sep_j _ Hs).
  - apply pset_ext.
    + rewrite Hm. unfold verts_at, m'. by rewrite lookup_put_ne.
    + unfold deep at 1. rewrite Hm. unfold sets_at at 1, m' at 2. rewrite lookup_put_eq.
      apply map_eq. intros k. rewrite !lookup_fmap. destruct (ls !! k) as [l|] eqn:E; [|done].
      simpl. f_equal. destruct (Hk _ _ E) as [s Es]. unfold set_at.
      by rewrite (Hset _ _ Es), Es.
    + intros f' Hne. apply map_eq. intros k. rewrite !deep_lookup, Hi, decide_False by done.
      destruct (inner m f' k) as [l|] eqn:E; [|done]. simpl. f_equal.
      destruct (sep_i _ Hs _ _ _ E) as [s Es]. unfold set_at. by rewrite (Hset _ _ Es), Es.
  - intros m0 Fr Hl0. destruct (Fr) as [FD' FS FM FO']. split; intros l Hl.
    + unfold m'. rewrite lookup_put. destruct (decide _); [by eexists|auto].
    + intros Hml. unfold m'. rewrite lookup_put_ne; [auto|].
      intros <-. apply FM in Hml; [|done]. apply Hml. right. left. by exists f.
    + intros Hml Hml'. apply (FM l Hl Hml). unfold mut in *. rewrite Hm in Hml'.
      setoid_rewrite Hi in Hml'.
      destruct Hml' as [?|[?|[[k E]|[k E]]]]; [by left|by right; left| |];
        destruct (decide _) as [<-|]; try (destruct (Hl0 _ _ E) as [?|E']; [|rewrite E' in Hl; by destruct Hl]);
        right; right; eauto.
    + intros Hml Hml'. apply (FO' l Hl Hml). unfold owned in *. rewrite Hm in Hml'.
      setoid_rewrite Hi in Hml'.
      destruct Hml' as [?|[?|(f'&k&E)]]; [by left|by right; left|].
      destruct (decide _) as [->|]; try (destruct (Hl0 _ _ E) as [?|E']; [|rewrite E' in Hl; by destruct Hl]);
        right; right; eauto.
Qed.

Lemma view_unset m f k :
  sep m →
  let m' := put m (outer (this m) f) (CSets (delete k (sets_at m (outer (this m) f)))) in
  sep m' ∧ view m' = pset f (delete k) (view m) ∧ (∀ m0, frame m0 m → frame m0 m').
Proof.
  intros Hs m'.
  assert (Hd : ∀ x l, delete k (sets_at m (outer (this m) f)) !! x = Some l → inner m f x = Some l).
  { intros x l E. apply lookup_delete_Some in E as [_ E]. done. }
  destruct (put_o m f (delete k (sets_at m (outer (this m) f)))) as (S1&V1&F1); try done.
  - intros x l E. by eapply (sep_i _ Hs), Hd.
  - intros x x' l E E'. by eapply (sep_j _ Hs); apply Hd.
  - intros x l f' k' E E'. apply Hd in E. by destruct (sep_j _ Hs _ _ _ _ _ E E').
  - fold m' in S1, V1, F1. split; [done|]. split.
    + rewrite V1. rewrite fmap_delete. by destruct f.
    + intros m0 F. apply F1; [done|]. intros x l E. left. by apply Hd.
Qed.

Lemma view_store m f k l s :
  sep m → cells m !! l = Some (CSet s) → ¬ owned m l →
  let m' := put m (outer (this m) f) (CSets (<[k := l]> (sets_at m (outer (this m) f)))) in
  sep m' ∧ view m' = pset f (<[k := s]>) (view m) ∧
  (∀ m0, frame m0 m → cells m0 !! l = None → frame m0 m').
Proof.
  intros Hs Hl Ho m'.
  assert (Hno : ∀ f' k', inner m f' k' ≠ Some l).
  { intros f' k' E. apply Ho. right. right. eauto. }
  assert (Hd : ∀ x y, <[k := l]> (sets_at m (outer (this m) f)) !! x = Some y →
    (x = k ∧ y = l) ∨ (x ≠ k ∧ inner m f x = Some y)).
  { intros x y E. apply lookup_insert_Some in E as [[-> ->]|[? ?]]; auto. }
  destruct (put_o m f (<[k := l]> (sets_at m (outer (this m) f)))) as (S1&V1&F1); try done.
  - intros x y [[-> ->]|[_ E]]%Hd; [by eexists|]. by eapply (sep_i _ Hs).
  - intros x x' y [[-> ->]|[_ E]]%Hd [[-> ?]|[_ E']]%Hd; subst; try done.
    + by apply Hno in E'.
    + by apply Hno in E.
    + by eapply (sep_j _ Hs).
  - intros x y f' k' [[-> ->]|[_ E]]%Hd E'; [by apply Hno in E'|].
    by destruct (sep_j _ Hs _ _ _ _ _ E E').
  - fold m' in S1, V1, F1. split; [done|]. split.
    + rewrite V1. rewrite fmap_insert. unfold set_at at 1. rewrite Hl. by destruct f.
    + intros m0 F E0. apply F1; [done|]. intros x y [[-> ->]|[_ E]]%Hd; auto.
Qed.

(** A set of edges. *)
Lemma view_inner m f k l s :
  sep m → inner m f k = Some l → f = FI ∨ f = FO →
  let m' := put m l (CSet s) in
  sep m' ∧ view m' = pset f (<[k := s]>) (view m) ∧ (∀ m0, frame m0 m → frame m0 m').
Proof.
  intros Hs Hl Hf m'.
  assert (Hm : this m' = this m) by done.
  destruct (sep_i _ Hs _ _ _ Hl) as [s0 Hs0].
  assert (Hov : rvertices (this m) ≠ l).
  { intros <-. destruct (sep_v _ Hs). congruence. }
  assert (Hi : ∀ f' k', inner m' f' k' = inner m f' k').
  { intros f' k'. unfold inner. rewrite Hm. f_equal. apply at_put_ne.
    apply not_eq_sym. by eapply outer_not_set. }
  assert (Hmut : mut m l). { right. right. destruct Hf as [->| ->]; eauto. }
  split; [|split].
  - split.
    + destruct (sep_v _ Hs) as [x E]. exists x. rewrite Hm. unfold m'. by rewrite lookup_put_ne.
    + intros f'. destruct (sep_o _ Hs f') as [x E]. exists x. rewrite Hm. unfold m'.
      rewrite lookup_put_ne; [done|]. apply not_eq_sym. by eapply outer_not_set.
    + apply (sep_d _ Hs).
    + intros f' k' x. rewrite Hi. intros E. unfold m'. rewrite lookup_put.
      destruct (decide _); [by eexists|]. by eapply (sep_i _ Hs).
    + intros f1 k1 f2 k2 x. rewrite !Hi. apply (sep_j _ Hs).
  - apply pset_ext.
    + rewrite Hm. by apply at_put_ne.
    + apply map_eq. intros k'. rewrite deep_lookup, Hi.
      destruct (decide (k = k')) as [<-|Hne].
      * rewrite lookup_insert, Hl. simpl. f_equal. unfold set_at, m'. by rewrite lookup_put_eq.
      * rewrite lookup_insert_ne, deep_lookup by done.
        destruct (inner m f k') as [x|] eqn:E; [|done]. simpl. f_equal.
        apply at_put_ne. intros <-. by destruct (sep_j _ Hs _ _ _ _ _ Hl E).
    + intros f' Hne. apply map_eq. intros k'. rewrite !deep_lookup, Hi.
      destruct (inner m f' k') as [x|] eqn:E; [|done]. simpl. f_equal.
      apply at_put_ne. intros <-. by destruct (sep_j _ Hs _ _ _ _ _ Hl E).
  - intros m0 [FD' FS FM FO']. split; intros x Hx.
    + unfold m'. rewrite lookup_put. destruct (decide _); [by eexists|auto].
    + intros Hmx. unfold m'. rewrite lookup_put_ne; [auto|].
      intros <-. by apply FM in Hmx.
    + intros Hmx. unfold mut. setoid_rewrite Hi. by apply FM.
    + intros Hmx. unfold owned. setoid_rewrite Hi. by apply FO'.
Qed.

(** Replacing a cache by a new map. *)
Definition with_anc m a : mem :=
  Mem (cells m) (GRef (rvertices (this m)) (rinbound (this m)) (routbound (this m)) a (rdesc (this m))).
Definition with_desc m d : mem :=
  Mem (cells m) (GRef (rvertices (this m)) (rinbound (this m)) (routbound (this m)) (ranc (this m)) d).
Lemma view_with m m' f a :
  (f = FA ∧ m' = with_anc m a) ∨ (f = FD ∧ m' = with_desc m a) →
  sep m → cells m !! a = Some (CSets ∅) → ¬ owned m a →
  sep m' ∧ view m' = pset f (λ _, ∅) (view m) ∧
  (∀ m0, frame m0 m → cells m0 !! a = None → frame m0 m').
Proof.
  intros Hm' Hs Ha Ho.
  assert (Hc : cells m' = cells m) by (destruct Hm' as [[_ ->]|[_ ->]]; done).
  assert (Hv : rvertices (this m') = rvertices (this m)) by (destruct Hm' as [[_ ->]|[_ ->]]; done).
  assert (Hout : ∀ f', outer (this m') f' = if decide (f' = f) then a else outer (this m) f').
  { destruct Hm' as [[-> ->]|[-> ->]]; by intros []. }
  assert (Hi : ∀ f' k, inner m' f' k = if decide (f' = f) then None else inner m f' k).
  { intros f' k. unfold inner. rewrite Hout. unfold sets_at. rewrite Hc.
    destruct (decide (f' = f)); [|done]. by rewrite Ha, lookup_empty. }
  assert (Hae : ∀ f', outer (this m) f' ≠ a).
  { intros f' <-. apply Ho. right. left. by exists f'. }
  split; [|split].
  - split.
    + rewrite Hc, Hv. apply (sep_v _ Hs).
    + intros f'. rewrite Hc, Hout. destruct (decide _); [by eexists|]. apply (sep_o _ Hs).
    + intros f1 f2. rewrite !Hout. destruct (decide (f1 = f)), (decide (f2 = f)); subst; try done.
      * intros E. by edestruct Hae.
      * intros E. by edestruct Hae.
      * apply (sep_d _ Hs).
    + intros f' k l. rewrite Hi, Hc. destruct (decide _); [done|]. apply (sep_i _ Hs).
    + intros f1 k1 f2 k2 l. rewrite !Hi.
      destruct (decide (f1 = f)), (decide (f2 = f)); try done. apply (sep_j _ Hs).
  - apply pset_ext.
    + unfold verts_at. by rewrite Hc, Hv.
    + apply map_eq. intros k. rewrite deep_lookup, Hi, decide_True by done. by rewrite lookup_empty.
    + intros f' Hne. apply map_eq. intros k. rewrite !deep_lookup, Hi, decide_False by done.
      unfold set_at. by rewrite Hc.
  - intros m0 [FD' FS FM FO'] Ha0. split; intros x Hx.
    + rewrite Hc. auto.
    + rewrite Hc. auto.
    + intros Hmx Hmx'. apply (FM x Hx Hmx). unfold mut in *. rewrite Hv in Hmx'.
      destruct Hmx' as [?|[[f' E]|[[k E]|[k E]]]]; [by left| | |].
      * right. left. exists f'. rewrite Hout in E. destruct (decide _); [|done].
        subst x. rewrite Ha0 in Hx. by destruct Hx.
      * rewrite Hi in E. destruct (decide _); [done|]. eauto.
      * rewrite Hi in E. destruct (decide _); [done|]. eauto.
    + intros Hmx Hmx'. apply (FO' x Hx Hmx). unfold owned in *. rewrite Hv in Hmx'.
      destruct Hmx' as [?|[[f' E]|(f'&k&E)]]; [by left| |].
      * right. left. exists f'. rewrite Hout in E. destruct (decide _); [|done].
        subst x. rewrite Ha0 in Hx. by destruct Hx.
      * rewrite Hi in E. destruct (decide _); [done|]. eauto.
Qed.

(** ** Rules *)

(** If the value-level statement [y] succeeds on what is in memory, so does [x], and what
    is in memory then is the result of [y]. *)
Definition rwp {A B} m n (x : HM A) (y : M (K:=K) (T:=T) B) (Q : A → B → mem → Prop) : Prop :=
  ∀ b g n', y (view m) n = Ok (b, g, n') →
    ∃ a m', x m n = Ok (a, m', n') ∧ sep m' ∧ view m' = g ∧ Q a b m'.

Lemma rwp_mono {A B} m n (x : HM A) (y : M B) (Q Q' : A → B → mem → Prop) :
  rwp m n x y Q → (∀ a b m', sep m' → Q a b m' → Q' a b m') → rwp m n x y Q'.
Proof.
  intros Hr HQ b g n' Hy. destruct (Hr _ _ _ Hy) as (a&m'&?&?&?&?). exists a, m'. auto.
Qed.
Lemma rwp_ret {A B} m n (a : A) (b : B) (Q : A → B → mem → Prop) :
  sep m → Q a b m → rwp m n (hret a) (ret b) Q.
Proof. intros Hs HQ b' g n' [= <- <- <-]. exists a, m. auto. Qed.
Lemma rwp_bind {A B A' B'} m n (x : HM A) (y : M B) (f : A → HM A') (f' : B → M B') Q :
  rwp m n x y (λ a b m1, ∀ n1, sep m1 → rwp m1 n1 (f a) (f' b) Q) →
  rwp m n (hbind x f) (bind y f') Q.
Proof.
  intros Hr b g n'. unfold bind. destruct (y (view m) n) as [[[b1 g1] n1]| |] eqn:E; [|done|done].
  destruct (Hr _ _ _ E) as (a&m1&Hx&Hs&<-&HQ). intros Hy.
  destruct (HQ n1 Hs _ _ _ Hy) as (a2&m2&Hx2&?&?&?).
  exists a2, m2. unfold hbind. rewrite Hx. auto.
Qed.
(** Statements of one side. *)
Lemma rwp_left {A B A'} m n m1 a (x : HM A) (f : A → HM A') (y : M B) Q :
  x m n = Ok (a, m1, n) → view m1 = view m → rwp m1 n (f a) y Q → rwp m n (hbind x f) y Q.
Proof.
  intros Hx Hv Hr b g n' Hy. rewrite <-Hv in Hy. destruct (Hr _ _ _ Hy) as (a2&m2&Hx2&?&?&?).
  exists a2, m2. unfold hbind. rewrite Hx. auto.
Qed.
Lemma rwp_look {A B A'} m n (e : mem → A) (f : A → HM A') (y : M B) Q :
  rwp m n (f (e m)) y Q → rwp m n (hbind (look e) f) y Q.
Proof. intros Hr. by eapply rwp_left. Qed.
Lemma rwp_get {A B} m n (x : HM A) (f' : graph → M B) Q :
  rwp m n x (f' (view m)) Q → rwp m n x (bind get f') Q.
Proof. done. Qed.
Lemma rwp_assoc {A B C D} m n (x : HM A) (f : A → HM B) (f2 : B → HM C) (y : M D) Q :
  rwp m n (hbind x (λ a, hbind (f a) f2)) y Q → rwp m n (hbind (hbind x f) f2) y Q.
Proof.
  intros Hr b g n' Hy. destruct (Hr _ _ _ Hy) as (a&m'&Hx&?). exists a, m'. split; [|done].
  unfold hbind in *. destruct (x m n) as [[[??]?]| |]; done.
Qed.
Lemma rwp_range {A B V} σ m n (e : mem → gmap K V) {W} (s : gmap K W) (f : _ → HM A) (f' : _ → M B) Q :
  range_keys σ n (e m) = range_keys σ n s →
  rwp m (S n) (f (range_keys σ n (e m))) (f' (range_keys σ n s)) Q →
  rwp m n (hbind (hbind (look e) (hloops σ)) f) (bind (range σ s) f') Q.
Proof. intros He Hr b g n' Hy. apply (Hr _ _ _ Hy). Qed.
Lemma rwp_rangev {A B} σ m n (e : mem → goset K) (s : goset K) (f : _ → HM A) (f' : _ → M B) Q :
  e m = s →
  rwp m (S n) (f (range_vals σ n (e m))) (f' (range_vals σ n s)) Q →
  rwp m n (hbind (hbind (look e) (hloopsv σ)) f) (bind (rangev σ s) f') Q.
Proof. intros He Hr b g n' Hy. apply (Hr _ _ _ Hy). Qed.
Lemma rwp_new {A B} m n c (f : loc → HM A) (y : M B) Q :
  sep m →
  (∀ l, cells m !! l = None → ¬ owned m l → sep (put m l c) → view (put m l c) = view m →
    ¬ owned (put m l c) l →
    rwp (put m l c) n (f l) y Q) →
  rwp m n (hbind (new c) f) y Q.
Proof.
  intros Hs Hr. set (l := a_cell (dom (cells m))).
  assert (Hl : cells m !! l = None) by apply not_elem_of_dom, a_free.
  assert (Ho : ¬ owned m l) by by apply fresh_not_owned.
  eapply rwp_left; [done|by apply view_put_free|].
  apply Hr; [done|done|by apply sep_put_free|by apply view_put_free|by rewrite owned_put_free].
Qed.
Lemma rwp_modify {A B} m n m1 (x : HM unit) F (f : unit → HM A) (f' : unit → M B) Q :
  x m n = Ok (tt, m1, n) → view m1 = F (view m) →
  rwp m1 n (f tt) (f' tt) Q → rwp m n (hbind x f) (bind (modify F) f') Q.
Proof.
  intros Hx Hv Hr b g n' Hy. unfold bind, modify in Hy. rewrite <-Hv in Hy.
  destruct (Hr _ _ _ Hy) as (a2&m2&Hx2&?&?&?).
  exists a2, m2. unfold hbind. rewrite Hx. auto.
Qed.
Lemma rwp_modify_last m n m1 (x : HM unit) F (Q : unit → unit → mem → Prop) :
  x m n = Ok (tt, m1, n) → view m1 = F (view m) → sep m1 → Q tt tt m1 →
  rwp m n x (modify F) Q.
Proof.
  intros Hx Hv Hs HQ b g n' [= <- <- <-]. exists tt, m1. auto.
Qed.
Lemma rwp_for {A B X} (l : list X) m n (body : A → X → HM A) (body' : B → X → M B)
    (I : A → B → mem → Prop) a b (Q : A → B → mem → Prop) :
  (∀ x a b m n, sep m → I a b m → rwp m n (body a x) (body' b x) I) →
  sep m → I a b m →
  (∀ a b m, sep m → I a b m → Q a b m) →
  rwp m n (hfor l body a) (for_each l body' b) Q.
Proof.
  intros Hb Hs HI HQ. revert a b m n Hs HI. induction l as [|x l IH]; intros a b m n Hs HI; simpl.
  - apply rwp_ret; auto.
  - apply rwp_bind. eapply rwp_mono; [by apply Hb|]. intros a1 b1 m1 Hs1 HI1 n1 _. auto.
Qed.

(** ** Loops over local sets *)
Lemma run_add m n l s v :
  cells m !! l = Some (CSet s) → Add (Some l) v m n = Ok (tt, put m l (CSet (set_add v s)), n).
Proof. intros E. unfold Add, hbind, look, write, set_at. by rewrite E. Qed.
Lemma run_add_all m n l s vs :
  cells m !! l = Some (CSet s) →
  hfor vs (λ _ v, Add (Some l) v) tt m n
  = Ok (tt, put m l (CSet (foldl (λ c x, set_add x c) s vs)), n).
Proof.
  revert m s. induction vs as [|v vs IH]; intros m s E; cbn [hfor foldl].
  - unfold hret. by rewrite put_id.
  - unfold hbind at 1. rewrite (run_add _ _ _ _ _ E).
    rewrite (IH _ (set_add v s)) by apply lookup_put_eq. by rewrite put_put.
Qed.
Lemma run_queue_first m n l fifo s ks :
  cells m !! l = Some (CSet s) →
  hfor ks (hqueue_first l) fifo m n
  = Ok ((foldl enqueue_first (fifo, s) ks).1,
        put m l (CSet (foldl enqueue_first (fifo, s) ks).2), n).
Proof.
  revert m fifo s. induction ks as [|v ks IH]; intros m fifo s E; cbn [hfor foldl].
  - unfold hret. by rewrite put_id.
  - assert (hqueue_first l fifo v m n = Ok (fifo ++ [v], put m l (CSet (set_add v s)), n)) as E1.
    { unfold hqueue_first, hbind. by rewrite (run_add _ _ _ _ _ E). }
    unfold hbind. rewrite E1. rewrite (IH _ _ (set_add v s)) by apply lookup_put_eq. by rewrite put_put.
Qed.
Lemma run_queue m n l fifo s ks :
  cells m !! l = Some (CSet s) →
  hfor ks (hqueue l) fifo m n
  = Ok ((foldl enqueue (fifo, s) ks).1, put m l (CSet (foldl enqueue (fifo, s) ks).2), n).
Proof.
  revert m fifo s. induction ks as [|v ks IH]; intros m fifo s E; cbn [hfor foldl].
  - unfold hret. by rewrite put_id.
  - assert (hqueue l fifo v m n =
      if set_includes s v then Ok (fifo, m, n)
      else Ok (fifo ++ [v], put m l (CSet (set_add v s)), n)) as E1.
    { unfold hqueue, hbind. unfold Includes, look, set_of, set_at. rewrite E.
      destruct (set_includes s v); [done|]. by rewrite (run_add _ _ _ _ _ E). }
    assert (enqueue (fifo, s) v =
      if set_includes s v then (fifo, s) else (fifo ++ [v], set_add v s)) as E2 by done.
    unfold hbind. rewrite E1, E2. destruct (set_includes s v).
    + by rewrite (IH _ _ s).
    + rewrite (IH _ _ (set_add v s)) by apply lookup_put_eq. by rewrite put_put.
Qed.

End facts.
