(** * Calls on the memory of [DagMem] do what the calls of [DagModel] do *)
From stdpp Require Import base list pmap gmap fin_map_dom strings pretty.
From Verif Require Import GoBase SetModel DagModel DagWp DagMem DagMemFacts.

Section proofs.
Context {K T : Type} `{Countable K} `{Inhabited T} `{A0 : Alloc} (isz : K → bool) (σ : schedule K).
Notation mem := (mem K T).
Notation graph := (graph K T).
Implicit Types (m : mem) (g : graph) (f : fld) (k id : K) (l : loc).

(** ** Single statements *)
Lemma rwp_unset f k m n :
  sep m →
  rwp m n (unset (λ r, outer r f) k) (modify (pset f (delete k))) (λ _ _ m1, frame m m1).
Proof.
  intros Hs. destruct (view_unset m f k Hs) as (S1&V1&F1).
  eapply rwp_modify_last; [done|done|done|]. apply F1, frame_refl.
Qed.
Lemma rwp_unset_all f ks m n :
  sep m →
  rwp m n (hfor ks (λ _ k, unset (λ r, outer r f) k) tt)
    (for_each ks (λ _ k, modify (pset f (delete k))) tt) (λ _ _ m1, frame m m1).
Proof.
  intros Hs. apply (rwp_for _ _ _ _ _ (λ _ _ m1, frame m m1)); [|done|apply frame_refl|done].
  intros k [] [] m1 n1 S1 F1. eapply rwp_mono; [by apply rwp_unset|].
  intros a b m2 S2 F2. by eapply frame_trans.
Qed.
Lemma alter_none {V} (F : V → V) k (s : gmap K V) : s !! k = None → alter F k s = s.
Proof.
  intros E. apply map_eq. intros k'. destruct (decide (k = k')) as [<-|].
  - by rewrite lookup_alter, E.
  - by rewrite lookup_alter_ne.
Qed.
Lemma alter_insert {V} (F : V → V) k (s : gmap K V) x : s !! k = Some x → alter F k s = <[k := F x]> s.
Proof.
  intros E. apply map_eq. intros k'. destruct (decide (k = k')) as [<-|].
  - by rewrite lookup_alter, lookup_insert, E.
  - by rewrite lookup_alter_ne, lookup_insert_ne.
Qed.
Lemma pset_id f g F : F (pget f g) = pget f g → pset f F g = g.
Proof. destruct f, g; simpl; intros E; unfold set_inbound, set_outbound, set_anc, set_desc; simpl; by rewrite E. Qed.
Lemma pset_same f g F F' : F (pget f g) = F' (pget f g) → pset f F g = pset f F' g.
Proof. destruct f, g; simpl; intros E; unfold set_inbound, set_outbound, set_anc, set_desc; simpl; by rewrite E. Qed.

Lemma rwp_delete f k v m n :
  sep m → f = FI ∨ f = FO →
  rwp m n (Delete (inner m f k) v) (modify (pset f (alter (set_delete v) k)))
    (λ _ _ m1, frame m m1).
Proof.
  intros Hs Hf. destruct (inner m f k) as [l|] eqn:E.
  - destruct (view_inner m f k l (set_delete v (set_at m l)) Hs E Hf) as (S1&V1&F1).
    eapply rwp_modify_last; [done| |done|apply F1, frame_refl].
    etrans; [exact V1|]. apply pset_same. symmetry. apply alter_insert.
    by rewrite pget_view, deep_lookup, E.
  - eapply rwp_modify_last; [done| |done|apply frame_refl].
    symmetry. apply pset_id, alter_none. by rewrite pget_view, deep_lookup, E.
Qed.
Lemma rwp_add f k v m n :
  sep m → f = FI ∨ f = FO →
  rwp m n (Add (inner m f k) v)
    (match pget f (view m) !! k with
     | None => panic
     | Some s => modify (pset f (<[k := set_add v s]>))
     end) (λ _ _ m1, frame m m1).
Proof.
  intros Hs Hf. rewrite pget_view, deep_lookup. destruct (inner m f k) as [l|] eqn:E; [|done].
  simpl. destruct (view_inner m f k l (set_add v (set_at m l)) Hs E Hf) as (S1&V1&F1).
  eapply rwp_modify_last; [done|done|done|apply F1, frame_refl].
Qed.
Lemma rwp_ensure f k m n :
  sep m →
  rwp m n (match inner m f k with
           | None => hbind (new (CSet ∅)) (store (λ r, outer r f) k)
           | Some _ => hret tt
           end)
    (match pget f (view m) !! k with
     | None => modify (pset f (<[k := ∅]>))
     | Some _ => ret tt
     end) (λ _ _ m1, frame m m1).
Proof.
  intros Hs. rewrite pget_view, deep_lookup. destruct (inner m f k) as [l|] eqn:E; simpl.
  - apply rwp_ret; [done|apply frame_refl].
  - apply rwp_new; [done|]. intros l Hl Ho S1 V1 Ho1.
    destruct (view_store (put m l (CSet ∅)) f k l ∅ S1) as (S2&V2&F2); [apply lookup_put_eq|done|].
    eapply rwp_modify_last; [done|exact V2|done|].
    apply F2; [|done]. apply frame_put_free; [apply frame_refl|done|done].
Qed.
(** A statement that only works on local cells. *)
Lemma rwp_local {A B} m n m1 a b (x : HM A) (Q : A → B → mem → Prop) :
  x m n = Ok (a, m1, n) → view m1 = view m → sep m1 → Q a b m1 → rwp m n x (ret b) Q.
Proof. intros Hx Hv Hs HQ b' g n' [= <- <- <-]. exists a, m1. auto. Qed.

Lemma rwp_check {A B} m n id (c : option err → HM A) (y : M B) Q :
  rwp m n (c (checkVertexID isz (view m) id)) y Q →
  rwp m n (hbind (hcheckVertexID isz id) c) y Q.
Proof. intros Hr. by eapply rwp_left. Qed.
Lemma rwp_check_edge {A B} m n s t (c : option err → HM A) (y : M B) Q :
  rwp m n (c (checkEdgeIDs isz (view m) s t)) y Q →
  rwp m n (hbind (hcheckEdgeIDs isz s t) c) y Q.
Proof. intros Hr. by eapply rwp_left. Qed.

(** ** References to sets that no call changes any more *)
Definition holds m (v : setvar) (s : goset K) : Prop :=
  match v with
  | None => s = ∅
  | Some l => cells m !! l = Some (CSet s) ∧ ¬ mut m l
  end.
Lemma holds_frame m m1 v s : holds m v s → frame m m1 → holds m1 v s.
Proof.
  destruct v as [l|]; [|done]. intros [E Hm] F. split.
  - rewrite (fr_same _ _ F); eauto.
  - apply (fr_mut _ _ F); eauto.
Qed.
Lemma holds_set m v s : holds m v s → set_of m v = s.
Proof. destruct v as [l|]; simpl; [|done]. intros [E _]. unfold set_at. by rewrite E. Qed.
Lemma cached_holds m f k l :
  sep m → f = FA ∨ f = FD → inner m f k = Some l → holds m (Some l) (set_at m l).
Proof.
  intros Hs Hf E. destruct (sep_i _ Hs _ _ _ E) as [s Es]. split.
  - unfold set_at. by rewrite Es.
  - intros [->|[[f' ->]|[[k' E']|[k' E']]]].
    + destruct (sep_v _ Hs). congruence.
    + destruct (sep_o _ Hs f'). congruence.
    + destruct (sep_j _ Hs _ _ _ _ _ E E'). subst. by destruct Hf.
    + destruct (sep_j _ Hs _ _ _ _ _ E E'). subst. by destruct Hf.
Qed.
(** What getAncestorsIDs and getDescendantsIDs return. *)
Definition result m (a : setvar * option err) (b : err + goset K) : Prop :=
  match b with
  | inl e => a = (None, Some e)
  | inr s => ∃ l, a = (Some l, None) ∧ holds m (Some l) s
  end.
Lemma result_holds m a b : result m a b → holds m a.1 (ignore_err b).
Proof. destruct b as [e|s]; simpl; [by intros ->|]. by intros (l&->&?). Qed.

(** A set under construction. *)
Definition local m0 m l (s : goset K) : Prop :=
  cells m0 !! l = None ∧ cells m !! l = Some (CSet s) ∧ ¬ owned m l.
Lemma local_frame m0 m m1 l s : local m0 m l s → frame m m1 → local m0 m1 l s.
Proof.
  intros (E0&E&Ho) F. split_and!; [done| |].
  - rewrite (fr_same _ _ F); [done|by eexists|]. by intros ?%mut_owned.
  - apply (fr_owned _ _ F); [by eexists|done].
Qed.
Lemma local_put m0 m l s s' : local m0 m l s → local m0 (put m l (CSet s')) l s'.
Proof. intros (E0&E&Ho). split_and!; [done|apply lookup_put_eq|by rewrite owned_put_free]. Qed.
Lemma local_new m l : cells m !! l = None → ¬ owned m l → local m (put m l (CSet ∅)) l ∅.
Proof. intros E Ho. split_and!; [done|apply lookup_put_eq|by rewrite owned_put_free]. Qed.

Lemma rwp_getAncestorsIDs fuel id m n :
  sep m →
  rwp m n (hgetAncestorsIDs isz σ fuel id) (getAncestorsIDs isz σ fuel id)
    (λ a b m1, frame m m1 ∧ result m1 a b).
Proof.
  revert id m n. induction fuel as [|fuel IH]; intros id m n Hs; [done|].
  cbn [hgetAncestorsIDs getAncestorsIDs]. apply rwp_check, rwp_get.
  destruct (checkVertexID isz (view m) id) as [e|].
  { apply rwp_ret; [done|]. split; [apply frame_refl|done]. }
  apply rwp_look. change (anc m id) with (inner m FA id).
  change (ancestorsCache (view m)) with (deep m FA). rewrite deep_lookup.
  destruct (inner m FA id) as [l|] eqn:E; cbn [fmap option_fmap option_map].
  { apply rwp_ret; [done|]. split; [apply frame_refl|]. exists l. split; [done|].
    apply (cached_holds m FA id); auto. }
  apply rwp_new; [done|]. intros l Hl Ho S1 V1 Ho1. apply rwp_look.
  set (m1 := put m l (CSet ∅)) in *.
  assert (F01 : frame m m1). { apply frame_put_free; [apply frame_refl|done|done]. }
  apply rwp_bind.
  eapply (rwp_mono _ _ _ _ (λ _ s m2, frame m m2 ∧ local m m2 l s)).
  - change (inbound m1 id) with (inner m1 FI id). unfold m1 at 2. rewrite inner_put_free by done.
    change (inboundEdges (view m)) with (deep m FI). rewrite deep_lookup.
    destruct (inner m FI id) as [p|] eqn:Ep; cbn [fmap option_fmap option_map].
    + apply rwp_range.
      { unfold m1. destruct (at_put_ne m l (CSet ∅) p) as (_&_&->); [|done].
        intros <-. apply Ho. right. right. eauto. }
      assert (set_at m1 p = set_at m p) as ->.
      { apply at_put_ne. intros <-. apply Ho. right. right. eauto. }
      apply (rwp_for _ _ _ _ _ (λ _ s m2, frame m m2 ∧ local m m2 l s)); [|done| |done].
      2: { split; [done|]. by apply local_new. }
      intros k [] s m2 n2 S2 [F2 L2]. apply rwp_bind.
      eapply rwp_mono; [by apply IH|]. intros r r' m3 S3 [F3 R3] n3 _.
      apply rwp_rangev.
      { rewrite (holds_set _ _ _ (result_holds _ _ _ R3)). by destruct r'. }
      assert (set_of m3 r.1 = ignore_err r') as -> by by apply holds_set, result_holds.
      fold (ignore_err r'). pose proof (local_frame _ _ _ _ _ L2 F3) as L3.
      destruct (L3) as (_&E3&O3).
      eapply rwp_left; [by apply run_add_all|by apply view_put_free|].
      eapply rwp_local; [apply run_add, lookup_put_eq| | |].
      * rewrite view_put_free; [done|]. by rewrite owned_put_free.
      * apply sep_put_free; [by apply sep_put_free|]. by rewrite owned_put_free.
      * rewrite put_put. split; [|by eapply local_put].
        apply frame_put_free; [by eapply frame_trans|done|done].
    + apply rwp_ret; [done|]. split; [done|]. by apply local_new.
  - intros a s m2 S2 [F2 (_&E2&O2)] n2 _.
    destruct (view_store m2 FA id l s S2 E2 O2) as (S3&V3&F3).
    eapply rwp_modify; [done|exact V3|]. apply rwp_ret; [done|].
    split; [by apply F3|]. exists l. split; [done|].
    assert (inner (put m2 (outer (this m2) FA)
      (CSets (<[id := l]> (sets_at m2 (outer (this m2) FA))))) FA id = Some l) as Ei.
    { rewrite inner_put_o, decide_True by done. apply lookup_insert. }
    pose proof (cached_holds _ FA id l S3 ltac:(auto) Ei) as Hh.
    destruct Hh as [Hh1 Hh2]. split; [|done].
    rewrite lookup_put_ne; [done|]. by apply (outer_not_set m2 FA l s).
Qed.

Lemma rwp_getDescendantsIDs fuel id m n :
  sep m →
  rwp m n (hgetDescendantsIDs isz σ fuel id) (getDescendantsIDs isz σ fuel id)
    (λ a b m1, frame m m1 ∧ result m1 a b).
Proof.
  revert id m n. induction fuel as [|fuel IH]; intros id m n Hs; [done|].
  cbn [hgetDescendantsIDs getDescendantsIDs]. apply rwp_check, rwp_get.
  destruct (checkVertexID isz (view m) id) as [e|].
  { apply rwp_ret; [done|]. split; [apply frame_refl|done]. }
  apply rwp_look. change (desc m id) with (inner m FD id).
  change (descendantsCache (view m)) with (deep m FD). rewrite deep_lookup.
  destruct (inner m FD id) as [l|] eqn:E; cbn [fmap option_fmap option_map].
  { apply rwp_ret; [done|]. split; [apply frame_refl|]. exists l. split; [done|].
    apply (cached_holds m FD id); auto. }
  apply rwp_new; [done|]. intros l Hl Ho S1 V1 Ho1. apply rwp_look.
  set (m1 := put m l (CSet ∅)) in *.
  assert (F01 : frame m m1). { apply frame_put_free; [apply frame_refl|done|done]. }
  apply rwp_bind.
  eapply (rwp_mono _ _ _ _ (λ _ s m2, frame m m2 ∧ local m m2 l s)).
  - change (outbound m1 id) with (inner m1 FO id). unfold m1 at 2. rewrite inner_put_free by done.
    change (outboundEdges (view m)) with (deep m FO). rewrite deep_lookup.
    destruct (inner m FO id) as [p|] eqn:Ep; cbn [fmap option_fmap option_map].
    + apply rwp_range.
      { unfold m1. destruct (at_put_ne m l (CSet ∅) p) as (_&_&->); [|done].
        intros <-. apply Ho. right. right. eauto. }
      assert (set_at m1 p = set_at m p) as ->.
      { apply at_put_ne. intros <-. apply Ho. right. right. eauto. }
      apply (rwp_for _ _ _ _ _ (λ _ s m2, frame m m2 ∧ local m m2 l s)); [|done| |done].
      2: { split; [done|]. by apply local_new. }
      intros k [] s m2 n2 S2 [F2 L2]. apply rwp_bind.
      eapply rwp_mono; [by apply IH|]. intros r r' m3 S3 [F3 R3] n3 _.
      apply rwp_rangev.
      { rewrite (holds_set _ _ _ (result_holds _ _ _ R3)). by destruct r'. }
      assert (set_of m3 r.1 = ignore_err r') as -> by by apply holds_set, result_holds.
      fold (ignore_err r'). pose proof (local_frame _ _ _ _ _ L2 F3) as L3.
      destruct (L3) as (_&E3&O3).
      eapply rwp_left; [by apply run_add_all|by apply view_put_free|].
      eapply rwp_local; [apply run_add, lookup_put_eq| | |].
      * rewrite view_put_free; [done|]. by rewrite owned_put_free.
      * apply sep_put_free; [by apply sep_put_free|]. by rewrite owned_put_free.
      * rewrite put_put. split; [|by eapply local_put].
        apply frame_put_free; [by eapply frame_trans|done|done].
    + apply rwp_ret; [done|]. split; [done|]. by apply local_new.
  - intros a s m2 S2 [F2 (_&E2&O2)] n2 _.
    destruct (view_store m2 FD id l s S2 E2 O2) as (S3&V3&F3).
    eapply rwp_modify; [done|exact V3|]. apply rwp_ret; [done|].
    split; [by apply F3|]. exists l. split; [done|].
    assert (inner (put m2 (outer (this m2) FD)
      (CSets (<[id := l]> (sets_at m2 (outer (this m2) FD))))) FD id = Some l) as Ei.
    { rewrite inner_put_o, decide_True by done. apply lookup_insert. }
    pose proof (cached_holds _ FD id l S3 ltac:(auto) Ei) as Hh.
    destruct Hh as [Hh1 Hh2]. split; [|done].
    rewrite lookup_put_ne; [done|]. by apply (outer_not_set m2 FD l s).
Qed.

Lemma rwp_ancestorsOf id m n :
  sep m →
  rwp m n (hancestorsOf isz σ id) (ancestorsOf isz σ id) (λ a b m1, frame m m1 ∧ result m1 a b).
Proof. intros Hs. apply rwp_look, rwp_get. by apply rwp_getAncestorsIDs. Qed.

Lemma rwp_descendantsOf id m n :
  sep m →
  rwp m n (hdescendantsOf isz σ id) (descendantsOf isz σ id) (λ a b m1, frame m m1 ∧ result m1 a b).
Proof. intros Hs. apply rwp_look, rwp_get. by apply rwp_getDescendantsIDs. Qed.

(** ** The calls that change the graph *)
Lemma rwp_AddVertex id v m n :
  sep m → rwp m n (hAddVertex isz id v) (AddVertex isz id v) (λ a b m1, frame m m1 ∧ a = b).
Proof.
  intros Hs. unfold hAddVertex, AddVertex. apply rwp_get. destruct (isz id).
  { apply rwp_ret; [done|]. split; [apply frame_refl|done]. }
  apply rwp_look. change (payload m id) with (vertices (view m) !! id).
  destruct (vertices (view m) !! id).
  { apply rwp_ret; [done|]. split; [apply frame_refl|done]. }
  apply rwp_look, rwp_look.
  destruct (put_v m (<[id := v]> (verts_at m (rvertices (this m)))) Hs) as (S1&V1&F1).
  eapply rwp_modify; [done|exact V1|]. apply rwp_ret; [done|].
  split; [apply F1, frame_refl|done].
Qed.

Lemma rwp_DeleteVertex id m n :
  sep m → rwp m n (hDeleteVertex isz σ id) (DeleteVertex isz σ id) (λ a b m1, frame m m1 ∧ a = b).
Proof.
  intros Hs. unfold hDeleteVertex, DeleteVertex. apply rwp_check, rwp_get.
  destruct (checkVertexID isz (view m) id).
  { apply rwp_ret; [done|]. split; [apply frame_refl|done]. }
  apply rwp_bind. eapply rwp_mono; [by apply rwp_descendantsOf|].
  intros d d' m1 S1 [F1 R1] n1 _. apply rwp_bind.
  eapply rwp_mono; [by apply rwp_ancestorsOf|].
  intros a a' m2 S2 [F2 R2] n2 _. cbv zeta.
  pose proof (holds_frame _ _ _ _ (result_holds _ _ _ R1) F2) as H1.
  pose proof (result_holds _ _ _ R2) as H2.
  pose proof (frame_trans _ _ _ F1 F2) as F02. clear R1 R2 F1 F2 S1 m1.
  apply rwp_look, rwp_get. apply rwp_bind.
  eapply (rwp_mono _ _ _ _ (λ _ _ m3, frame m2 m3)).
  { change (inbound m2 id) with (inner m2 FI id).
    change (inboundEdges (view m2)) with (deep m2 FI). rewrite deep_lookup.
    destruct (inner m2 FI id) as [p|]; cbn [fmap option_fmap option_map].
    - apply rwp_range; [done|].
      apply (rwp_for _ _ _ _ _ (λ _ _ m3, frame m2 m3)); [|done|apply frame_refl|done].
      intros k [] [] m3 n3 S3 F3. apply rwp_look.
      eapply rwp_mono; [apply (rwp_delete FO); auto|].
      intros x y m4 S4 F4. by eapply frame_trans.
    - apply rwp_ret; [done|apply frame_refl]. }
  intros x y m3 S3 F3 n3 _. cbv beta in *; clear x y.
  pose proof (holds_frame _ _ _ _ H1 F3) as H1'. pose proof (holds_frame _ _ _ _ H2 F3) as H2'.
  pose proof (frame_trans _ _ _ F02 F3) as F03. clear H1 H2 F02 F3 S2 m2.
  apply rwp_look, rwp_get. apply rwp_bind.
  eapply (rwp_mono _ _ _ _ (λ _ _ m4, frame m3 m4)).
  { change (outbound m3 id) with (inner m3 FO id).
    change (outboundEdges (view m3)) with (deep m3 FO). rewrite deep_lookup.
    destruct (inner m3 FO id) as [p|]; cbn [fmap option_fmap option_map].
    - apply rwp_range; [done|].
      apply (rwp_for _ _ _ _ _ (λ _ _ m4, frame m3 m4)); [|done|apply frame_refl|done].
      intros k [] [] m4 n4 S4 F4. apply rwp_look.
      eapply rwp_mono; [apply (rwp_delete FI); auto|].
      intros x y m5 S5 F5. by eapply frame_trans.
    - apply rwp_ret; [done|apply frame_refl]. }
  intros x y m4 S4 F4 n4 _. cbv beta in *; clear x y.
  pose proof (holds_frame _ _ _ _ H1' F4) as H1. pose proof (holds_frame _ _ _ _ H2' F4) as H2.
  pose proof (frame_trans _ _ _ F03 F4) as F04. clear H1' H2' F03 F4 S3 m3.
  apply rwp_bind. eapply rwp_mono; [by apply (rwp_unset FI)|].
  intros x y m5 S5 F5 n5 _. cbv beta in *; clear x y.
  apply rwp_bind. eapply rwp_mono; [by apply (rwp_unset FO)|].
  intros x y m6 S6 F6 n6 _. cbv beta in *; clear x y.
  pose proof (frame_trans _ _ _ F5 F6) as F46. clear F5 F6.
  pose proof (holds_frame _ _ _ _ H1 F46) as H1'. pose proof (holds_frame _ _ _ _ H2 F46) as H2'.
  apply rwp_rangev; [by apply holds_set|]. rewrite (holds_set _ _ _ H1').
  apply rwp_bind. eapply rwp_mono; [by apply (rwp_unset_all FA)|].
  intros x y m7 S7 F7 n7 _. cbv beta in *; clear x y.
  apply rwp_bind. eapply rwp_mono; [by apply (rwp_unset FA)|].
  intros x y m8 S8 F8 n8 _. cbv beta in *; clear x y.
  pose proof (frame_trans _ _ _ F7 F8) as F68. clear F7 F8.
  pose proof (holds_frame _ _ _ _ H2' F68) as H2''.
  apply rwp_rangev; [by apply holds_set|]. rewrite (holds_set _ _ _ H2'').
  apply rwp_bind. eapply rwp_mono; [by apply (rwp_unset_all FD)|].
  intros x y m9 S9 F9 n9 _. cbv beta in *; clear x y.
  apply rwp_bind. eapply rwp_mono; [by apply (rwp_unset FD)|].
  intros x y m10 S10 F10 n10 _. cbv beta in *; clear x y.
  apply rwp_look, rwp_look.
  destruct (put_v m10 (delete id (verts_at m10 (rvertices (this m10)))) S10) as (S11&V11&F11).
  eapply rwp_modify; [done|exact V11|]. apply rwp_ret; [done|]. split; [|done].
  apply F11. eauto using frame_trans.
Qed.

(** [IsEdge] does not change the memory. *)
Lemma run_IsEdge s t m n : hIsEdge isz s t m n = Ok (isEdge isz (view m) s t, m, n).
Proof.
  unfold hIsEdge, isEdge, hbind, hcheckEdgeIDs. unfold look at 1.
  change (if isz s then _ else _) with (checkEdgeIDs isz (view m) s t).
  destruct (checkEdgeIDs isz (view m) s t); [done|]. unfold look.
  change (outbound m s) with (inner m FO s).
  change (outboundEdges (view m)) with (deep m FO). rewrite deep_lookup.
  destruct (inner m FO s) as [l|]; [|done]. cbn [fmap option_fmap option_map].
  unfold Includes, look. simpl. by destruct (set_includes (set_at m l) t).
Qed.

Lemma rwp_AddEdge s t m n :
  sep m → rwp m n (hAddEdge isz σ s t) (AddEdge isz σ s t) (λ a b m1, frame m m1 ∧ a = b).
Proof.
  intros Hs. unfold hAddEdge, AddEdge. apply rwp_check_edge, rwp_get.
  destruct (checkEdgeIDs isz (view m) s t).
  { apply rwp_ret; [done|]. split; [apply frame_refl|done]. }
  eapply rwp_left; [apply run_IsEdge|done|].
  destruct (isEdge isz (view m) s t).1.
  { apply rwp_ret; [done|]. split; [apply frame_refl|done]. }
  apply rwp_bind. eapply rwp_mono; [by apply rwp_descendantsOf|].
  intros d d' m1 S1 [F1 R1] n1 _. apply rwp_bind.
  eapply rwp_mono; [by apply rwp_ancestorsOf|].
  intros a a' m2 S2 [F2 R2] n2 _. cbv zeta.
  pose proof (holds_frame _ _ _ _ (result_holds _ _ _ R1) F2) as H1.
  pose proof (result_holds _ _ _ R2) as H2.
  pose proof (frame_trans _ _ _ F1 F2) as F02. clear R1 R2 F1 F2 S1 m1.
  eapply rwp_left; [done|done|]. rewrite (holds_set _ _ _ H1).
  destruct (set_includes (ignore_err d') s).
  { by apply rwp_ret. }
  apply rwp_look, rwp_get, rwp_bind. eapply rwp_mono; [by apply (rwp_ensure FO s)|].
  intros x y m3 S3 F3 n3 _. cbv beta in *; clear x y.
  apply rwp_look. unfold add_outbound. apply rwp_bind, rwp_get.
  eapply rwp_mono; [apply (rwp_add FO s); auto|].
  intros x y m4 S4 F4 n4 _. cbv beta in *; clear x y.
  apply rwp_look, rwp_get, rwp_bind. eapply rwp_mono; [by apply (rwp_ensure FI t)|].
  intros x y m5 S5 F5 n5 _. cbv beta in *; clear x y.
  apply rwp_look. unfold add_inbound. apply rwp_bind, rwp_get.
  eapply rwp_mono; [apply (rwp_add FI t); auto|].
  intros x y m6 S6 F6 n6 _. cbv beta in *; clear x y.
  assert (frame m2 m6) as F26 by eauto using frame_trans. clear F3 F4 F5 F6.
  pose proof (holds_frame _ _ _ _ H1 F26) as H1'. pose proof (holds_frame _ _ _ _ H2 F26) as H2'.
  apply rwp_range; [by rewrite (holds_set _ _ _ H1')|]. rewrite (holds_set _ _ _ H1').
  apply rwp_bind. eapply rwp_mono; [by apply (rwp_unset_all FA)|].
  intros x y m7 S7 F7 n7 _. cbv beta in *; clear x y.
  apply rwp_bind. eapply rwp_mono; [by apply (rwp_unset FA)|].
  intros x y m8 S8 F8 n8 _. cbv beta in *; clear x y.
  pose proof (frame_trans _ _ _ F7 F8) as F68. clear F7 F8.
  pose proof (holds_frame _ _ _ _ H2' F68) as H2''.
  apply rwp_range; [by rewrite (holds_set _ _ _ H2'')|]. rewrite (holds_set _ _ _ H2'').
  apply rwp_bind. eapply rwp_mono; [by apply (rwp_unset_all FD)|].
  intros x y m9 S9 F9 n9 _. cbv beta in *; clear x y.
  apply rwp_bind. eapply rwp_mono; [by apply (rwp_unset FD)|].
  intros x y m10 S10 F10 n10 _. cbv beta in *; clear x y.
  apply rwp_ret; [done|]. split; [|done]. eauto using frame_trans.
Qed.

Lemma rwp_DeleteEdge s t m n :
  sep m → rwp m n (hDeleteEdge isz σ s t) (DeleteEdge isz σ s t) (λ a b m1, frame m m1 ∧ a = b).
Proof.
  intros Hs. unfold hDeleteEdge, DeleteEdge. apply rwp_check_edge, rwp_get.
  destruct (checkEdgeIDs isz (view m) s t).
  { apply rwp_ret; [done|]. split; [apply frame_refl|done]. }
  eapply rwp_left; [apply run_IsEdge|done|].
  destruct (negb (isEdge isz (view m) s t).1).
  { apply rwp_ret; [done|]. split; [apply frame_refl|done]. }
  apply rwp_bind. eapply rwp_mono; [by apply rwp_descendantsOf|].
  intros d d' m1 S1 [F1 R1] n1 _. apply rwp_bind.
  eapply rwp_mono; [by apply rwp_ancestorsOf|].
  intros a a' m2 S2 [F2 R2] n2 _. cbv zeta.
  pose proof (holds_frame _ _ _ _ (result_holds _ _ _ R1) F2) as H1.
  pose proof (result_holds _ _ _ R2) as H2.
  pose proof (frame_trans _ _ _ F1 F2) as F02. clear R1 R2 F1 F2 S1 m1.
  apply rwp_look, rwp_bind. eapply rwp_mono; [apply (rwp_delete FO s); auto|].
  intros x y m4 S4 F4 n4 _. cbv beta in *; clear x y.
  apply rwp_look, rwp_bind. eapply rwp_mono; [apply (rwp_delete FI t); auto|].
  intros x y m6 S6 F6 n6 _. cbv beta in *; clear x y.
  assert (frame m2 m6) as F26 by eauto using frame_trans. clear F4 F6.
  pose proof (holds_frame _ _ _ _ H1 F26) as H1'. pose proof (holds_frame _ _ _ _ H2 F26) as H2'.
  apply rwp_range; [by rewrite (holds_set _ _ _ H1')|]. rewrite (holds_set _ _ _ H1').
  apply rwp_bind. eapply rwp_mono; [by apply (rwp_unset_all FA)|].
  intros x y m7 S7 F7 n7 _. cbv beta in *; clear x y.
  apply rwp_bind. eapply rwp_mono; [by apply (rwp_unset FA)|].
  intros x y m8 S8 F8 n8 _. cbv beta in *; clear x y.
  pose proof (frame_trans _ _ _ F7 F8) as F68. clear F7 F8.
  pose proof (holds_frame _ _ _ _ H2' F68) as H2''.
  apply rwp_range; [by rewrite (holds_set _ _ _ H2'')|]. rewrite (holds_set _ _ _ H2'').
  apply rwp_bind. eapply rwp_mono; [by apply (rwp_unset_all FD)|].
  intros x y m9 S9 F9 n9 _. cbv beta in *; clear x y.
  apply rwp_bind. eapply rwp_mono; [by apply (rwp_unset FD)|].
  intros x y m10 S10 F10 n10 _. cbv beta in *; clear x y.
  apply rwp_ret; [done|]. split; [|done]. eauto using frame_trans.
Qed.

(** ** Queries *)

(** A map or slice made for the client. *)
Definition made m0 m l (c : cell K T) : Prop :=
  cells m0 !! l = None ∧ cells m !! l = Some c ∧ ¬ owned m l.
Definition made_err {A} m0 m (mk : A → cell K T) (a : err + loc) (b : err + A) : Prop :=
  match b with
  | inl e => a = inl e
  | inr x => ∃ l, a = inr l ∧ made m0 m l (mk x)
  end.
Lemma made_new m l c : cells m !! l = None → ¬ owned m l → made m (put m l c) l c.
Proof. intros E Ho. split_and!; [done|apply lookup_put_eq|by rewrite owned_put_free]. Qed.
Lemma made_frame m0 m m1 l c : made m0 m l c → frame m m1 → made m0 m1 l c.
Proof.
  intros (E0&E&Ho) F. split_and!; [done| |].
  - rewrite (fr_same _ _ F); [done|by eexists|]. by intros ?%mut_owned.
  - apply (fr_owned _ _ F); [by eexists|done].
Qed.

Lemma run_copy_vertex l k m n s :
  cells m !! l = Some (CVerts s) →
  copy_vertex l k m n = Ok (tt, put m l (CVerts (store_vertex (view m) s k)), n).
Proof. intros E. unfold copy_vertex, hbind, look, write. unfold verts_at at 1. by rewrite E. Qed.
Lemma rwp_copy_vertex m0 l k m n s :
  sep m → frame m0 m → made m0 m l (CVerts s) →
  rwp m n (copy_vertex l k) (ret (store_vertex (view m) s k))
    (λ _ b m1, frame m0 m1 ∧ view m1 = view m ∧ made m0 m1 l (CVerts b)).
Proof.
  intros Hs F (E0&E&Ho). eapply rwp_local; [by apply run_copy_vertex|by apply view_put_free| |].
  - by apply sep_put_free.
  - split; [by apply frame_put_free|]. split; [by apply view_put_free|].
    split_and!; [done|apply lookup_put_eq|]. by rewrite owned_put_free.
Qed.
(** [y] has no counterpart of the last statement. *)
Lemma rwp_then {A B A'} m n (x : HM A) (y : M B) (c : A → HM A') Q1 (Q : A' → B → mem → Prop) :
  rwp m n x y Q1 →
  (∀ a b m1 n1, sep m1 → Q1 a b m1 → rwp m1 n1 (c a) (ret b) Q) →
  rwp m n (hbind x c) y Q.
Proof.
  intros Hr Hc b g n' Hy. destruct (Hr _ _ _ Hy) as (a&m1&Hx&S1&<-&HQ).
  destruct (Hc a b m1 n' S1 HQ b (view m1) n' eq_refl) as (a2&m2&Hx2&?&?&?).
  exists a2, m2. unfold hbind. rewrite Hx. auto.
Qed.
Lemma rwp_copy m0 g l ks m n s :
  sep m → view m = g → frame m0 m → made m0 m l (CVerts s) →
  rwp m n (hfor ks (λ _ k, copy_vertex l k) tt)
    (for_each ks (λ acc k, ret (store_vertex g acc k)) s)
    (λ _ b m1, frame m0 m1 ∧ view m1 = g ∧ made m0 m1 l (CVerts b)).
Proof.
  intros Hs Hg F Hm.
  apply (rwp_for _ _ _ _ _ (λ _ b m1, frame m0 m1 ∧ view m1 = g ∧ made m0 m1 l (CVerts b)));
    [|done|done|done].
  intros k [] b m1 n1 S1 (F1&V1&M1). rewrite <-V1. by apply rwp_copy_vertex.
Qed.
Lemma frame_new m l c : cells m !! l = None → ¬ owned m l → frame m (put m l c).
Proof. intros. apply frame_put_free; [apply frame_refl|done|done]. Qed.

Lemma run_GetVertex id m n :
  sep m → rwp m n (hGetVertex isz id) (GetVertex isz id) (λ a b m1, frame m m1 ∧ a = b).
Proof.
  intros Hs. unfold hGetVertex, GetVertex. apply rwp_check, rwp_get.
  destruct (checkVertexID isz (view m) id).
  { apply rwp_ret; [done|]. split; [apply frame_refl|done]. }
  apply rwp_look. apply rwp_ret; [done|]. split; [apply frame_refl|done].
Qed.
Lemma rwp_IsEdge s t m n :
  sep m → rwp m n (hIsEdge isz s t) (IsEdge isz s t) (λ a b m1, frame m m1 ∧ a = b).
Proof.
  intros Hs. unfold IsEdge. apply rwp_get.
  eapply rwp_local; [apply run_IsEdge|done|done|]. split; [apply frame_refl|done].
Qed.
Lemma rwp_GetOrder m n :
  sep m → rwp m n hGetOrder GetOrder (λ a b m1, m1 = m ∧ a = b).
Proof. intros Hs. apply rwp_get. by eapply rwp_local. Qed.

Lemma keys_fmap {V W} (F : V → W) (s : gmap K V) : (map_to_list (F <$> s)).*1 = (map_to_list s).*1.
Proof.
  assert (∀ (t : Pmap_raw V) j acc acc', acc' = prod_map id F <$> acc →
    Pto_list_raw j (Pfmap_raw F t) acc' = prod_map id F <$> Pto_list_raw j t acc) as Hraw.
  { induction t as [|[x|] t1 IH1 t2 IH2]; intros j acc acc' ->; simpl; [done| |];
      [f_equal|]; apply IH1; by apply IH2. }
  destruct s as [[t Ht] Hs].
  change ((omap (λ '(i, x), (., x) <$> decode (A:=K) i) (Pto_list_raw 1 (Pfmap_raw F t) [])).*1
    = (omap (λ '(i, x), (., x) <$> decode (A:=K) i) (Pto_list_raw 1 t [])).*1).
  rewrite (Hraw t 1%positive [] []) by done.
  induction (Pto_list_raw 1 t []) as [|[i x] l IH]; [done|].
  simpl. destruct (decode (A:=K) i); simpl; [f_equal|]; exact IH.
Qed.
Lemma range_deep m f i : range_keys σ i (sets_at m (outer (this m) f)) = range_keys σ i (deep m f).
Proof. unfold range_keys, deep. by rewrite keys_fmap. Qed.

Lemma rwp_GetSize m n :
  sep m → rwp m n (hGetSize σ) (GetSize σ) (λ a b m1, m1 = m ∧ a = b).
Proof.
  intros Hs. unfold hGetSize, GetSize. apply rwp_get.
  apply rwp_range; [apply (range_deep m FO)|].
  change (routbound (this m)) with (outer (this m) FO). rewrite range_deep.
  apply (rwp_for _ _ _ _ _ (λ a b m1, m1 = m ∧ a = b)); [|done|done|done].
  intros k a b m1 n1 S1 [-> ->]. apply rwp_look, rwp_ret; [done|]. split; [done|].
  change (outboundEdges (view m)) with (deep m FO). by rewrite (read_deep m FO).
Qed.

Lemma rwp_GetVertices m n :
  sep m → rwp m n (hGetVertices σ) (GetVertices σ) (λ a b m1, frame m m1 ∧ made m m1 a (CVerts b)).
Proof.
  intros Hs. unfold hGetVertices, GetVertices. apply rwp_get.
  apply rwp_new; [done|]. intros l Hl Ho S1 V1 Ho1.
  assert (vertices (view m) = verts_at (put m l (CVerts ∅)) (rvertices (this m))) as Ev.
  { by rewrite <-V1. }
  apply rwp_range; [by rewrite Ev|]. rewrite Ev.
  eapply rwp_then.
  { apply (rwp_copy m (view m)); [done|done|by apply frame_new|by apply made_new]. }
  intros x b m1 n2 S2 (F2&V2&M2). by apply rwp_ret.
Qed.

Lemma rwp_loadFromCache v s m n :
  sep m → holds m v s →
  rwp m n (hloadFromCache σ v) (loadFromCache σ s) (λ a b m1, frame m m1 ∧ made m m1 a (CVerts b)).
Proof.
  intros Hs Hh. unfold hloadFromCache, loadFromCache. apply rwp_get.
  apply rwp_new; [done|]. intros l Hl Ho S1 V1 Ho1.
  pose proof (holds_frame _ _ _ _ Hh (frame_new _ _ (CVerts ∅) Hl Ho)) as H1.
  apply rwp_range; [by rewrite (holds_set _ _ _ H1)|]. rewrite (holds_set _ _ _ H1).
  eapply rwp_then.
  { apply (rwp_copy m (view m)); [done|done|by apply frame_new|by apply made_new]. }
  intros x b m1 n2 S2 (F2&V2&M2). by apply rwp_ret.
Qed.
Lemma made_earlier m0 m m1 l c : frame m0 m → made m m1 l c → made m0 m1 l c.
Proof.
  intros F (E0&E&Ho). split_and!; [|done|done].
  destruct (cells m0 !! l) eqn:E1; [|done].
  destruct (fr_dom _ _ F l) as [? E2]; [by eexists|]. congruence.
Qed.

Lemma rwp_GetRoots m n :
  sep m → rwp m n (hGetRoots σ) (GetRoots σ) (λ a b m1, frame m m1 ∧ view m1 = view m ∧ made m m1 a (CVerts b)).
Proof.
  intros Hs. unfold hGetRoots, GetRoots. apply rwp_get.
  apply rwp_new; [done|]. intros l Hl Ho S1 V1 Ho1.
  assert (vertices (view m) = verts_at (put m l (CVerts ∅)) (rvertices (this m))) as Ev.
  { by rewrite <-V1. }
  apply rwp_range; [by rewrite Ev|]. rewrite Ev.
  eapply rwp_then.
  { apply (rwp_for _ _ _ _ _ (λ _ b m1, frame m m1 ∧ view m1 = view m ∧ made m m1 l (CVerts b)));
      [|done| |intros a b m1 _ HI; exact HI].
    - intros k [] b m1 n1 S2 (F2&V2&M2). apply rwp_look.
      change (inbound m1 k) with (inner m1 FI k). rewrite <-V2.
      change (inboundEdges (view m1)) with (deep m1 FI). rewrite deep_lookup.
      destruct (inner m1 FI k) as [r|]; cbn [fmap option_fmap option_map].
      + apply rwp_look. destruct (decide _).
        * by apply rwp_copy_vertex.
        * by apply rwp_ret.
      + by apply rwp_copy_vertex.
    - split_and!; [by apply frame_new|done|by apply made_new]. }
  intros x b m1 n2 S2 (F2&V2&M2). by apply rwp_ret.
Qed.

Lemma rwp_GetParents id m n :
  sep m → rwp m n (hGetParents isz σ id) (GetParents isz σ id) (λ a b m1, frame m m1 ∧ made_err m m1 CVerts a b).
Proof.
  intros Hs. unfold hGetParents, GetParents. apply rwp_check, rwp_get.
  destruct (checkVertexID isz (view m) id).
  { apply rwp_ret; [done|]. split; [apply frame_refl|done]. }
  apply rwp_new; [done|]. intros l Hl Ho S1 V1 Ho1.
  assert (read (inboundEdges (view m)) id
    = set_of (put m l (CVerts ∅)) (inbound (put m l (CVerts ∅)) id)) as Ev.
  { rewrite <-V1. apply (read_deep _ FI). }
  apply rwp_range; [by rewrite Ev|]. rewrite Ev.
  apply rwp_bind. eapply rwp_mono.
  { apply (rwp_copy m (view m)); [done|done|by apply frame_new|by apply made_new]. }
  intros x b m1 S2 (F2&V2&M2) n2 _. apply rwp_ret; [done|]. split; [done|]. by exists l.
Qed.

Lemma rwp_GetAncestors id m n :
  sep m → rwp m n (hGetAncestors isz σ id) (GetAncestors isz σ id) (λ a b m1, frame m m1 ∧ made_err m m1 CVerts a b).
Proof.
  intros Hs. unfold hGetAncestors, GetAncestors. apply rwp_bind.
  eapply rwp_mono; [by apply rwp_ancestorsOf|]. intros a b m1 S1 [F1 R1] n1 _.
  destruct b as [e|s].
  - simpl in R1. subst a. by apply rwp_ret.
  - destruct R1 as (l&->&Hh). cbn [fst snd]. apply rwp_bind.
    eapply rwp_mono; [by apply rwp_loadFromCache|]. intros a b m2 S2 [F2 M2] n2 _.
    apply rwp_ret; [done|]. split; [by eapply frame_trans|]. exists a. split; [done|].
    by eapply made_earlier.
Qed.

Lemma rwp_walkAncestorsLoop m0 g fuel fifo visited sent l m n :
  sep m → frame m0 m → view m = g → local m0 m l visited →
  rwp m n (hwalkAncestorsLoop σ fuel fifo l sent) (walkAncestorsLoop σ fuel fifo visited sent)
    (λ a b m1, frame m0 m1 ∧ a = b).
Proof.
  revert fifo visited sent m n. induction fuel as [|fuel IH]; intros fifo visited sent m n Hs F V L; [done|].
  cbn [hwalkAncestorsLoop walkAncestorsLoop]. destruct fifo as [|top fifo]; [by apply rwp_ret|].
  apply rwp_get.
  assert (read (inboundEdges (view m)) top = set_of m (inbound m top)) as Ev by apply (read_deep m FI).
  apply rwp_range; [by rewrite Ev|]. rewrite Ev.
  destruct (L) as (E0&E&Ho). eapply rwp_left; [by apply run_queue|by apply view_put_free|].
  destruct (foldl enqueue (fifo, visited) _) as [fifo' visited']; cbn [fst snd].
  apply IH; [by apply sep_put_free|by apply frame_put_free| |by eapply local_put].
  by rewrite view_put_free.
Qed.
Lemma rwp_walkAncestors id m n :
  sep m → rwp m n (hwalkAncestors σ id) (walkAncestors σ id) (λ a b m1, frame m m1 ∧ a = b).
Proof.
  intros Hs. unfold hwalkAncestors, walkAncestors. apply rwp_get.
  apply rwp_new; [done|]. intros l Hl Ho S1 V1 Ho1.
  assert (read (inboundEdges (view m)) id
    = set_of (put m l (CSet ∅)) (inbound (put m l (CSet ∅)) id)) as Ev.
  { rewrite <-V1. apply (read_deep _ FI). }
  apply rwp_range; [by rewrite Ev|]. rewrite Ev.
  eapply rwp_left; [apply run_queue_first, lookup_put_eq|by apply view_put_free|].
  apply rwp_look. rewrite put_put.
  destruct (foldl enqueue_first ([], ∅) _) as [fifo' visited']; cbn [fst snd].
  assert (hfuel_of (put m l (CSet visited')) = fuel_of (view m)) as ->.
  { change (fuel_of (view (put m l (CSet visited'))) = fuel_of (view m)). by rewrite view_put_free. }
  apply (rwp_walkAncestorsLoop m (view m)); [by apply sep_put_free|by apply frame_new|by apply view_put_free|].
  split_and!; [done|apply lookup_put_eq|by rewrite owned_put_free].
Qed.
Lemma rwp_GetOrderedAncestors id m n :
  sep m → rwp m n (hGetOrderedAncestors isz σ id) (GetOrderedAncestors isz σ id) (λ a b m1, frame m m1 ∧ made_err m m1 CSlice a b).
Proof.
  intros Hs. unfold hGetOrderedAncestors, GetOrderedAncestors. apply rwp_check, rwp_get.
  destruct (checkVertexID isz (view m) id).
  { apply rwp_ret; [done|]. split; [apply frame_refl|done]. }
  apply rwp_bind. eapply rwp_mono; [by apply rwp_walkAncestors|].
  intros a b m1 S1 [F1 ->] n1 _. apply rwp_new; [done|]. intros l Hl Ho S2 V2 Ho2.
  eapply rwp_local; [done|done|done|]. split.
  - eapply frame_trans; [done|by apply frame_new].
  - exists l. split; [done|]. eapply made_earlier; [done|by apply made_new].
Qed.
Lemma rwp_GetLeaves m n :
  sep m → rwp m n (hGetLeaves σ) (GetLeaves σ) (λ a b m1, frame m m1 ∧ view m1 = view m ∧ made m m1 a (CVerts b)).
Proof.
  intros Hs. unfold hGetLeaves, GetLeaves. apply rwp_get.
  apply rwp_new; [done|]. intros l Hl Ho S1 V1 Ho1.
  assert (vertices (view m) = verts_at (put m l (CVerts ∅)) (rvertices (this m))) as Ev.
  { by rewrite <-V1. }
  apply rwp_range; [by rewrite Ev|]. rewrite Ev.
  eapply rwp_then.
  { apply (rwp_for _ _ _ _ _ (λ _ b m1, frame m m1 ∧ view m1 = view m ∧ made m m1 l (CVerts b)));
      [|done| |intros a b m1 _ HI; exact HI].
    - intros k [] b m1 n1 S2 (F2&V2&M2). apply rwp_look.
      change (outbound m1 k) with (inner m1 FO k). rewrite <-V2.
      change (outboundEdges (view m1)) with (deep m1 FO). rewrite deep_lookup.
      destruct (inner m1 FO k) as [r|]; cbn [fmap option_fmap option_map].
      + apply rwp_look. destruct (decide _).
        * by apply rwp_copy_vertex.
        * by apply rwp_ret.
      + by apply rwp_copy_vertex.
    - split_and!; [by apply frame_new|done|by apply made_new]. }
  intros x b m1 n2 S2 (F2&V2&M2). by apply rwp_ret.
Qed.

Lemma rwp_GetChildren id m n :
  sep m → rwp m n (hGetChildren isz σ id) (GetChildren isz σ id) (λ a b m1, frame m m1 ∧ made_err m m1 CVerts a b).
Proof.
  intros Hs. unfold hGetChildren, GetChildren. apply rwp_check, rwp_get.
  destruct (checkVertexID isz (view m) id).
  { apply rwp_ret; [done|]. split; [apply frame_refl|done]. }
  apply rwp_new; [done|]. intros l Hl Ho S1 V1 Ho1.
  assert (read (outboundEdges (view m)) id
    = set_of (put m l (CVerts ∅)) (outbound (put m l (CVerts ∅)) id)) as Ev.
  { rewrite <-V1. apply (read_deep _ FO). }
  apply rwp_range; [by rewrite Ev|]. rewrite Ev.
  apply rwp_bind. eapply rwp_mono.
  { apply (rwp_copy m (view m)); [done|done|by apply frame_new|by apply made_new]. }
  intros x b m1 S2 (F2&V2&M2) n2 _. apply rwp_ret; [done|]. split; [done|]. by exists l.
Qed.

Lemma rwp_GetDescendants id m n :
  sep m → rwp m n (hGetDescendants isz σ id) (GetDescendants isz σ id) (λ a b m1, frame m m1 ∧ made_err m m1 CVerts a b).
Proof.
  intros Hs. unfold hGetDescendants, GetDescendants. apply rwp_bind.
  eapply rwp_mono; [by apply rwp_descendantsOf|]. intros a b m1 S1 [F1 R1] n1 _.
  destruct b as [e|s].
  - simpl in R1. subst a. by apply rwp_ret.
  - destruct R1 as (l&->&Hh). cbn [fst snd]. apply rwp_bind.
    eapply rwp_mono; [by apply rwp_loadFromCache|]. intros a b m2 S2 [F2 M2] n2 _.
    apply rwp_ret; [done|]. split; [by eapply frame_trans|]. exists a. split; [done|].
    by eapply made_earlier.
Qed.

Lemma rwp_walkDescendantsLoop m0 g fuel fifo visited sent l m n :
  sep m → frame m0 m → view m = g → local m0 m l visited →
  rwp m n (hwalkDescendantsLoop σ fuel fifo l sent) (walkDescendantsLoop σ fuel fifo visited sent)
    (λ a b m1, frame m0 m1 ∧ a = b).
Proof.
  revert fifo visited sent m n. induction fuel as [|fuel IH]; intros fifo visited sent m n Hs F V L; [done|].
  cbn [hwalkDescendantsLoop walkDescendantsLoop]. destruct fifo as [|top fifo]; [by apply rwp_ret|].
  apply rwp_get.
  assert (read (outboundEdges (view m)) top = set_of m (outbound m top)) as Ev by apply (read_deep m FO).
  apply rwp_range; [by rewrite Ev|]. rewrite Ev.
  destruct (L) as (E0&E&Ho). eapply rwp_left; [by apply run_queue|by apply view_put_free|].
  destruct (foldl enqueue (fifo, visited) _) as [fifo' visited']; cbn [fst snd].
  apply IH; [by apply sep_put_free|by apply frame_put_free| |by eapply local_put].
  by rewrite view_put_free.
Qed.
Lemma rwp_walkDescendants id m n :
  sep m → rwp m n (hwalkDescendants σ id) (walkDescendants σ id) (λ a b m1, frame m m1 ∧ a = b).
Proof.
  intros Hs. unfold hwalkDescendants, walkDescendants. apply rwp_get.
  apply rwp_new; [done|]. intros l Hl Ho S1 V1 Ho1.
  assert (read (outboundEdges (view m)) id
    = set_of (put m l (CSet ∅)) (outbound (put m l (CSet ∅)) id)) as Ev.
  { rewrite <-V1. apply (read_deep _ FO). }
  apply rwp_range; [by rewrite Ev|]. rewrite Ev.
  eapply rwp_left; [apply run_queue_first, lookup_put_eq|by apply view_put_free|].
  apply rwp_look. rewrite put_put.
  destruct (foldl enqueue_first ([], ∅) _) as [fifo' visited']; cbn [fst snd].
  assert (hfuel_of (put m l (CSet visited')) = fuel_of (view m)) as ->.
  { change (fuel_of (view (put m l (CSet visited'))) = fuel_of (view m)). by rewrite view_put_free. }
  apply (rwp_walkDescendantsLoop m (view m)); [by apply sep_put_free|by apply frame_new|by apply view_put_free|].
  split_and!; [done|apply lookup_put_eq|by rewrite owned_put_free].
Qed.
Lemma rwp_GetOrderedDescendants id m n :
  sep m → rwp m n (hGetOrderedDescendants isz σ id) (GetOrderedDescendants isz σ id) (λ a b m1, frame m m1 ∧ made_err m m1 CSlice a b).
Proof.
  intros Hs. unfold hGetOrderedDescendants, GetOrderedDescendants. apply rwp_check, rwp_get.
  destruct (checkVertexID isz (view m) id).
  { apply rwp_ret; [done|]. split; [apply frame_refl|done]. }
  apply rwp_bind. eapply rwp_mono; [by apply rwp_walkDescendants|].
  intros a b m1 S1 [F1 ->] n1 _. apply rwp_new; [done|]. intros l Hl Ho S2 V2 Ho2.
  eapply rwp_local; [done|done|done|]. split.
  - eapply frame_trans; [done|by apply frame_new].
  - exists l. split; [done|]. eapply made_earlier; [done|by apply made_new].
Qed.

(** ** ReduceTransitively and String *)
Lemma rwp_flushCaches m n : sep m → rwp m n hflushCaches flushCaches (λ _ _ m1, frame m m1).
Proof.
  intros Hs.
  set (a := a_cell (dom (cells m))). set (m1 := put m a (CSets ∅)). set (m2 := with_anc m1 a).
  set (d := a_cell (dom (cells m2))). set (m3 := put m2 d (CSets ∅)).
  assert (Ea : cells m !! a = None) by apply not_elem_of_dom, a_free.
  assert (Oa : ¬ owned m a) by by apply fresh_not_owned.
  assert (Ed : cells m2 !! d = None) by apply not_elem_of_dom, a_free.
  destruct (view_with m1 m2 FA a) as (S2&V2&F2);
    [by left|by apply sep_put_free|apply lookup_put_eq|by unfold m1; rewrite owned_put_free|].
  assert (Od : ¬ owned m2 d) by by apply fresh_not_owned.
  destruct (view_with m3 (with_desc m3 d) FD d) as (S4&V4&F4);
    [by right|by apply sep_put_free|apply lookup_put_eq|by unfold m3; rewrite owned_put_free|].
  assert (F02 : frame m m2). { apply F2; [by apply frame_new|done]. }
  apply (rwp_modify_last _ _ (with_desc m3 d)); [done| |done|].
  - etrans; [exact V4|]. unfold m3. rewrite view_put_free by done. rewrite V2.
    unfold m1. by rewrite view_put_free.
  - assert (cells m !! d = None) as E0.
    { destruct (cells m !! d) eqn:E; [|done].
      destruct (fr_dom _ _ F02 d) as [? E']; [by eexists|]. congruence. }
    apply F4; [by apply frame_put_free|done].
Qed.

Lemma rwp_ReduceTransitively m n :
  sep m → rwp m n (hReduceTransitively isz σ) (ReduceTransitively isz σ) (λ _ _ m1, frame m m1).
Proof.
  intros Hs. unfold hReduceTransitively, ReduceTransitively. apply rwp_bind.
  eapply rwp_mono; [by apply rwp_GetRoots|]. intros r roots m1 S1 (F1&V1&_&E1&_) n1 _.
  assert (verts_at m1 r = roots) as Er by (unfold verts_at; by rewrite E1).
  apply rwp_range; [by rewrite Er|]. rewrite Er. apply rwp_bind.
  eapply (rwp_mono _ _ _ _ (λ _ _ m2, frame m m2)).
  { apply (rwp_for _ _ _ _ _ (λ _ _ m2, frame m m2)); [|done|done|done].
    intros k [] [] m2 n2 S2 F2. apply rwp_bind. eapply rwp_mono; [by apply rwp_descendantsOf|].
    intros a b m3 S3 [F3 _] n3 _. apply rwp_ret; [done|]. by eapply frame_trans. }
  intros x y m2 S2 F2 n2 _. cbv beta in *; clear x y r Er E1 roots V1 F1 S1 m1.
  apply rwp_get. apply rwp_range; [done|]. apply rwp_bind.
  eapply (rwp_mono _ _ _ _ (λ a b m3, frame m m3 ∧ a = b)).
  2: { intros a b m3 S3 [F3 ->] n3 _. destruct b; [|by apply rwp_ret].
    eapply rwp_mono; [by apply rwp_flushCaches|]. intros x y m4 S4 F4. by eapply frame_trans. }
  apply (rwp_for _ _ _ _ _ (λ a b m3, frame m m3 ∧ a = b)); [|done|done|done].
  intros id a b m3 n3 S3 [F3 ->]. apply rwp_get.
  apply rwp_new; [done|]. intros l Hl Ho S4 V4 Ho4.
  set (m4 := put m3 l (CSet ∅)) in *.
  assert (read (outboundEdges (view m3)) id = set_of m4 (outbound m4 id)) as Ev.
  { rewrite <-V4. apply (read_deep _ FO). }
  apply rwp_range; [by rewrite Ev|]. rewrite Ev. apply rwp_bind.
  eapply (rwp_mono _ _ _ _ (λ _ s m5, frame m3 m5 ∧ local m3 m5 l s)).
  { apply (rwp_for _ _ _ _ _ (λ _ s m5, frame m3 m5 ∧ local m3 m5 l s)); [|done| |done].
    2: { split; [by apply frame_new|by apply local_new]. }
    intros c [] s m5 n5 S5 [F5 L5]. apply rwp_get.
    assert (read (descendantsCache (view m5)) c = set_of m5 (desc m5 c)) as Ec by apply (read_deep m5 FD).
    apply rwp_range; [by rewrite Ec|]. rewrite Ec. destruct (L5) as (E0&E5&O5).
    eapply rwp_local; [by apply run_add_all|by apply view_put_free|by apply sep_put_free|].
    split; [by apply frame_put_free|by eapply local_put]. }
  intros x cd m5 S5 [F5 L5] n5 _. clear x. apply rwp_get.
  assert (read (outboundEdges (view m5)) id = set_of m5 (outbound m5 id)) as E5 by apply (read_deep m5 FO).
  apply rwp_range; [by rewrite E5|]. rewrite E5.
  apply (rwp_for _ _ _ _ _ (λ a b m6, (frame m3 m6 ∧ local m3 m6 l cd) ∧ a = b)); [|done|done|].
  2: { intros a b' m6 S6 [[F6 _] ->]. split; [by eapply frame_trans|done]. }
  intros c a b' m6 n6 S6 [[F6 L6] ->]. destruct (L6) as (_&E6&_).
  eapply rwp_left; [done|done|].
  assert (set_of m6 (Some l) = cd) as -> by (simpl; unfold set_at; by rewrite E6).
  destruct (set_includes cd c); [|by apply rwp_ret].
  apply rwp_look. apply rwp_bind. eapply rwp_mono; [apply (rwp_delete FO); auto|].
  intros x y m7 S7 F7 n7 _. cbv beta in *; clear x y. apply rwp_look. apply rwp_bind.
  eapply rwp_mono; [apply (rwp_delete FI); auto|].
  intros x y m8 S8 F8 n8 _. cbv beta in *; clear x y. apply rwp_ret; [done|].
  pose proof (frame_trans _ _ _ F7 F8) as F78.
  split; [|done]. split; [by eapply frame_trans|by eapply local_frame].
Qed.

Lemma rwp_String show m n :
  sep m → rwp m n (hString σ show) (StringOf σ show) (λ a b m1, m1 = m ∧ a = b).
Proof.
  intros Hs. unfold hString, StringOf. apply rwp_bind.
  eapply rwp_mono; [by apply rwp_GetOrder|]. intros a order m1 S1 [-> ->] n1 _. apply rwp_bind.
  eapply rwp_mono; [by apply rwp_GetSize|]. intros a sz m2 S2 [-> ->] n2 _. cbv zeta.
  apply rwp_get. apply rwp_range; [done|]. apply rwp_bind.
  eapply (rwp_mono _ _ _ _ (λ a b m1, m1 = m ∧ a = b)).
  { apply (rwp_for _ _ _ _ _ (λ a b m1, m1 = m ∧ a = b)); [|done|done|done].
    intros k a b m3 n3 S3 [-> ->]. by apply rwp_ret. }
  intros a sb m3 S3 [-> ->] n3 _.
  apply rwp_range; [apply (range_deep m FO)|].
  change (routbound (this m)) with (outer (this m) FO). rewrite range_deep.
  apply (rwp_for _ _ _ _ _ (λ a b m1, m1 = m ∧ a = b)); [|done|done|done].
  intros k a b m4 n4 S4 [-> ->].
  assert (read (outboundEdges (view m)) k = set_of m (outbound m k)) as Ev by apply (read_deep m FO).
  apply rwp_range; [by rewrite Ev|]. rewrite Ev.
  apply (rwp_for _ _ _ _ _ (λ a b m1, m1 = m ∧ a = b)); [|done|done|done].
  intros c a b' m5 n5 S5 [-> ->]. by apply rwp_ret.
Qed.

(** ** Every call *)
(** The references in a result are to cells that were made for it. *)
Definition given_out m m1 (r : hout K T) : Prop :=
  ∀ l, l ∈ refs r → cells m !! l = None ∧ is_Some (cells m1 !! l) ∧ ¬ owned m1 l.

Lemma rwp_mapM {A B A' B'} (h : A → A') (h' : B → B') m n (x : HM A) (y : M B) Q
    (Q' : A' → B' → mem → Prop) :
  rwp m n x y Q → (∀ a b m1, sep m1 → Q a b m1 → Q' (h a) (h' b) m1) →
  rwp m n (hmapM h x) (mapM h' y) Q'.
Proof.
  intros Hr HQ. apply rwp_bind. eapply rwp_mono; [done|].
  intros a b m1 S1 H1 n1 _. apply rwp_ret; auto.
Qed.
Lemma made_given m m1 l c : made m m1 l c → given_out m m1 (HMap l).
Proof. intros (E0&E&Ho) x Hx. apply elem_of_list_singleton in Hx as ->. eauto. Qed.

Lemma rwp_exec o m n :
  sep m →
  rwp m n (hexec isz σ o) (exec isz σ o)
    (λ r b m1, frame m m1 ∧ read_out m1 r = b ∧ given_out m m1 r).
Proof.
  intros Hs.
  assert (∀ a b m1, frame m m1 ∧ made_err m m1 CVerts a b →
    frame m m1 ∧ read_out m1 (HMapErr a) = RMapErr b ∧ given_out m m1 (HMapErr a)) as HME.
  { intros a [e|b] m1 [F M]; simpl in M.
    - subst a. split_and!; [done|done|]. intros l Hl. by apply elem_of_nil in Hl.
    - destruct M as (l&->&M). split_and!; [done| |by apply made_given in M].
      destruct M as (_&E&_). simpl. unfold verts_at. by rewrite E. }
  assert (∀ a b m1, frame m m1 ∧ made_err m m1 CSlice a b →
    frame m m1 ∧ read_out m1 (HList a) = RList b ∧ given_out m m1 (HList a)) as HLE.
  { intros a [e|b] m1 [F M]; simpl in M.
    - subst a. split_and!; [done|done|]. intros l Hl. by apply elem_of_nil in Hl.
    - destruct M as (l&->&M). split_and!; [done| |by apply made_given in M].
      destruct M as (_&E&_). simpl. unfold slice_at. by rewrite E. }
  assert (∀ a b m1, frame m m1 → made m m1 a (CVerts b) →
    frame m m1 ∧ read_out m1 (HMap a) = RMap b ∧ given_out m m1 (HMap a)) as HM'.
  { intros a b m1 F M. split_and!; [done| |by eapply made_given].
    destruct M as (_&E&_). simpl. unfold verts_at. by rewrite E. }
  assert (∀ (r : hout K T) m1, refs r = [] → given_out m m1 r) as Hn.
  { intros r m1 E l Hl. rewrite E in Hl. by apply elem_of_nil in Hl. }
  destruct o; cbn [hexec exec].
  - eapply rwp_mapM; [by apply rwp_AddVertex|]. intros a b m1 _ [F ->]. auto.
  - eapply rwp_mapM; [by apply run_GetVertex|]. intros a b m1 _ [F ->]. auto.
  - eapply rwp_mapM; [by apply rwp_DeleteVertex|]. intros a b m1 _ [F ->]. auto.
  - eapply rwp_mapM; [by apply rwp_AddEdge|]. intros a b m1 _ [F ->]. auto.
  - eapply rwp_mapM; [by apply rwp_IsEdge|]. intros a b m1 _ [F ->]. auto.
  - eapply rwp_mapM; [by apply rwp_DeleteEdge|]. intros a b m1 _ [F ->]. auto.
  - eapply rwp_mapM; [by apply rwp_GetOrder|]. intros a b m1 _ [-> ->]. auto using frame_refl.
  - eapply rwp_mapM; [by apply rwp_GetSize|]. intros a b m1 _ [-> ->]. auto using frame_refl.
  - eapply rwp_mapM; [by apply rwp_GetLeaves|]. intros a b m1 _ (F&_&M). auto.
  - eapply rwp_mapM; [by apply rwp_GetRoots|]. intros a b m1 _ (F&_&M). auto.
  - eapply rwp_mapM; [by apply rwp_GetVertices|]. intros a b m1 _ (F&M). auto.
  - eapply rwp_mapM; [by apply rwp_GetParents|]. auto.
  - eapply rwp_mapM; [by apply rwp_GetChildren|]. auto.
  - eapply rwp_mapM; [by apply rwp_GetAncestors|]. auto.
  - eapply rwp_mapM; [by apply rwp_GetOrderedAncestors|]. auto.
  - eapply rwp_mapM; [by apply rwp_GetDescendants|]. auto.
  - eapply rwp_mapM; [by apply rwp_GetOrderedDescendants|]. auto.
  - eapply rwp_mapM; [by apply rwp_ReduceTransitively|]. intros a b m1 _ F. auto.
  - eapply rwp_mapM; [by apply rwp_String|]. intros a b m1 _ [-> ->]. auto using frame_refl.
Qed.

End proofs.
