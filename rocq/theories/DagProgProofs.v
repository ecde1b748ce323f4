(** * A program of accesses that runs alone does what [DagMem] says *)
From stdpp Require Import base list gmap strings pretty.
From Verif Require Import GoBase SetModel DagModel DagMem DagProg.

Section proofs.
Context {K T : Type} `{Countable K} `{Inhabited T} `{A0 : Alloc}.
Context (isz : K → bool) (σ : schedule K).
Notation prog := (prog K T).
Notation mem := (mem K T).
Notation HM := (HM (K:=K) (T:=T)).

Definition eqv {A} (p : prog A) (h : HM A) : Prop := ∀ m n, alone σ p m n = h m n.
Infix "≃" := eqv (at level 70).

Lemma alone_bind {A B} (p : prog A) (f : A → prog B) m n :
  alone σ (pbind p f) m n = hbind (alone σ p) (λ a, alone σ (f a)) m n.
Proof.
  unfold hbind. revert m n. induction p as [a| | |l k IH|l c k IH|c k IH|k IH|u k IH|ks k IH|k IH]; intros m n; cbn [pbind alone]; done.
Qed.
Lemma e_bind {A B} (p : prog A) (h : HM A) (f : A → prog B) k : p ≃ h → (∀ a, f a ≃ k a) → pbind p f ≃ hbind h k.
Proof.
  intros Hp Hf m n. rewrite alone_bind. unfold hbind. rewrite Hp. destruct (h m n) as [[[a m'] n']| |]; [apply Hf|done|done].
Qed.
Lemma e_trans {A} (p : prog A) (h h' : HM A) : p ≃ h → (∀ m n, h m n = h' m n) → p ≃ h'.
Proof. intros H1 H2 m n. by rewrite H1. Qed.
Lemma bind_ret {A} (p : prog A) m n : alone σ (pbind p Ret) m n = alone σ p m n.
Proof. rewrite alone_bind. unfold hbind. by destruct (alone σ p m n) as [[[a m'] n']| |]. Qed.
Lemma e_ret {A} (a : A) : Ret a ≃ hret a.
Proof. done. Qed.
Lemma e_new c : pnew c ≃ new c.
Proof. done. Qed.
Lemma e_for {A B} (l : list B) (body : A → B → prog A) hb acc : (∀ a x, body a x ≃ hb a x) → pfor l body acc ≃ hfor l hb acc.
Proof. intros Hb. revert acc. induction l as [|x l IH]; intros acc; [done|]. cbn [pfor hfor]. by apply e_bind. Qed.
Lemma e_payload id : ppayload id ≃ look (λ m, payload m id).
Proof. done. Qed.
Lemma e_in id : pinner rinbound id ≃ look (λ m, inbound m id).
Proof. done. Qed.
Lemma e_out id : pinner routbound id ≃ look (λ m, outbound m id).
Proof. done. Qed.
Lemma e_anc id : pinner ranc id ≃ look (λ m, anc m id).
Proof. done. Qed.
Lemma e_desc id : pinner rdesc id ≃ look (λ m, desc m id).
Proof. done. Qed.
Lemma e_set_of s : pset_of s ≃ look (λ m, set_of m s).
Proof. by destruct s. Qed.
Lemma e_set_at l : pset_of (Some l) ≃ look (λ m, set_at m l).
Proof. done. Qed.
Lemma e_verts_at l : pverts_at l ≃ look (λ m, verts_at m l).
Proof. done. Qed.
Lemma e_add s v : pAdd s v ≃ Add s v.
Proof. by destruct s. Qed.
Lemma e_delete s v : pDelete s v ≃ Delete s v.
Proof. by destruct s. Qed.
Lemma e_includes s v : pIncludes s v ≃ Includes s v.
Proof. by destruct s. Qed.
Lemma e_unset f id : punset f id ≃ unset f id.
Proof. done. Qed.
Lemma e_store f id s : pstore f id s ≃ store f id s.
Proof. done. Qed.
Lemma e_put l c : pput l c ≃ write l c.
Proof. done. Qed.
Lemma e_again {A} s (p : prog A) h : p ≃ h → again s p ≃ h.
Proof. by destruct s. Qed.
(** Loops *)
Lemma e_order {A} (ks : list K) (f : list K → prog A) (k : list K → HM A) : (∀ ks, f ks ≃ k ks) → Order ks f ≃ (λ m n, k (σ n ks) m (S n)).
Proof. intros Hf m n. apply Hf. Qed.
Lemma e_range {A} s F (body : A → K → prog A) hb acc : (∀ m, F m = set_of m s) → (∀ a x, body a x ≃ hb a x) →
  prange s body acc ≃ hbind (hbind (look F) (hloops σ)) (λ ks, hfor ks hb acc).
Proof.
  intros HF Hb m n. unfold prange. rewrite alone_bind. unfold hbind. rewrite e_set_of. unfold look, hloops, range_keys. rewrite HF. apply e_for. intros a x. by apply e_again.
Qed.
Lemma e_rangev {A} s F (body : A → K → prog A) hb acc : (∀ m, F m = set_of m s) → (∀ a x, body a x ≃ hb a x) →
  prangev s body acc ≃ hbind (hbind (look F) (hloopsv σ)) (λ ks, hfor ks hb acc).
Proof.
  intros HF Hb m n. unfold prangev. rewrite alone_bind. unfold hbind. rewrite e_set_of. unfold look, hloopsv, range_vals, range_keys. rewrite HF. apply e_for. intros a x. by apply e_again.
Qed.
Lemma e_range_in {A} f id F (body : A → K → prog A) hb acc : (∀ m, F m = set_of m (sets_at m (f (this m)) !! id)) → (∀ a x, body a x ≃ hb a x) →
  prange_in f id body acc ≃ hbind (hbind (look F) (hloops σ)) (λ ks, hfor ks hb acc).
Proof.
  intros HF Hb m n. transitivity (alone σ (prange (sets_at m (f (this m)) !! id) body acc) m n); [done|].
  rewrite (e_range _ (λ m', set_of m' (sets_at m (f (this m)) !! id)) body hb acc) by done. unfold hbind, look, hloops. by rewrite HF.
Qed.
Lemma e_range_verts {A} l F (body : A → K → prog A) hb acc : (∀ m, F m = verts_at m l) → (∀ a x, body a x ≃ hb a x) →
  prange_verts l body acc ≃ hbind (hbind (look F) (hloops σ)) (λ ks, hfor ks hb acc).
Proof.
  intros HF Hb m n. unfold prange_verts. rewrite alone_bind. unfold hbind. rewrite e_verts_at. unfold look, hloops, range_keys. rewrite HF. apply e_for. intros a x. by apply e_again.
Qed.
Lemma e_range_vertices {A} F (body : A → K → prog A) hb acc : (∀ m, F m = verts_at m (rvertices (this m))) → (∀ a x, body a x ≃ hb a x) →
  prange_vertices body acc ≃ hbind (hbind (look F) (hloops σ)) (λ ks, hfor ks hb acc).
Proof.
  intros HF Hb m n. transitivity (alone σ (prange_verts (rvertices (this m)) body acc) m n); [done|].
  rewrite (e_range_verts _ (λ m', verts_at m' (rvertices (this m))) body hb acc) by done. unfold hbind, look, hloops. by rewrite HF.
Qed.
Lemma e_range_sets {A} f F (body : A → K → prog A) hb acc : (∀ m, F m = sets_at m (f (this m))) → (∀ a x, body a x ≃ hb a x) →
  prange_sets f body acc ≃ hbind (hbind (look F) (hloops σ)) (λ ks, hfor ks hb acc).
Proof.
  intros HF Hb m n. unfold prange_sets. cbn [alone]. unfold hbind, look, hloops, range_keys. rewrite HF. apply e_for. intros a x. by apply e_again.
Qed.
(** A loop and what follows it *)
Lemma e_assoc {A B C} (p : prog A) (h : HM B) (g : B → HM A) (f : A → prog C) k :
  p ≃ hbind h g → (∀ a, f a ≃ k a) → pbind p f ≃ hbind h (λ x, hbind (g x) k).
Proof.
  intros Hp Hf m n. rewrite alone_bind. unfold hbind at 1. rewrite Hp. unfold hbind. destruct (h m n) as [[[b m'] n']| |]; [|done|done].
  destruct (g b m' n') as [[[a m''] n'']| |]; [apply Hf|done|done].
Qed.

Ltac leaf := first
  [ apply e_ret | apply e_new | apply e_payload | apply e_in | apply e_out | apply e_anc | apply e_desc | apply e_set_at | apply e_set_of | apply e_verts_at
  | apply e_add | apply e_delete | apply e_includes | apply e_unset | apply e_store | apply e_put ].
Ltac loop := first
  [ apply e_range_in; [done|intros ? ?] | apply e_range; [done|intros ? ?] | apply e_rangev; [done|intros ? ?]
  | apply e_range_vertices; [done|intros ? ?] | apply e_range_verts; [done|intros ? ?] | apply e_range_sets; [done|intros ? ?] ].
Ltac go := repeat first
  [ leaf | loop | apply e_assoc; [loop|intros ?] | apply e_bind; [|intros ?]
  | match goal with |- (match ?x with _ => _ end) ≃ _ => destruct x end ].

Lemma e_check id : pcheckVertexID isz id ≃ hcheckVertexID isz id.
Proof. intros m n. unfold pcheckVertexID, hcheckVertexID, look. by destruct (isz id). Qed.
Lemma e_check_edge s t : pcheckEdgeIDs isz s t ≃ hcheckEdgeIDs isz s t.
Proof.
  intros m n. unfold pcheckEdgeIDs, hcheckEdgeIDs, look. destruct (isz s), (isz t); try done. destruct (decide (s = t)); [done|].
  rewrite alone_bind. unfold hbind. rewrite e_payload. unfold look. by destruct (payload m s).
Qed.
Lemma e_AddVertex id v : pAddVertex isz id v ≃ hAddVertex isz id v.
Proof.
  unfold pAddVertex, hAddVertex. destruct (isz id); [apply e_ret|]. apply e_bind; [apply e_payload|]. intros []; [apply e_ret|]. done.
Qed.
Lemma e_GetVertex id : pGetVertex isz id ≃ hGetVertex isz id.
Proof. unfold pGetVertex, hGetVertex. apply e_bind; [apply e_check|]. intros ?. go. Qed.
Lemma e_getAncestorsIDs fuel : ∀ id, pgetIDs isz rinbound ranc fuel id ≃ hgetAncestorsIDs isz σ fuel id.
Proof. induction fuel as [|fuel IH]; intros id; [done|]. cbn [pgetIDs hgetAncestorsIDs]. apply e_bind; [apply e_check|]. intros ?. go. apply IH. Qed.
Lemma e_getDescendantsIDs fuel : ∀ id, pgetIDs isz routbound rdesc fuel id ≃ hgetDescendantsIDs isz σ fuel id.
Proof. induction fuel as [|fuel IH]; intros id; [done|]. cbn [pgetIDs hgetDescendantsIDs]. apply e_bind; [apply e_check|]. intros ?. go. apply IH. Qed.
Lemma e_ancestorsOf id : pancestorsOf isz id ≃ hancestorsOf isz σ id.
Proof. intros m n. apply e_getAncestorsIDs. Qed.
Lemma e_descendantsOf id : pdescendantsOf isz id ≃ hdescendantsOf isz σ id.
Proof. intros m n. apply e_getDescendantsIDs. Qed.
Lemma e_IsEdge s t : pIsEdge isz s t ≃ hIsEdge isz s t.
Proof. unfold pIsEdge, hIsEdge. apply e_bind; [apply e_check_edge|]. intros ?. go. Qed.
Ltac go' := repeat first [ progress go | apply e_check | apply e_check_edge | apply e_IsEdge | apply e_ancestorsOf | apply e_descendantsOf ].
Lemma e_DeleteVertex id : pDeleteVertex isz id ≃ hDeleteVertex isz σ id.
Proof. unfold pDeleteVertex, hDeleteVertex. go'. done. Qed.
Lemma e_AddEdge s t : pAddEdge isz s t ≃ hAddEdge isz σ s t.
Proof. unfold pAddEdge, hAddEdge. go'. Qed.
Lemma e_DeleteEdge s t : pDeleteEdge isz s t ≃ hDeleteEdge isz σ s t.
Proof. unfold pDeleteEdge, hDeleteEdge. go'. Qed.
Lemma e_GetOrder : pGetOrder ≃ hGetOrder.
Proof. done. Qed.
Lemma e_GetSize : pGetSize ≃ hGetSize σ.
Proof. unfold pGetSize, hGetSize. apply e_range_sets; [done|]. intros a x m n. transitivity (alone σ (pbind (pset_of (outbound m x)) (λ st, Ret (a + size st))) m n); [done|].
  rewrite alone_bind. unfold hbind. by rewrite e_set_of. Qed.
Lemma e_copy l k : pcopy_vertex l k ≃ copy_vertex l k.
Proof. done. Qed.
Ltac go'' := repeat first [ progress go' | apply e_copy ].
Lemma e_GetLeaves : pGetLeaves ≃ hGetLeaves σ.
Proof. unfold pGetLeaves, hGetLeaves. go''. Qed.
Lemma e_GetRoots : pGetRoots ≃ hGetRoots σ.
Proof. unfold pGetRoots, hGetRoots. go''. Qed.
Lemma e_GetVertices : pGetVertices ≃ hGetVertices σ.
Proof. unfold pGetVertices, hGetVertices. go''. Qed.
Lemma e_GetParents id : pGetParents isz id ≃ hGetParents isz σ id.
Proof. unfold pGetParents, pneighbours, hGetParents. go''. Qed.
Lemma e_GetChildren id : pGetChildren isz id ≃ hGetChildren isz σ id.
Proof. unfold pGetChildren, pneighbours, hGetChildren. go''. Qed.
Lemma e_load c : ploadFromCache c ≃ hloadFromCache σ c.
Proof. unfold ploadFromCache, hloadFromCache. go''. Qed.
Lemma e_GetAncestors id : pGetAncestors isz id ≃ hGetAncestors isz σ id.
Proof. unfold pGetAncestors, hGetAncestors. apply e_bind; [apply e_ancestorsOf|]. intros r. destruct r.2; [apply e_ret|]. apply e_bind; [apply e_load|]. intros. apply e_ret. Qed.
Lemma e_GetDescendants id : pGetDescendants isz id ≃ hGetDescendants isz σ id.
Proof. unfold pGetDescendants, hGetDescendants. apply e_bind; [apply e_descendantsOf|]. intros r. destruct r.2; [apply e_ret|]. apply e_bind; [apply e_load|]. intros. apply e_ret. Qed.
Lemma e_queue v fifo p : pqueue v fifo p ≃ hqueue v fifo p.
Proof. unfold pqueue, hqueue. go''. Qed.
Lemma e_queue_first v fifo p : pqueue_first v fifo p ≃ hqueue_first v fifo p.
Proof. unfold pqueue_first, hqueue_first. go''. Qed.
Lemma e_walkAncestorsLoop fuel : ∀ fifo v sent, pwalkLoop rinbound fuel fifo v sent ≃ hwalkAncestorsLoop σ fuel fifo v sent.
Proof.
  induction fuel as [|fuel IH]; intros fifo v sent; [done|]. cbn [pwalkLoop hwalkAncestorsLoop]. destruct fifo as [|top fifo]; [apply e_ret|].
  apply e_assoc; [apply e_range_in; [done|apply e_queue]|]. intros. apply IH.
Qed.
Lemma e_walkDescendantsLoop fuel : ∀ fifo v sent, pwalkLoop routbound fuel fifo v sent ≃ hwalkDescendantsLoop σ fuel fifo v sent.
Proof.
  induction fuel as [|fuel IH]; intros fifo v sent; [done|]. cbn [pwalkLoop hwalkDescendantsLoop]. destruct fifo as [|top fifo]; [apply e_ret|].
  apply e_assoc; [apply e_range_in; [done|apply e_queue]|]. intros. apply IH.
Qed.
Lemma e_walkAncestors id : pwalk rinbound id ≃ hwalkAncestors σ id.
Proof.
  unfold pwalk, hwalkAncestors. apply e_bind; [apply e_new|]. intros v. apply e_assoc; [apply e_range_in; [done|apply e_queue_first]|].
  intros fifo m n. apply e_walkAncestorsLoop.
Qed.
Lemma e_walkDescendants id : pwalk routbound id ≃ hwalkDescendants σ id.
Proof.
  unfold pwalk, hwalkDescendants. apply e_bind; [apply e_new|]. intros v. apply e_assoc; [apply e_range_in; [done|apply e_queue_first]|].
  intros fifo m n. apply e_walkDescendantsLoop.
Qed.
Lemma e_GetOrderedAncestors id : pGetOrderedAncestors isz id ≃ hGetOrderedAncestors isz σ id.
Proof. unfold pGetOrderedAncestors, pordered, hGetOrderedAncestors. apply e_bind; [apply e_check|]. intros [e|]; [apply e_ret|]. apply e_bind; [apply e_walkAncestors|]. intros. go''. Qed.
Lemma e_GetOrderedDescendants id : pGetOrderedDescendants isz id ≃ hGetOrderedDescendants isz σ id.
Proof. unfold pGetOrderedDescendants, pordered, hGetOrderedDescendants. apply e_bind; [apply e_check|]. intros [e|]; [apply e_ret|]. apply e_bind; [apply e_walkDescendants|]. intros. go''. Qed.
Lemma e_flush : pflushCaches ≃ hflushCaches.
Proof. done. Qed.
Lemma e_Reduce : pReduceTransitively isz ≃ hReduceTransitively isz σ.
Proof. unfold pReduceTransitively, hReduceTransitively. apply e_bind; [apply e_GetRoots|]. intros roots. go''; done. Qed.
Lemma e_String show : pString show ≃ hString σ show.
Proof. unfold pString, hString. apply e_bind; [apply e_GetOrder|]. intros order. apply e_bind; [apply e_GetSize|]. intros size_. go''. Qed.
Lemma e_map {A B} (f : A → B) p h : p ≃ h → pmap f p ≃ hmapM f h.
Proof. intros Hp. apply e_bind; [done|]. intros. apply e_ret. Qed.
(** Every call *)
Lemma call_alone (o : op K T) (m : mem) n : alone σ (pcall isz o) m n = hexec isz σ o m n.
Proof.
  destruct o; cbn [pcall hexec]; apply e_map; first
    [ apply e_AddVertex | apply e_GetVertex | apply e_DeleteVertex | apply e_AddEdge | apply e_IsEdge | apply e_DeleteEdge | apply e_GetOrder | apply e_GetSize
    | apply e_GetLeaves | apply e_GetRoots | apply e_GetVertices | apply e_GetParents | apply e_GetChildren | apply e_GetAncestors | apply e_GetOrderedAncestors
    | apply e_GetDescendants | apply e_GetOrderedDescendants | apply e_Reduce | apply e_String ].
Qed.
End proofs.
