(** * The properties of Clone, Children and UpdateParentRefs of pkg/etx

    [h] is any memory, [t] any node in it: [typed t] says that its fields have their Go
    types, [holds h t] that the memory holds it.  The natural number is a bound for the
    depth of the recursion. *)
From stdpp Require Import base list option strings gmap.
From Verif Require Import GoBase EtxAst EtxHeap EtxHeapSpec EtxPlace EtxHeapPropProofs EtxHeapExample.

Theorem C25_clone_is_a_structural_copy n h (t : mnode) :
  typed t = true → holds h t → height t ≤ n →
  ∃ h' t', Clone n (addr (ann t)) h = Ok (addr (ann t'), h') ∧ holds h' t' ∧ strip t' = strip t.
Proof. exact (p25 n h t). Qed.
Example C25_example :
  typed (mem plain_file) = true ∧ holds (heap_of (mem plain_file)) (mem plain_file) ∧
  height (mem plain_file) ≤ 40 ∧ length (nodes (mem plain_file)) = 39.
Proof. checks. Qed.
Print Assumptions C25_clone_is_a_structural_copy.

Theorem C48_clone_leaves_memory_unchanged n l h l' h' :
  Clone n l h = Ok (l', h') → ∀ x c, h !! x = Some c → h' !! x = Some c.
Proof. exact (p48 n l h l' h'). Qed.
Example C48_example :
  match Clone 40 (addr (ann (mem plain_file))) (heap_of (mem plain_file)) with
  | Ok (l', _) => l' | _ => 1%positive end ≠ 1%positive.
Proof. intros E. vm_compute in E. discriminate E. Qed.
Print Assumptions C48_clone_leaves_memory_unchanged.

Theorem C48_clone_leaves_its_source_unchanged n h (t : mnode) l' h' :
  holds h t → Clone n (addr (ann t)) h = Ok (l', h') → holds h' t.
Proof. exact (p48b n h t l' h'). Qed.
Example C48_source_example :
  holds (heap_of (mem typed_decl)) (mem typed_decl) ∧
  is_Ok (Clone 20 (addr (ann (mem typed_decl))) (heap_of (mem typed_decl))) = true.
Proof. checks. Qed.
Print Assumptions C48_clone_leaves_its_source_unchanged.

(** Missing: nodes with a Heredoc in a Value or a Type in a FuncDecl somewhere; for
    them it is false (C26_clone_is_deep_refuted).  Full statement: the same without the
    hypothesis [no_sharing t]. *)
Theorem C26_clone_is_deep_partial n h (t : mnode) l' h' :
  typed t = true → holds h t → height t ≤ n → no_sharing t →
  Clone n (addr (ann t)) h = Ok (l', h') →
  ∃ t', addr (ann t') = l' ∧ holds h' t' ∧
    (∀ x, x ∈ addrs t → x ∉ addrs t') ∧
    (∀ h2, (∀ x, x ∉ addrs t → h2 !! x = h' !! x) → holds h2 t') ∧
    (∀ h2, (∀ x, x ∉ addrs t' → h2 !! x = h' !! x) → holds h2 t).
Proof. exact (p26 n h t l' h'). Qed.
Example C26_example :
  typed (mem plain_file) = true ∧ holds (heap_of (mem plain_file)) (mem plain_file) ∧
  height (mem plain_file) ≤ 40 ∧ no_sharing (mem plain_file) ∧
  is_Ok (Clone 40 (addr (ann (mem plain_file))) (heap_of (mem plain_file))) = true.
Proof. checks. Qed.
Print Assumptions C26_clone_is_deep_partial.

(** What the clone has in common with the memory that existed before is [shared t]:
    the Type of each FuncDecl, and what the Heredoc of a Value refers to. *)
Theorem C52_clone_shares_exactly n h (t : mnode) l' h' :
  typed t = true → holds h t → height t ≤ n → Clone n (addr (ann t)) h = Ok (l', h') →
  ∃ t', addr (ann t') = l' ∧ holds h' t' ∧ (∀ x, x ∈ addrs t' ∧ x ∈ dom h ↔ x ∈ shared t) ∧
    (NoDup (addrs t) → NoDup (addrs t')).
Proof. exact (p52 n h t l' h'). Qed.
Example C52_example :
  typed (mem typed_decl) = true ∧ holds (heap_of (mem typed_decl)) (mem typed_decl) ∧
  height (mem typed_decl) ≤ 20 ∧ length (shared (mem typed_decl)) = 3 ∧
  is_Ok (Clone 20 (addr (ann (mem typed_decl))) (heap_of (mem typed_decl))) = true.
Proof. checks. Qed.
Print Assumptions C52_clone_shares_exactly.

(** Missing: as for C26.  Full statement: the same without [no_sharing t]. *)
Theorem C27_clone_drops_parents_partial n h (t : mnode) l' h' :
  typed t = true → holds h t → height t ≤ n → no_sharing t →
  Clone n (addr (ann t)) h = Ok (l', h') →
  ∃ t', addr (ann t') = l' ∧ holds h' t' ∧ ∀ m, m ∈ nodes t' → par (ann m) = None.
Proof. exact (p27 n h t l' h'). Qed.
Example C27_example :
  typed (mem_p plain_file) = true ∧ holds (heap_of (mem_p plain_file)) (mem_p plain_file) ∧
  height (mem_p plain_file) ≤ 40 ∧ no_sharing (mem_p plain_file) ∧
  par (ann (mem_p plain_file)) = Some 1000%positive ∧
  is_Ok (Clone 40 (addr (ann (mem_p plain_file))) (heap_of (mem_p plain_file))) = true.
Proof. checks. Qed.
Print Assumptions C27_clone_drops_parents_partial.

(** A clone itself has no parent.  A node in it has one only if the node is shared with
    the source (so has the parent it has there) or is the copy of a Heredoc of a Value,
    whose parent it takes over; and all these Heredocs are copied. *)
Theorem C53_parents_in_a_clone n h (t : mnode) l' h' :
  typed t = true → holds h t → height t ≤ n → Clone n (addr (ann t)) h = Ok (l', h') →
  ∃ t', addr (ann t') = l' ∧ holds h' t' ∧ par (ann t') = None ∧
    (∀ m, m ∈ nodes t' → par (ann m) = None ∨ addr (ann m) ∈ shared t ∨
       ∃ m0, m0 ∈ copied t ∧ strip m = strip m0 ∧ par (ann m) = par (ann m0)) ∧
    (∀ m0, m0 ∈ copied t → ∃ m, m ∈ nodes t' ∧ strip m = strip m0 ∧ par (ann m) = par (ann m0) ∧
       addr (ann m) ∉ dom h).
Proof. exact (p53 n h t l' h'). Qed.
Example C53_example :
  typed (mem_p heredoc_value) = true ∧ holds (heap_of (mem_p heredoc_value)) (mem_p heredoc_value) ∧
  height (mem_p heredoc_value) ≤ 20 ∧ length (copied (mem_p heredoc_value)) = 1 ∧
  is_Ok (Clone 20 (addr (ann (mem_p heredoc_value))) (heap_of (mem_p heredoc_value))) = true.
Proof. checks. Qed.
Print Assumptions C53_parents_in_a_clone.

(** Missing: an ExprPostfix with a Post, for which it is false
    (C28_children_are_the_sub_nodes_refuted).  Full statement: the same without the
    hypothesis on Post. *)
Theorem C28_children_are_the_sub_nodes_partial h (t : mnode) :
  typed t = true → holds h t → exclusive t → no_nil_items t →
  (kind_of t = KExprPostfix → get FPost t = Some (VPtr None)) →
  ∃ l, Children (addr (ann t)) h = Ok (Some <$> l, h) ∧ l ≡ₚ sub_addrs t.
Proof. exact (p28 h t). Qed.
Example C28_example :
  typed (mem plain_file) = true ∧ holds (heap_of (mem plain_file)) (mem plain_file) ∧
  exclusive (mem plain_file) ∧ no_nil_items (mem plain_file) ∧ length (sub_addrs (mem plain_file)) = 2.
Proof. checks. Qed.
Print Assumptions C28_children_are_the_sub_nodes_partial.

(** For each type of node there is a list of fields, without repetition, and Children
    is the concatenation of what these fields hold. *)
Theorem C28_children_have_a_fixed_order :
  ∃ order : kind → list fld, (∀ k, NoDup (order k)) ∧
  ∀ h (t : mnode), typed t = true → holds h t → exclusive t → no_nil_items t →
  Children (addr (ann t)) h =
    Ok (Some <$> flat_map (λ f, match get f t with
                                | Some v => addr ∘ ann <$> val_subs v | None => [] end) (order (kind_of t)), h).
Proof. exact (p28o). Qed.
Example C28_order_example :
  typed (mem typed_decl) = true ∧ holds (heap_of (mem typed_decl)) (mem typed_decl) ∧
  exclusive (mem typed_decl) ∧ no_nil_items (mem typed_decl) ∧ length (sub_addrs (mem typed_decl)) = 2.
Proof. checks. Qed.
Print Assumptions C28_children_have_a_fixed_order.

(** ExprPostfix.Post is what Children leaves out, and nothing else. *)
Theorem C54_children_without_post h (t : mnode) :
  typed t = true → holds h t → exclusive t → no_nil_items t →
  ∃ l, Children (addr (ann t)) h = Ok (Some <$> l, h) ∧
  l ≡ₚ addr ∘ ann <$> flat_map (val_subs ∘ snd)
         (filter (λ p, ¬ (kind_of t = KExprPostfix ∧ p.1 = FPost)) (fields t)).
Proof. exact (p54 h t). Qed.
Example C54_example :
  typed (mem indexed) = true ∧ holds (heap_of (mem indexed)) (mem indexed) ∧
  exclusive (mem indexed) ∧ no_nil_items (mem indexed) ∧ is_set (mem indexed) FPost = true.
Proof. checks. Qed.
Print Assumptions C54_children_without_post.

(** The AST after UpdateParentRefs: the items and all nodes below them have got their
    parents as [reparent] says, all else is as before.  [n] bounds the depth. *)
Theorem C55_update_parent_refs_exactly n h a (fs : list (fld * mval)) :
  typed (T a KAST fs) = true → holds h (T a KAST fs) → NoDup (addrs (T a KAST fs)) →
  well_formed (T a KAST fs) → height (T a KAST fs) ≤ S n →
  ∃ h', UpdateParentRefs n (addr a) h = Ok (tt, h') ∧
    holds h' (T a KAST (map (λ p, (p.1, reparent_val None p.2)) fs)) ∧
    ∀ x, x ∉ node_addrs (T a KAST fs) → h' !! x = h !! x.
Proof. exact (p55 n h a fs). Qed.
Example C55_example :
  typed (mem indexed_file) = true ∧ holds (heap_of (mem indexed_file)) (mem indexed_file) ∧
  NoDup (addrs (mem indexed_file)) ∧ well_formed (mem indexed_file) ∧ height (mem indexed_file) ≤ 40 ∧
  kind_of (mem indexed_file) = KAST.
Proof. checks. Qed.
Print Assumptions C55_update_parent_refs_exactly.

(** Missing: an AST with an ExprPostfix with a Post ([post_free] excludes it), for which
    it is false (C29_parents_after_update_refuted).  Full statement: the same without
    [post_free], and for every AST the parser returns. *)
Theorem C29_parents_after_update_partial n h (t : mnode) :
  kind_of t = KAST → typed t = true → holds h t → NoDup (addrs t) → well_formed t → height t ≤ S n →
  post_free t →
  ∃ h', UpdateParentRefs n (addr (ann t)) h = Ok (tt, h') ∧
    (∀ c, c ∈ subs t → parent_in h' (addr (ann c)) None) ∧
    (∀ i m c, i ∈ subs t → m ∈ nodes i → c ∈ subs m →
       parent_in h' (addr (ann c)) (Some (addr (ann m)))) ∧
    (∃ t', addr (ann t') = addr (ann t) ∧ holds h' t' ∧ strip t' = strip t) ∧
    (∀ x, x ∉ node_addrs t → h' !! x = h !! x).
Proof. exact (p29 n h t). Qed.
Example C29_example :
  kind_of (mem plain_file) = KAST ∧ typed (mem plain_file) = true ∧
  holds (heap_of (mem plain_file)) (mem plain_file) ∧ NoDup (addrs (mem plain_file)) ∧
  well_formed (mem plain_file) ∧ height (mem plain_file) ≤ 40 ∧ post_free (mem plain_file).
Proof. checks. Qed.
Print Assumptions C29_parents_after_update_partial.

(** A Value with a Heredoc: the clone has the fragments of the source. *)
Theorem C26_clone_is_deep_refuted :
  ∃ n h t, typed t = true ∧ holds h t ∧ NoDup (addrs t) ∧ height t ≤ n ∧ kind_of t = KValue ∧
  ∃ l' h', Clone n (addr (ann t)) h = Ok (l', h') ∧
    ∀ t', addr (ann t') = l' → holds h' t' →
      (∃ x, x ∈ addrs t ∧ x ∈ addrs t') ∧
      (∃ h2, (∀ x, x ∉ addrs t → h2 !! x = h' !! x) ∧ ¬ holds h2 t').
Proof. exact (r26). Qed.
Print Assumptions C26_clone_is_deep_refuted.

(** A declaration with a type in a function: the clone has the type of the source. *)
Theorem C26_clone_of_declaration_is_deep_refuted :
  ∃ n h t, typed t = true ∧ holds h t ∧ NoDup (addrs t) ∧ height t ≤ n ∧ kind_of t = KFuncDecl ∧
  ∃ l' h', Clone n (addr (ann t)) h = Ok (l', h') ∧
    ∀ t', addr (ann t') = l' → holds h' t' →
      (∃ x, x ∈ addrs t ∧ x ∈ addrs t') ∧
      (∃ h2, (∀ x, x ∉ addrs t → h2 !! x = h' !! x) ∧ ¬ holds h2 t').
Proof. exact (r26b). Qed.
Print Assumptions C26_clone_of_declaration_is_deep_refuted.

(** In the clone of a Value with a Heredoc, the Heredoc has the Value of the source as
    its parent. *)
Theorem C27_clone_drops_parents_refuted :
  ∃ n h t, typed t = true ∧ holds h t ∧ NoDup (addrs t) ∧ height t ≤ n ∧
  ∃ l' h', Clone n (addr (ann t)) h = Ok (l', h') ∧
    ∀ t', addr (ann t') = l' → holds h' t' →
      ∃ m, m ∈ nodes t' ∧ addr (ann m) ∉ dom h ∧ par (ann m) = Some (addr (ann t)).
Proof. exact (r27). Qed.
Print Assumptions C27_clone_drops_parents_refuted.

(** a[0].b: the node of b is not among the children. *)
Theorem C28_children_are_the_sub_nodes_refuted :
  ∃ h t, typed t = true ∧ holds h t ∧ exclusive t ∧ no_nil_items t ∧
  ∃ l, Children (addr (ann t)) h = Ok (Some <$> l, h) ∧ ¬ l ≡ₚ sub_addrs t.
Proof. exact (r28). Qed.
Print Assumptions C28_children_are_the_sub_nodes_refuted.

(** x = a[0].b: the node of b has no parent. *)
Theorem C29_parents_after_update_refuted :
  ∃ n h t, kind_of t = KAST ∧ typed t = true ∧ holds h t ∧ NoDup (addrs t) ∧ well_formed t ∧
  height t ≤ S n ∧
  ∃ h', UpdateParentRefs n (addr (ann t)) h = Ok (tt, h') ∧
  ∃ m c, m ∈ nodes t ∧ c ∈ subs m ∧ kind_of m = KExprPostfix ∧ parent_in h' (addr (ann c)) None.
Proof. exact (r29). Qed.
Print Assumptions C29_parents_after_update_refuted.
