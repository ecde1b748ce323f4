(** * Examples and counterexamples for Clone, Children and UpdateParentRefs *)
From stdpp Require Import base list option strings gmap.
From Verif Require Import GoBase EtxAst EtxHeap EtxHeapSpec EtxClone EtxChildren EtxPlace EtxHeapPropProofs.

(** ** Deciding the hypotheses *)
Definition exclusive_b {A B} (t : tree A B) : bool :=
  bool_decide (length (filter (λ f, is_set t f = true) (one_of (kind_of t))) ≤ 1).
Lemma exclusive_sound {A B} (t : tree A B) : exclusive_b t = true → exclusive t.
Proof. apply bool_decide_eq_true_1. Qed.
Definition no_nil_b {A B} (t : tree A B) : bool :=
  forallb (λ p : fld * val A B, match p.2 with
    | VList (Some (_, l)) => forallb (λ o, match o with Some _ => true | None => false end) l
    | _ => true end) (fields t).
Lemma no_nil_sound {A B} (t : tree A B) : no_nil_b t = true → no_nil_items t.
Proof.
  unfold no_nil_b, no_nil_items, get. rewrite forallb_forall. intros Hb f b l Hget Hin.
  assert (In (f, VList (Some (b, l))) (fields t)) as Hf.
  { revert Hget. generalize (fields t). clear. intros fs. induction fs as [|[g v] fs IH]; simpl; [done|].
    case_decide; [intros; simplify_eq; by left|]. intros. right. by apply IH. }
  specialize (Hb _ Hf). simpl in Hb. rewrite forallb_forall in Hb. by apply elem_of_list_In, Hb in Hin.
Qed.
Definition well_formed_b {A B} (t : tree A B) : bool :=
  forallb (λ m, exclusive_b m && no_nil_b m) (nodes t).
Lemma well_formed_sound {A B} (t : tree A B) : well_formed_b t = true → well_formed t.
Proof.
  unfold well_formed_b, well_formed. rewrite forallb_forall. intros Hb m Hm%elem_of_list_In%Hb.
  apply andb_true_iff in Hm as [He%bool_decide_eq_true Hn]. split; [done|by apply no_nil_sound].
Qed.
Definition unset_b (f : fld) (t : mnode) : bool :=
  match get f t with Some (VPtr None) => true | _ => false end.
Lemma unset_sound f t : unset_b f t = true → get f t = Some (VPtr None).
Proof. unfold unset_b. by destruct (get f t) as [[| | | |[]| |]|]. Qed.
Definition no_sharing_b (t : mnode) : bool :=
  forallb (λ m, (negb (bool_decide (kind_of m = KFuncDecl)) || unset_b FType m) &&
                (negb (bool_decide (kind_of m = KValue)) || unset_b FHeredoc m)) (nodes t).
Lemma imp_sound (P : Prop) `{Decision P} b : negb (bool_decide P) || b = true → P → b = true.
Proof. case_bool_decide; [done|]. by intros. Qed.
Lemma no_sharing_sound t : no_sharing_b t = true → no_sharing t.
Proof.
  unfold no_sharing_b, no_sharing. rewrite forallb_forall. intros Hb m Hm%elem_of_list_In%Hb.
  apply andb_true_iff in Hm as [H1 H2].
  split; intros Hk; apply unset_sound; [by apply (imp_sound _ _ H1)|by apply (imp_sound _ _ H2)].
Qed.
Definition post_free_b (t : mnode) : bool :=
  forallb (λ m, negb (bool_decide (kind_of m = KExprPostfix)) || unset_b FPost m) (nodes t).
Lemma post_free_sound t : post_free_b t = true → post_free t.
Proof.
  unfold post_free_b, post_free. rewrite forallb_forall. intros Hb m Hm%elem_of_list_In%Hb Hk.
  apply unset_sound. by apply (imp_sound _ _ Hm).
Qed.

(** ** Some source files as ASTs

    The positions are made up. *)
Definition at_ (o : nat) : pos := Pos "a.etx" o 1 (S o).
Definition nd (o : nat) (k : kind) (gs : list (fld * aval)) : ast := node (at_ o) k gs.
Definition ptr (t : ast) : aval := VPtr (Some t).
Definition list_of (l : list ast) : aval := VList (Some (tt, Some <$> l)).
Definition levels : list kind :=
  [KExprLogicalOr; KExprLogicalAnd; KExprBitwiseOr; KExprBitwiseXor; KExprBitwiseAnd; KExprEquality;
   KExprRelational; KExprShift; KExprAdditive; KExprMultiplicative].
(** An expression that is a single postfix expression. *)
Definition logical_or (o : nat) (p : ast) : ast :=
  foldr (λ k t, nd o k [(FLeft, VEmb t)]) (nd o KExprUnary [(FRight, VEmb p)]) levels.
Definition expr (o : nat) (p : ast) : ast :=
  nd o KExpr [(FLeft, ptr (nd o KExprConditional [(FCondition, VEmb (logical_or o p))]))].
Definition postfix (o : nat) (gs : list (fld * aval)) : ast :=
  nd o KExprPostfix [(FValue, VEmb (nd o KExprPrimary gs))].
Definition ident (o : nat) (s : string) : ast := nd o KIdent [(FParts, VStrs (Some (tt, [s])))].
Definition num (o : nat) (s : string) : ast :=
  nd o KValue [(FNumber, ptr (nd o KValueNumber [(FValue, VFloat (Some (tt, s))); (FSource, VStr s)]))].
Definition file (items : list ast) : ast := node no_pos KAST [(FItems, list_of items)].

(** # hello
    x = f(1) *)
Definition plain_file : ast := file
  [nd 0 KRootItem [(FComment, ptr (nd 0 KComment [(FSingleLine, VStrs (Some (tt, ["# hello"%string])))]))];
   nd 8 KRootItem [(FAttribute, ptr (nd 8 KAttribute [(FKey, VStr "x");
     (FValue, ptr (expr 12 (postfix 12 [(FIdent, ptr (ident 12 "f"));
        (FMonads, list_of [nd 14 KExprInvocationParams
           [(FValues, list_of [expr 14 (postfix 14 [(FValue, ptr (num 14 "1"))])])]])])))]))]].
(** The value of <<EOF ... EOF with one line of text. *)
Definition heredoc_value : ast := nd 0 KValue
  [(FHeredoc, ptr (nd 0 KHeredoc [(FDelimiter, VStr "EOF");
     (FFragments, list_of [nd 6 KHeredocFragment [(FText, VStr "hello")]])]))].
(** val x : int = 1 *)
Definition typed_decl : ast := nd 0 KFuncDecl
  [(FDeclType, VStr "val"); (FLabel, VStr "x");
   (FType, ptr (nd 8 KParameterType [(FIdent, ptr (ident 8 "int"))]));
   (FValue, ptr (expr 14 (postfix 14 [(FValue, ptr (num 14 "1"))])))].
(** x = a[0].b *)
Definition indexed : ast := nd 4 KExprPostfix
  [(FValue, VEmb (nd 4 KExprPrimary [(FIdent, ptr (ident 4 "a"))]));
   (FIndex, ptr (expr 6 (postfix 6 [(FValue, ptr (num 6 "0"))])));
   (FPost, ptr (postfix 9 [(FIdent, ptr (ident 9 "b"))]))].
Definition indexed_file : ast := file
  [nd 0 KRootItem [(FAttribute, ptr (nd 0 KAttribute [(FKey, VStr "x"); (FValue, ptr (expr 4 indexed))]))]].

(** In memory, also with parents set. *)
Definition mem (t : ast) : mnode := in_memory t.
Lemma mem_holds t : holds (heap_of (mem t)) (mem t).
Proof. apply in_memory_ok. Qed.
Lemma mem_nodup t : NoDup (addrs (mem t)).
Proof. apply in_memory_ok. Qed.
Definition mem_p (t : ast) : mnode := reparent (Some 1000%positive) (mem t).
Lemma mem_p_nodup t : NoDup (addrs (mem_p t)).
Proof. unfold mem_p. rewrite (proj1 addrs_reparent). apply mem_nodup. Qed.
Lemma mem_p_holds t : holds (heap_of (mem_p t)) (mem_p t).
Proof. apply heap_of_holds, mem_p_nodup. Qed.

Ltac by_check :=
  match goal with
  | |- holds _ _ => first [exact (mem_holds _) | exact (mem_p_holds _)]
  | |- NoDup _ => first [exact (mem_nodup _) | exact (mem_p_nodup _)]
  | |- well_formed _ => apply well_formed_sound; vm_compute; reflexivity
  | |- no_sharing _ => apply no_sharing_sound; vm_compute; reflexivity
  | |- post_free _ => apply post_free_sound; vm_compute; reflexivity
  | |- no_nil_items _ => apply no_nil_sound; vm_compute; reflexivity
  | |- exclusive _ => apply exclusive_sound; vm_compute; reflexivity
  | |- _ ≤ _ => apply Nat.leb_le; vm_compute; reflexivity
  | |- _ = _ => vm_compute; reflexivity
  end.
Ltac conjs := repeat match goal with |- _ ∧ _ => apply conj end.
Ltac checks := conjs; by_check.

(** ** Refutations *)
Lemma shared_refutes n h t x :
  typed t = true → holds h t → height t ≤ n → x ∈ shared t →
  ∃ l' h', Clone n (addr (ann t)) h = Ok (l', h') ∧
    ∀ t', addr (ann t') = l' → holds h' t' →
      (∃ x, x ∈ addrs t ∧ x ∈ addrs t') ∧
      (∃ h2, (∀ x, x ∉ addrs t → h2 !! x = h' !! x) ∧ ¬ holds h2 t').
Proof.
  intros Ht Hh Hn Hx. destruct (Clone_ok n t h Ht Hh Hn) as (h'&t1&E&Hh'&_&C).
  exists (addr (ann t1)), h'. split; [done|]. intros t' Ea Hh2.
  assert (t' = t1) as -> by (by eapply (proj1 (holds_unique h'))).
  pose proof (cl_keep C x Hx) as Hx'. apply (proj1 shared_addrs) in Hx.
  split; [by exists x|]. exists (delete x h'). split.
  - intros y Hy. apply lookup_delete_ne. by intros ->.
  - intros Hd. apply (proj1 (holds_addrs _) _ Hd) in Hx'. rewrite dom_delete in Hx'. set_solver.
Qed.
(*P C26_clone_is_deep_refuted *)
(** A Value with a Heredoc: the clone has the fragments of the source. *)
Lemma r26 :
  ∃ n h t, typed t = true ∧ holds h t ∧ NoDup (addrs t) ∧ height t ≤ n ∧ kind_of t = KValue ∧
  ∃ l' h', Clone n (addr (ann t)) h = Ok (l', h') ∧
    ∀ t', addr (ann t') = l' → holds h' t' →
      (∃ x, x ∈ addrs t ∧ x ∈ addrs t') ∧
      (∃ h2, (∀ x, x ∉ addrs t → h2 !! x = h' !! x) ∧ ¬ holds h2 t').
Proof.
  exists 10, (heap_of (mem heredoc_value)), (mem heredoc_value).
  conjs; try by_check.
  apply (shared_refutes _ _ _ 3%positive); try by_check.
  apply elem_of_list_In. vm_compute. tauto.
Qed.
(*P C26_clone_of_declaration_is_deep_refuted *)
(** A declaration with a type in a function: the clone has the type of the source. *)
Lemma r26b :
  ∃ n h t, typed t = true ∧ holds h t ∧ NoDup (addrs t) ∧ height t ≤ n ∧ kind_of t = KFuncDecl ∧
  ∃ l' h', Clone n (addr (ann t)) h = Ok (l', h') ∧
    ∀ t', addr (ann t') = l' → holds h' t' →
      (∃ x, x ∈ addrs t ∧ x ∈ addrs t') ∧
      (∃ h2, (∀ x, x ∉ addrs t → h2 !! x = h' !! x) ∧ ¬ holds h2 t').
Proof.
  exists 20, (heap_of (mem typed_decl)), (mem typed_decl).
  conjs; try by_check.
  apply (shared_refutes _ _ _ 2%positive); try by_check.
  apply elem_of_list_In. vm_compute. tauto.
Qed.
(*P C27_clone_drops_parents_refuted *)
(** In the clone of a Value with a Heredoc, the Heredoc has the Value of the source as
    its parent. *)
Lemma r27 :
  ∃ n h t, typed t = true ∧ holds h t ∧ NoDup (addrs t) ∧ height t ≤ n ∧
  ∃ l' h', Clone n (addr (ann t)) h = Ok (l', h') ∧
    ∀ t', addr (ann t') = l' → holds h' t' →
      ∃ m, m ∈ nodes t' ∧ addr (ann m) ∉ dom h ∧ par (ann m) = Some (addr (ann t)).
Proof.
  exists 10, (heap_of (mem_p heredoc_value)), (mem_p heredoc_value).
  conjs; try by_check.
  destruct (Clone_ok 10 (mem_p heredoc_value) (heap_of (mem_p heredoc_value)))
    as (h'&t1&E&Hh'&_&C); try by_check.
  exists (addr (ann t1)), h'. split; [done|]. intros t' Ea Hh2.
  assert (t' = t1) as -> by (by eapply (proj1 (holds_unique h'))).
  destruct (copied (mem_p heredoc_value)) as [|m0 l] eqn:Em; [discriminate (f_equal length Em)|].
  destruct (cl_cop C m0) as (m&Hm&_&Hp&Hd); [by left|].
  exists m. split; [done|]. split; [done|]. rewrite Hp.
  assert (par ∘ ann <$> (copied (mem_p heredoc_value)) = [Some (addr (ann (mem_p heredoc_value)))]) as Hpar
    by (vm_compute; reflexivity).
  rewrite Em in Hpar. injection Hpar as Hpar _. exact Hpar.
Qed.
(*P C28_children_are_the_sub_nodes_refuted *)
(** a[0].b: the node of b is not among the children. *)
Lemma r28 :
  ∃ h t, typed t = true ∧ holds h t ∧ exclusive t ∧ no_nil_items t ∧
  ∃ l, Children (addr (ann t)) h = Ok (Some <$> l, h) ∧ ¬ l ≡ₚ sub_addrs t.
Proof.
  exists (heap_of (mem indexed)), (mem indexed). conjs; try by_check.
  exists (addr ∘ ann <$> listed (mem indexed)). split.
  - rewrite Children_ok by by_check. by rewrite <-list_fmap_compose.
  - intros Hp%Permutation_length. vm_compute in Hp. lia.
Qed.
Definition updated (t : mnode) : mnode :=
  match t with T a k fs => T a k (map (λ p, (p.1, reparent_val None p.2)) fs) end.
Lemma updated_ok n t :
  kind_of t = KAST → typed t = true → NoDup (addrs t) → well_formed t → height t ≤ S n →
  ∃ h', UpdateParentRefs n (addr (ann t)) (heap_of t) = Ok (tt, h') ∧ holds h' (updated t).
Proof.
  destruct t as [a k fs]. simpl. intros -> Ht HU Hw Hn.
  destruct (UpdateParentRefs_ok n a fs (heap_of (T a KAST fs))) as (h'&E&Hh'&_).
  { split; [done|]. split; [by apply heap_of_holds|done]. }
  { done. }
  by exists h'.
Qed.
Lemma holds_nodes h t m : holds h t → m ∈ nodes t → parent_in h (addr (ann m)) (par (ann m)).
Proof.
  remember (height t) as n eqn:En. assert (height t ≤ n) as Hn by lia. clear En.
  revert t Hn. induction n as [|n IH]; intros t Hn Hh Hm; [destruct t; simpl in Hn; lia|].
  destruct (nodes_sub t m Hm) as [->|(c&Hc&Hmc)].
  - destruct t. apply holds_unfold in Hh as [Ha _]. eexists _, _, _. exact Ha.
  - apply (IH c); [pose proof (height_sub t c Hc); lia|by eapply holds_sub|done].
Qed.
(*P C29_parents_after_update_refuted *)
(** x = a[0].b: the node of b has no parent. *)
Lemma r29 :
  ∃ n h t, kind_of t = KAST ∧ typed t = true ∧ holds h t ∧ NoDup (addrs t) ∧ well_formed t ∧
  height t ≤ S n ∧
  ∃ h', UpdateParentRefs n (addr (ann t)) h = Ok (tt, h') ∧
  ∃ m c, m ∈ nodes t ∧ c ∈ subs m ∧ kind_of m = KExprPostfix ∧ parent_in h' (addr (ann c)) None.
Proof.
  exists 40, (heap_of (mem indexed_file)), (mem indexed_file). conjs; try by_check.
  destruct (updated_ok 40 (mem indexed_file)) as (h'&E&Hh'); try by_check.
  exists h'. split; [exact E|].
  assert (existsb (λ m, bool_decide (kind_of m = KExprPostfix) &&
    existsb (λ c, existsb (λ c', bool_decide (addr (ann c') = addr (ann c)) && bool_decide (par (ann c') = None))
      (nodes (updated (mem indexed_file)))) (subs m)) (nodes (mem indexed_file)) = true) as Hex
    by (vm_compute; reflexivity).
  apply existsb_exists in Hex as (m&Hm%elem_of_list_In&[Hk Hex]%andb_true_iff).
  apply existsb_exists in Hex as (c&Hc%elem_of_list_In&Hex).
  apply existsb_exists in Hex as (c'&Hc'%elem_of_list_In&[Ha Hp]%andb_true_iff).
  apply bool_decide_eq_true in Hk, Ha, Hp. exists m, c.
  split; [exact Hm|]. split; [exact Hc|]. split; [exact Hk|].
  rewrite <-Ha, <-Hp. exact (holds_nodes _ _ _ Hh' Hc').
Qed.
