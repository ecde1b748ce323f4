(** * FormattedString terminates *)
From stdpp Require Import base list option strings.
From Coq Require Import Ascii Lia.
From Verif Require Import GoBase EtxAst EtxHeap EtxHeapSpec EtxText EtxLex EtxUtil EtxGram EtxParse EtxParseBase EtxParseTyped EtxFormat.

Definition size (t : ast) : nat := length (nodes t).
Lemma size_sub (t c : ast) f v : (f, v) ∈ fields t → c ∈ val_subs v → (size c < size t)%nat.
Proof.
  intros H1 H2. destruct t as [a k fs]. unfold size. cbn [nodes length fields] in *.
  assert (length (nodes c) <= length (nodes_val v))%nat as Hle.
  { destruct v as [| | | |[x|]|x|[[b xs]|]]; try (by apply elem_of_nil in H2); cbn [val_subs] in H2.
    - by apply elem_of_list_singleton in H2 as ->.
    - by apply elem_of_list_singleton in H2 as ->.
    - apply elem_of_list_omap in H2 as (o & Ho & E). unfold id in E. subst o. cbn [nodes_val]. clear -Ho.
      induction xs as [|x xs IH]; [by apply elem_of_nil in Ho|]. cbn [flat_map]. rewrite app_length.
      apply elem_of_cons in Ho as [<-|Ho]; [lia|]. specialize (IH Ho). lia. }
  assert (length (nodes_val v) <= length (flat_map (λ q : fld * aval, nodes_val q.2) fs))%nat; [|lia].
  clear -H1. induction fs as [|[f' w] fs IH]; [by apply elem_of_nil in H1|]. cbn [flat_map snd]. rewrite app_length.
  apply elem_of_cons in H1 as [[= -> ->]|H1]; [lia|]. specialize (IH H1). lia.
Qed.
Lemma size_get (t c : ast) f v : get f t = Some v → c ∈ val_subs v → (size c < size t)%nat.
Proof. intros H%assoc_elem. by apply (size_sub _ _ f). Qed.
Lemma size_ptr t f c : ptr_of f t = Some c → (size c < size t)%nat.
Proof.
  unfold ptr_of. destruct (get f t) as [[| | | |o| |]|] eqn:E; try done. intros ->. eapply size_get; [done|]. by left.
Qed.
Lemma size_emb t f c : emb_of f t = Some c → (size c < size t)%nat.
Proof.
  unfold emb_of. destruct (get f t) as [[| | | | |x|]|] eqn:E; try done. intros [= ->]. eapply size_get; [done|]. by left.
Qed.
Lemma size_list t f c : Some c ∈ list_of f t → (size c < size t)%nat.
Proof.
  unfold list_of. destruct (get f t) as [[| | | | | |[[[] l]|]]|] eqn:E; try by intros ?%elem_of_nil.
  intros H. eapply size_get; [done|]. cbn. apply elem_of_list_omap. by exists (Some c).
Qed.

Section ext.
Context (f g : ast → res text) (t : ast) (H : ∀ c, (size c < size t)%nat → f c = g c).
Lemma ext_ptr fl : fmt_of f (ptr_of fl t) = fmt_of g (ptr_of fl t).
Proof. unfold fmt_of. destruct (ptr_of fl t) eqn:E; [|done]. by eapply H, size_ptr. Qed.
Lemma ext_emb fl : fmt_of f (emb_of fl t) = fmt_of g (emb_of fl t).
Proof. unfold fmt_of. destruct (emb_of fl t) eqn:E; [|done]. by eapply H, size_emb. Qed.
Lemma ext_list fl : fmt_all f (list_of fl t) = fmt_all g (list_of fl t).
Proof.
  assert (∀ c, Some c ∈ list_of fl t → f c = g c) as Hl by (intros c Hc; by eapply H, size_list).
  induction (list_of fl t) as [|[c|] l IH]; [done| |done]. cbn. rewrite (Hl c) by (by left).
  rewrite IH; [done|]. intros c' Hc'. apply Hl. by right.
Qed.
Lemma ext_entries fl n : format_entries f fl n (list_of FItems t) = format_entries g fl n (list_of FItems t).
Proof.
  assert (∀ c, Some c ∈ list_of FItems t → (size c < size t)%nat) as Hl by (intros c Hc; by eapply size_list).
  induction (list_of FItems t) as [|[c|] l IH]; [done| |done]. cbn [format_entries].
  assert (size c < size t)%nat as Hc by (apply Hl; by left).
  assert (fmt_of f (emb_of fl c) = fmt_of g (emb_of fl c)) as ->.
  { unfold fmt_of. destruct (emb_of fl c) eqn:E; [|done]. apply H. apply size_emb in E. lia. }
  rewrite IH; [done|]. intros c' Hc'. apply Hl. by right.
Qed.
Lemma ext_pairs : format_pairs f (list_of FItems t) = format_pairs g (list_of FItems t).
Proof.
  assert (∀ c, Some c ∈ list_of FItems t → (size c < size t)%nat) as Hl by (intros c Hc; by eapply size_list).
  induction (list_of FItems t) as [|[c|] l IH]; [done| |done]. cbn [format_pairs].
  assert (size c < size t)%nat as Hc by (apply Hl; by left).
  assert (∀ fl, fmt_of f (ptr_of fl c) = fmt_of g (ptr_of fl c)) as Hp.
  { intros fl. unfold fmt_of. destruct (ptr_of fl c) eqn:E; [|done]. apply H. apply size_ptr in E. lia. }
  rewrite !Hp. rewrite IH; [done|]. intros c' Hc'. apply Hl. by right.
Qed.
Lemma ext_first fls r : first_set f (map (λ fl, ptr_of fl t) fls) r = first_set g (map (λ fl, ptr_of fl t) fls) r.
Proof.
  induction fls as [|fl fls IH]; [done|]. cbn. destruct (ptr_of fl t) eqn:E; [|done]. by eapply H, size_ptr.
Qed.
Lemma format_node_ext : format_node f t = format_node g t.
Proof.
  unfold format_node, format_binary, format_decl, format_parameter, format_aligned, format_entry.
  rewrite !ext_list, ext_pairs, !ext_emb, !ext_ptr.
  assert (∀ n fl, format_entries f fl n (list_of FItems t) = format_entries g fl n (list_of FItems t)) as He by (intros; apply ext_entries).
  destruct (longest (list_of FItems t)); cbn [mbind res_bind]; rewrite ?He.
  all: destruct (kind_of t); try reflexivity;
    try (exact (ext_first [FDecl; FFunc; FType; FBlock; FAttribute; FComment] _));
    try (exact (ext_first [FIdent; FFunc] _));
    try (exact (ext_first [FComment; FDecl; FExpr] _));
    try (exact (ext_first [FIdent; FStr] _));
    try (exact (ext_first [FLeft; FIf; FSwitch] _));
    try (destruct (bool_of FNull t); [done|]; exact (ext_first [FBool; FNumber; FStr; FHeredoc; FList; FMap] _));
    cbn [first_set];
    repeat match goal with |- context [ptr_of ?fl t] =>
      let E := fresh in destruct (ptr_of fl t) eqn:E; [rewrite ?(H _ (size_ptr _ _ _ E))|] end; done.
Qed.
End ext.

Lemma format_enough n m t : (size t <= n)%nat → (size t <= m)%nat → format_fuel n t = format_fuel m t.
Proof.
  revert m t. induction n as [|n IH]; intros m t Hn Hm; [destruct t; unfold size in Hn; cbn in Hn; lia|].
  destruct m as [|m]; [destruct t; unfold size in Hm; cbn in Hm; lia|]. cbn [format_fuel].
  apply format_node_ext. intros c Hc. apply IH; lia.
Qed.
Lemma format_unfold t : format t = format_node format t.
Proof.
  unfold format at 1. destruct (length (nodes t)) as [|n] eqn:E; [destruct t; cbn in E; lia|].
  cbn [format_fuel]. apply format_node_ext. intros c Hc. unfold format. apply format_enough; [|unfold size; lia].
  unfold size in *. lia.
Qed.

Definition ends {A} (r : res A) : Prop := r ≠ OutOfFuel.
Lemma ends_bind {A B} (m : res A) (k : A → res B) : ends m → (∀ x, ends (k x)) → ends (m ≫= k).
Proof. intros H1 H2. destruct m; cbn; [apply H2|done|done]. Qed.
Section ends.
Context (f : ast → res text) (H : ∀ c, ends (f c)).
Lemma ends_of o : ends (fmt_of f o).
Proof. destruct o; [apply H|done]. Qed.
Lemma ends_all l : ends (fmt_all f l).
Proof. induction l as [|o l IH]; [done|]. cbn. apply ends_bind; [apply ends_of|]. intros s. by apply ends_bind. Qed.
Lemma ends_first l r : ends r → ends (first_set f l r).
Proof. intros Hr. induction l as [|[c|] l IH]; [done|apply H|done]. Qed.
Lemma ends_entries fl n l : ends (format_entries f fl n l).
Proof.
  induction l as [|[c|] l IH]; [done| |done]. cbn. apply ends_bind; [apply ends_of|]. intros s. by apply ends_bind.
Qed.
Lemma ends_longest l : ends (longest l).
Proof. induction l as [|[c|] l IH]; [done| |done]. cbn. by apply ends_bind. Qed.
Lemma ends_pairs l : ends (format_pairs f l).
Proof.
  induction l as [|[c|] l IH]; [done| |done]. cbn. apply ends_bind; [apply ends_of|]. intros s.
  apply ends_bind; [apply ends_of|]. intros s'. by apply ends_bind.
Qed.
Lemma format_node_ends t : ends (format_node f t).
Proof.
  unfold format_node, format_binary, format_decl, format_parameter, format_aligned, format_entry.
  destruct (kind_of t);
    repeat first [ apply ends_all | apply ends_of | apply ends_entries | apply ends_longest | apply ends_pairs
                 | apply H | apply ends_first | apply ends_bind; [|intros ?] | (by unfold ends)
                 | match goal with |- ends (if ?b then _ else _) => destruct b end
                 | match goal with |- ends (match ?b with _ => _ end) => destruct b end ].
Qed.
End ends.
(** FormattedString returns or panics, whatever the tree. *)
Lemma format_ends t : format t ≠ OutOfFuel.
Proof.
  assert (∀ n t, (size t < n)%nat → format t ≠ OutOfFuel) as Hn; [|by apply (Hn (S (size t))); lia].
  clear t. induction n as [|n IH]; intros t Ht; [lia|]. rewrite format_unfold.
  set (g := λ c, if decide (size c < size t)%nat then format c else Panic).
  rewrite (format_node_ext _ g).
  - apply format_node_ends. intros c. unfold g, ends. destruct (decide _); [|done]. apply IH. lia.
  - intros c Hc. unfold g. by rewrite decide_True.
Qed.
