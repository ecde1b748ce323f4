(** * Total-correctness rules for the statements of [DagModel] *)
From stdpp Require Import base list gmap.
From Verif Require Import GoBase SetModel DagModel.

(** ** Go sets *)
Section sets.
Context {K : Type} `{Countable K}.
Implicit Types (s : goset K) (k v : K).

(** What [Add] and [Delete] maintain: every key is stored under itself. *)
Definition wfset s : Prop := ∀ k v, s !! k = Some v → v = k.
Definition mem k s : Prop := is_Some (s !! k).

Lemma wfset_empty : wfset ∅.
Proof. intros k v. by rewrite lookup_empty. Qed.
Lemma wfset_add v s : wfset s → wfset (set_add v s).
Proof.
  intros Hs k w. unfold set_add. rewrite lookup_insert_Some. naive_solver.
Qed.
Lemma wfset_delete v s : wfset s → wfset (set_delete v s).
Proof. intros Hs k w. unfold set_delete. rewrite lookup_delete_Some. naive_solver. Qed.
Lemma wfset_foldl_add l s : wfset s → wfset (foldl (λ c x, set_add x c) s l).
Proof. revert s. induction l as [|x l IH]; intros s Hs; simpl; [done|]. by apply IH, wfset_add. Qed.

Lemma mem_empty k : ¬ mem k ∅.
Proof. unfold mem. rewrite lookup_empty. by intros [? ?]. Qed.
Lemma mem_add k v s : mem k (set_add v s) ↔ k = v ∨ mem k s.
Proof.
  unfold mem, set_add. rewrite lookup_insert_is_Some. destruct (decide (v = k)); naive_solver.
Qed.
Lemma mem_delete k v s : mem k (set_delete v s) ↔ k ≠ v ∧ mem k s.
Proof. unfold mem, set_delete. rewrite lookup_delete_is_Some. naive_solver. Qed.
Lemma mem_foldl_add k l s : mem k (foldl (λ c x, set_add x c) s l) ↔ k ∈ l ∨ mem k s.
Proof.
  revert s. induction l as [|x l IH]; intros s; simpl; [set_solver|].
  rewrite IH, mem_add. set_solver.
Qed.
Lemma set_includes_true s k : set_includes s k = true ↔ mem k s.
Proof. unfold set_includes. apply bool_decide_eq_true. Qed.
Lemma set_includes_false s k : set_includes s k = false ↔ ¬ mem k s.
Proof. unfold set_includes. apply bool_decide_eq_false. Qed.
Lemma wfset_ext s s' : wfset s → wfset s' → (∀ k, mem k s ↔ mem k s') → s = s'.
Proof.
  intros Hs Hs' Heq. apply map_eq. intros k. specialize (Heq k). unfold mem in Heq.
  destruct (s !! k) as [v|] eqn:E, (s' !! k) as [v'|] eqn:E'.
  - apply Hs in E. apply Hs' in E'. by subst.
  - apply proj1 in Heq. destruct Heq as [? ?]; [by eexists|done].
  - apply proj2 in Heq. destruct Heq as [? ?]; [by eexists|done].
  - done.
Qed.

Lemma map_keys_elem {V} (m : gmap K V) k : k ∈ (map_to_list m).*1 ↔ is_Some (m !! k).
Proof.
  rewrite elem_of_list_fmap. split.
  - intros ([k' v]&->&Hk). apply elem_of_map_to_list in Hk. by eexists.
  - intros [v Hv]. exists (k, v). split; [done|]. by apply elem_of_map_to_list.
Qed.

Lemma range_vals_wf σ n s : legal σ → wfset s → range_vals σ n s = range_keys σ n s.
Proof.
  intros Hσ Hs. unfold range_vals.
  assert (∀ k, k ∈ range_keys σ n s → is_Some (s !! k)) as Hin.
  { intros k. unfold range_keys. rewrite (Hσ n). apply map_keys_elem. }
  induction (range_keys σ n s) as [|k l IH]; [done|]. simpl.
  destruct (Hin k) as [v Hv]; [set_solver|]. rewrite Hv. apply Hs in Hv as ->.
  f_equal. apply IH. set_solver.
Qed.
End sets.

Section wp.
Context {K T : Type} `{Countable K}.
Notation graph := (graph K T).
Notation M := (M (K:=K) (T:=T)).

Definition wp {A} (m : M A) (g : graph) (n : nat) (Q : A → graph → nat → Prop) : Prop :=
  match m g n with
  | Ok (a, g', n') => Q a g' n'
  | Panic => False
  | OutOfFuel => False
  end.

Lemma wp_mono {A} (m : M A) g n (Q Q' : A → graph → nat → Prop) :
  wp m g n Q → (∀ a g' n', Q a g' n' → Q' a g' n') → wp m g n Q'.
Proof. unfold wp. destruct (m g n) as [[[??]?]| |]; naive_solver. Qed.
Lemma wp_ret {A} (a : A) g n (Q : A → graph → nat → Prop) : Q a g n → wp (ret a) g n Q.
Proof. done. Qed.
Lemma wp_bind {A B} (m : M A) (f : A → M B) g n Q :
  wp m g n (λ a g' n', wp (f a) g' n' Q) → wp (bind m f) g n Q.
Proof. unfold wp, bind. destruct (m g n) as [[[??]?]| |]; naive_solver. Qed.
Lemma wp_get g n (Q : graph → graph → nat → Prop) : Q g g n → wp get g n Q.
Proof. done. Qed.
Lemma wp_modify f g n (Q : unit → graph → nat → Prop) : Q tt (f g) n → wp (modify f) g n Q.
Proof. done. Qed.
Lemma wp_range {V} σ (m : gmap K V) g n (Q : list K → graph → nat → Prop) :
  legal σ → (∀ ks, ks ≡ₚ (map_to_list m).*1 → Q ks g (S n)) → wp (range σ m) g n Q.
Proof. intros Hσ HQ. apply HQ. apply Hσ. Qed.
Lemma wp_rangev σ (s : goset K) g n (Q : list K → graph → nat → Prop) :
  legal σ → wfset s → (∀ ks, ks ≡ₚ (map_to_list s).*1 → Q ks g (S n)) → wp (rangev σ s) g n Q.
Proof.
  intros Hσ Hs HQ. unfold wp, rangev. rewrite range_vals_wf by done. apply HQ, Hσ.
Qed.
Lemma wp_for_each {A B} (l : list B) (body : A → B → M A)
    (I : list B → A → graph → nat → Prop) acc g n (Q : A → graph → nat → Prop) :
  (∀ pre x post acc g n, l = pre ++ x :: post → I pre acc g n →
     wp (body acc x) g n (λ acc' g' n', I (pre ++ [x]) acc' g' n')) →
  I [] acc g n →
  (∀ acc g n, I l acc g n → Q acc g n) →
  wp (for_each l body acc) g n Q.
Proof.
  intros Hbody HI HQ.
  assert (∀ post pre acc g n, l = pre ++ post → I pre acc g n →
    wp (for_each post body acc) g n Q) as Hgen.
  { induction post as [|x post IH]; intros pre acc' g' n' -> HI'; simpl.
    - apply wp_ret, HQ. by rewrite app_nil_r.
    - apply wp_bind. eapply wp_mono; [by eapply Hbody|].
      intros a2 g2 n2 HI2. eapply IH; [|done]. by rewrite <-(assoc_L (++)). }
  by apply (Hgen l []).
Qed.
Lemma for_each_pure {A B} (l : list B) (f : A → B → A) acc (g : graph) n :
  for_each l (λ acc x, ret (f acc x)) acc g n = Ok (foldl f acc l, g, n).
Proof. revert acc. induction l as [|x l IH]; intros acc; [done|]. simpl. apply IH. Qed.
Lemma wp_for_each_pure {A B} (l : list B) (f : A → B → A) acc (g : graph) n (Q : _ → graph → nat → Prop) :
  Q (foldl f acc l) g n → wp (for_each l (λ acc x, ret (f acc x)) acc) g n Q.
Proof. unfold wp. by rewrite for_each_pure. Qed.
Lemma for_each_modify {B} (l : list B) (f : B → graph → graph) (g : graph) n :
  for_each l (λ _ x, modify (f x)) tt g n = Ok (tt, foldl (λ g x, f x g) g l, n).
Proof. revert g. induction l as [|x l IH]; intros g; [done|]. simpl. apply IH. Qed.
Lemma wp_for_each_modify {B} (l : list B) (f : B → graph → graph) (g : graph) n (Q : _ → graph → nat → Prop) :
  Q tt (foldl (λ g x, f x g) g l) n →
  wp (for_each l (λ _ x, modify (f x)) tt) g n Q.
Proof. unfold wp. by rewrite for_each_modify. Qed.

(** Loops of the form [for ... { delete(g.cache, x) }]. *)
Definition delete_all {V} (l : list K) (m : gmap K V) : gmap K V := foldl (λ m x, delete x m) m l.
Lemma lookup_delete_all {V} l (m : gmap K V) k :
  delete_all l m !! k = if decide (k ∈ l) then None else m !! k.
Proof.
  unfold delete_all. revert m. induction l as [|x l IH]; intros m; cbn [foldl].
  { rewrite decide_False; [done|set_solver]. }
  rewrite IH. destruct (decide (k ∈ l)).
  - rewrite decide_True; [done|set_solver].
  - destruct (decide (k = x)) as [->|].
    + rewrite decide_True by set_solver. apply lookup_delete.
    + rewrite decide_False by set_solver. by rewrite lookup_delete_ne.
Qed.
Lemma foldl_set_anc l (g : graph) :
  foldl (λ g x, set_anc (delete x) g) g l = set_anc (delete_all l) g.
Proof. revert g. induction l as [|x l IH]; intros []; [done|]. simpl. by rewrite IH. Qed.
Lemma foldl_set_desc l (g : graph) :
  foldl (λ g x, set_desc (delete x) g) g l = set_desc (delete_all l) g.
Proof. revert g. induction l as [|x l IH]; intros []; [done|]. simpl. by rewrite IH. Qed.
(** Loops of the form [for ... { delete(g.edges[x], id) }]. *)
Definition alter_all {V} (f : V → V) (l : list K) (m : gmap K V) : gmap K V :=
  foldl (λ m x, alter f x m) m l.
Lemma lookup_alter_all {V} (f : V → V) l (m : gmap K V) k :
  NoDup l → alter_all f l m !! k = if decide (k ∈ l) then f <$> m !! k else m !! k.
Proof.
  unfold alter_all. intros Hl. revert m. induction Hl as [|x l Hx Hl IH]; intros m; cbn [foldl].
  { rewrite decide_False; [done|set_solver]. }
  rewrite IH. destruct (decide (k = x)) as [->|Hne].
  - rewrite decide_False by done. rewrite decide_True by set_solver. by rewrite lookup_alter.
  - rewrite lookup_alter_ne by done.
    destruct (decide (k ∈ l)); [rewrite decide_True|rewrite decide_False]; set_solver.
Qed.
Lemma foldl_set_outbound id l (g : graph) :
  foldl (λ g x, set_outbound (alter (set_delete id) x) g) g l
  = set_outbound (alter_all (set_delete id) l) g.
Proof. revert g. induction l as [|x l IH]; intros []; [done|]. simpl. by rewrite IH. Qed.
Lemma foldl_set_inbound id l (g : graph) :
  foldl (λ g x, set_inbound (alter (set_delete id) x) g) g l
  = set_inbound (alter_all (set_delete id) l) g.
Proof. revert g. induction l as [|x l IH]; intros []; [done|]. simpl. by rewrite IH. Qed.

End wp.
