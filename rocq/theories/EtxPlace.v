(** * Putting an AST into memory

    [place] gives every node, slice and number of an AST an address of its own, the
    next free one; [heap_of] is the memory holding it.  The parser builds its result
    in such memory: everything freshly allocated, no parent set. *)
From stdpp Require Import base list option strings gmap.
From Verif Require Import GoBase EtxAst EtxHeap EtxHeapSpec EtxClone EtxChildren.

Section map_state.
Context {S X Y : Type} (f : X → S → Y * S).
Definition mapS := fix mapS (l : list X) (s : S) : list Y * S :=
  match l with
  | [] => ([], s)
  | x :: l => let '(y, s) := f x s in let '(ys, s) := mapS l s in (y :: ys, s)
  end.
End map_state.

Fixpoint place (t : ast) (n : loc) : mnode * loc :=
  match t with
  | T p k fs =>
      let '(fs, n') := mapS (λ q n, let '(v, n) := place_val q.2 n in ((q.1, v), n)) fs (Pos.succ n) in
      (T (Hdr n p None) k fs, n')
  end
with place_val (v : aval) (n : loc) : mval * loc :=
  match v with
  | VStr s => (VStr s, n)
  | VBool b => (VBool b, n)
  | VStrs None => (VStrs None, n)
  | VStrs (Some (_, l)) => (VStrs (Some (n, l)), Pos.succ n)
  | VFloat None => (VFloat None, n)
  | VFloat (Some (_, s)) => (VFloat (Some (n, s)), Pos.succ n)
  | VPtr None => (VPtr None, n)
  | VPtr (Some t) => let '(t, n) := place t n in (VPtr (Some t), n)
  | VEmb t => let '(t, n) := place t n in (VEmb t, n)
  | VList None => (VList None, n)
  | VList (Some (_, l)) =>
      let '(l, n') := mapS (λ o n, match o with
                                   | Some t => let '(t, n) := place t n in (Some t, n)
                                   | None => (None, n)
                                   end) l (Pos.succ n) in
      (VList (Some (n, l)), n')
  end.

Fixpoint cells (t : mnode) : list (loc * cell) :=
  match t with
  | T a k fs => (addr a, CNode k (at_pos a) (par a) (map shallow_field fs)) ::
                flat_map (λ p, cells_val p.2) fs
  end
with cells_val (v : mval) : list (loc * cell) :=
  match v with
  | VStrs (Some (b, l)) => [(b, CArrS l)]
  | VFloat (Some (b, s)) => [(b, CBig s)]
  | VPtr (Some t) => cells t
  | VEmb t => cells t
  | VList (Some (b, l)) =>
      (b, CArrP (map (fmap (addr ∘ ann)) l)) ::
      flat_map (λ o, match o with Some t => cells t | None => [] end) l
  | _ => []
  end.
Definition heap_of (t : mnode) : heap := list_to_map (cells t).

Lemma fmap_flat_map {X Y Z} (g : Y → Z) (f : X → list Y) l :
  g <$> flat_map f l = flat_map (λ x, g <$> f x) l.
Proof. induction l as [|x l IH]; csimpl; [done|]. by rewrite fmap_app, IH. Qed.
Lemma cells_addrs : (∀ t, (cells t).*1 = addrs t) ∧ (∀ v, (cells_val v).*1 = addrs_val v).
Proof.
  apply tree_val_ind; try done.
  - intros a k fs IH. csimpl. f_equal. rewrite fmap_flat_map. apply flat_map_ext_in'.
    rewrite Forall_forall in IH. intros p Hp. by apply IH.
  - by intros [[]|].
  - by intros [[]|].
  - intros b l IH. csimpl. f_equal. rewrite fmap_flat_map. apply flat_map_ext_in'.
    rewrite Forall_forall in IH. intros [t|] Ho; [|done]. by apply (IH (Some t)).
Qed.
Lemma cells_holds h :
  (∀ t, (∀ x c, (x, c) ∈ cells t → h !! x = Some c) → holds h t) ∧
  (∀ v, (∀ x c, (x, c) ∈ cells_val v → h !! x = Some c) → holds_val h v).
Proof.
  apply tree_val_ind; try done.
  - intros a k fs IH Hc. apply holds_unfold. split; [apply Hc; by left|].
    rewrite Forall_forall in *. intros p Hp. apply (IH p Hp). intros x c Hx. apply Hc. simpl. right.
    apply elem_of_list_In, in_flat_map. exists p. split; by apply elem_of_list_In.
  - intros [[b l]|]; [|done]. simpl. intros Hc. apply Hc. by left.
  - intros [[b l]|]; [|done]. simpl. intros Hc. apply Hc. by left.
  - intros b l IH Hc. apply holds_list_unfold. split; [apply Hc; by left|].
    rewrite Forall_forall in *. intros [t|] Ho; [|done]. apply (IH _ Ho). intros x c Hx. apply Hc.
    simpl. right. apply elem_of_list_In, in_flat_map. exists (Some t). split; by apply elem_of_list_In.
Qed.
Lemma heap_of_holds t : NoDup (addrs t) → holds (heap_of t) t.
Proof.
  intros HU. apply cells_holds. intros x c Hx. apply elem_of_list_to_map; [|done].
  by rewrite (proj1 cells_addrs).
Qed.

(** What [place] does. *)
Definition placed (n : loc) (L : list loc) (n' : loc) : Prop :=
  (n <= n')%positive ∧ NoDup L ∧ ∀ x, x ∈ L → (n <= x < n')%positive.
Lemma placed_nil n : placed n [] n.
Proof. split; [lia|]. split; [constructor|]. by intros ? ?%elem_of_nil. Qed.
Lemma placed_app n1 L1 n2 L2 n3 : placed n1 L1 n2 → placed n2 L2 n3 → placed n1 (L1 ++ L2) n3.
Proof.
  intros (?&U1&H1) (?&U2&H2). split; [lia|]. split.
  - apply NoDup_app. split; [done|]. split; [|done]. intros x Hx%H1 Hx2%H2. lia.
  - intros x [Hx%H1|Hx%H2]%elem_of_app; lia.
Qed.
Lemma placed_cons n L n' : placed (Pos.succ n) L n' → placed n (n :: L) n'.
Proof.
  intros Hp. apply (placed_app n [n] (Pos.succ n)); [|done].
  split; [lia|]. split; [apply NoDup_singleton|]. intros x ->%elem_of_list_singleton. lia.
Qed.

Lemma mapS_ok {X Y} (f : X → loc → Y * loc) (g : Y → list loc) (R : X → Y → Prop) l n :
  (∀ x n, x ∈ l → placed n (g (f x n).1) (f x n).2 ∧ R x (f x n).1) →
  placed n (flat_map g (mapS f l n).1) (mapS f l n).2 ∧ Forall2 R l (mapS f l n).1.
Proof.
  revert n. induction l as [|x l IH]; intros n Hf; simpl.
  - split; [apply placed_nil|constructor].
  - destruct (Hf x n ltac:(by left)) as [Hp HR]. destruct (f x n) as [y n1]. simpl in *.
    destruct (IH n1) as [Hp2 HR2]; [intros; apply Hf; by right|].
    destruct (mapS f l n1) as [ys n2]. simpl in *. split; [by eapply placed_app|by constructor].
Qed.

Lemma place_ok :
  (∀ t n, placed n (addrs (place t n).1) (place t n).2 ∧ strip (place t n).1 = t) ∧
  (∀ v n, placed n (addrs_val (place_val v n).1) (place_val v n).2 ∧ strip_val (place_val v n).1 = v).
Proof.
  apply tree_val_ind; try (intros; split; [apply placed_nil|done]).
  - intros p k fs IH n. rewrite Forall_forall in IH. simpl.
    set (f := λ (q : fld * aval) n, let '(v, n0) := place_val q.2 n in (q.1, v, n0)).
    destruct (mapS_ok f field_addrs (λ q q', strip_field q' = q) fs (Pos.succ n)) as [Hp HR].
    { intros [fl v] m Hx. unfold f. simpl. destruct (IH _ Hx m) as [Hp Hs]. simpl in *.
      destruct (place_val v m) as [v' m']. simpl in *. split; [done|]. unfold strip_field. simpl. by rewrite Hs. }
    destruct (mapS f fs (Pos.succ n)) as [fs' n']. simpl in *. split; [by apply placed_cons|].
    unfold strip. simpl. f_equal. clear -HR. induction HR as [|q q' ? ? E _ IH]; simpl; [done|].
    f_equal; [exact E|exact IH].
  - intros [[[] l]|] n; (split; [|done]); simpl; [apply placed_cons|]; apply placed_nil.
  - intros [[[] l]|] n; (split; [|done]); simpl; [apply placed_cons|]; apply placed_nil.
  - intros t IH n. simpl. destruct (IH n) as [Hp Hs]. destruct (place t n) as [t' n']. simpl in *.
    split; [done|]. unfold strip_val. simpl. unfold strip in Hs. by rewrite Hs.
  - intros t IH n. simpl. destruct (IH n) as [Hp Hs]. destruct (place t n) as [t' n']. simpl in *.
    split; [done|]. unfold strip_val. simpl. unfold strip in Hs. by rewrite Hs.
  - intros [] l IH n. rewrite Forall_forall in IH. simpl.
    set (f := λ (o : option ast) n, match o with
              | Some t => let '(t0, n0) := place t n in (Some t0, n0) | None => (None, n) end).
    destruct (mapS_ok f opt_addrs (λ o o', strip <$> o' = o) l (Pos.succ n)) as [Hp HR].
    { intros [t|] m Hx; simpl; [|split; [apply placed_nil|done]].
      destruct (IH _ Hx m) as [Hp Hs]. destruct (place t m) as [t' m']. simpl in *.
      split; [done|]. by rewrite Hs. }
    destruct (mapS f l (Pos.succ n)) as [l' n']. simpl in *. split; [by apply placed_cons|].
    unfold strip_val. simpl. do 3 f_equal. clear -HR. induction HR as [|q q' ? ? E _ IH]; simpl; [done|].
    f_equal; [|exact IH]. rewrite <-E. by destruct q'.
Qed.

Definition in_memory (t : ast) : mnode := (place t 1%positive).1.
Lemma in_memory_ok t :
  NoDup (addrs (in_memory t)) ∧ holds (heap_of (in_memory t)) (in_memory t) ∧ strip (in_memory t) = t.
Proof.
  unfold in_memory. destruct (proj1 place_ok t 1%positive) as [(_&HU&_) Hs].
  split; [done|]. split; [by apply heap_of_holds|done].
Qed.
