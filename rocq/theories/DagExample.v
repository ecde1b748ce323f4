(** * A concrete graph for the examples beside the property theorems *)
From stdpp Require Import base list gmap relations sorting strings pretty.
From Verif Require Import GoBase SetModel DagModel DagSpec DagObs.

(** Keys are numbers, the zero value is 0; payloads are numbers. *)
Definition nz : nat → bool := Nat.eqb 0.

(** An iteration order that alternates between loops. *)
Definition zigzag : schedule nat := λ n l, if Nat.even n then reverse l else l.
Lemma zigzag_legal : legal zigzag.
Proof. intros n l. unfold zigzag. destruct (Nat.even n); [apply reverse_Permutation|done]. Qed.
Lemma any_order_legal : legal (any_order (K:=nat)).
Proof. by intros n l. Qed.

(** 1 → 2 → 3 → 5, 1 → 4 → 3, and the redundant edge 1 → 3; 6 is isolated.  The
    queries in between fill the caches. *)
Definition ex_ops : list (op nat nat) :=
  [OpAddVertex 1 10; OpAddVertex 2 20; OpAddVertex 3 30; OpAddVertex 4 40;
   OpAddVertex 5 50; OpAddVertex 6 60;
   OpAddEdge 1 2; OpAddEdge 2 3; OpGetDescendants 1; OpAddEdge 1 3; OpAddEdge 1 4;
   OpAddEdge 4 3; OpGetAncestors 3; OpAddEdge 3 5].
Definition ex_history : list (schedule nat * op nat nat) :=
  map (λ o, (zigzag, o)) ex_ops.
Definition ex : graph nat nat :=
  match run nz ex_history NewAcyclicGraph with Ok (_, g) => g | _ => NewAcyclicGraph end.
Lemma ex_history_legal : legal_history ex_history.
Proof. apply Forall_map, Forall_true. intros o. apply zigzag_legal. Qed.
Lemma ex_reachable : reachable nz ex.
Proof.
  exists ex_history. eexists. split; [apply ex_history_legal|]. vm_compute. reflexivity.
Qed.
Definition ids (r : res (out nat nat * graph nat nat)) : option (list nat) :=
  match r with
  | Ok (RMapErr (inr m), _) | Ok (RMap m, _) => Some (merge_sort le (elements (dom m)))
  | Ok (RList (inr l), _) => Some l
  | _ => None
  end.
Definition after (o : op nat nat) (g : graph nat nat) : graph nat nat :=
  match call nz zigzag o g with Ok (_, g') => g' | _ => g end.
Definition reply (o : op nat nat) (g : graph nat nat) : option (out nat nat) :=
  match call nz zigzag o g with Ok (r, _) => Some r | _ => None end.

Definition said_yes (r : res (out nat nat * graph nat nat)) : bool :=
  match r with Ok (RBool (true, None), _) => true | _ => false end.
Lemma no_edge g s t : said_yes (call nz any_order (OpIsEdge s t) g) = false → ¬ has_edge nz g s t.
Proof. unfold has_edge. intros Hno Heq. by rewrite Heq in Hno. Qed.
Lemma an_edge (g : graph nat nat) s t : isEdge nz g s t = (true, None) → has_edge nz g s t.
Proof. unfold has_edge, call, exec, IsEdge. simpl. unfold mapM, bind, get, ret. by intros ->. Qed.
Lemma a_vertex (g : graph nat nat) v x :
  checkVertexID nz g v = None → vertices g !! v = Some x → has_vertex nz g v x.
Proof.
  unfold has_vertex, call, exec, GetVertex. simpl. unfold mapM, bind, get, ret, vertex.
  by intros -> ->.
Qed.
Lemma is_known (g : graph nat nat) v x : has_vertex nz g v x → known nz g v.
Proof. by exists x. Qed.

(** Decide the conjuncts of an example by computation. *)
Ltac by_computing := repeat match goal with |- _ ∧ _ => apply conj end;
  lazymatch goal with
  | |- reachable _ _ => exact ex_reachable
  | |- legal _ => exact zigzag_legal
  | |- legal_history _ => exact ex_history_legal
  | |- known _ _ ?v => apply (is_known _ _ (10 * v)), a_vertex; vm_compute; reflexivity
  | |- has_edge _ _ _ _ => apply an_edge; vm_compute; reflexivity
  | |- is_Some _ => eexists; vm_compute; reflexivity
  | |- is_Ok _ => vm_compute; exact I
  | |- ¬ has_edge _ _ _ _ => apply no_edge; vm_compute; reflexivity
  | |- _ ≠ _ => refine (bool_decide_eq_false_1 _ _); vm_compute; reflexivity
  | |- _ => vm_compute; reflexivity
  end.
