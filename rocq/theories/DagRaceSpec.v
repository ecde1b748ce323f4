(** * Vocabulary: calls in several goroutines *)
From stdpp Require Import base list gmap.
From Verif Require Import GoBase SetModel DagModel DagMem DagProg.

Section race.
Context {K T : Type} `{Countable K} `{Inhabited T} (isz : K → bool).
Notation prog := (prog K T).
Notation mem := (mem K T).

(** One step of a goroutine.  A new cell is any free one. *)
Inductive pstep {A} : mem → prog A → mem → prog A → Prop :=
| s_read m l k : pstep m (Read l k) m (k (cells m !! l))
| s_put m l c k : pstep m (Put l c k) (put m l c) k
| s_new m c k l : cells m !! l = None → pstep m (New c k) (put m l c) (k l)
| s_self m k : pstep m (Self k) m (k (this m))
| s_set_self m u k : pstep m (SetSelf u k) (Mem (cells m) (u (this m))) k
| s_order m ks k ks' : ks' ≡ₚ ks → pstep m (Order ks k) m (k ks')
| s_fuel m k n : pstep m (Fuel k) m (k n).
(** The steps of one goroutine, alone *)
Definition astep {A} (s s' : mem * prog A) : Prop := pstep s.1 s.2 s'.1 s'.2.
(** One step of any goroutine *)
Inductive tstep {A} : mem * list (prog A) → mem * list (prog A) → Prop :=
| t_step m ps i p m' p' : ps !! i = Some p → pstep m p m' p' → tstep (m, ps) (m', <[i := p']> ps).

(** What a goroutine accesses next: the fields of the graph ([None]) or a map; [true] if it
    changes it. *)
Definition access {A} (p : prog A) : option (option loc * bool) :=
  match p with
  | Read l _ => Some (Some l, false)
  | Put l _ _ => Some (Some l, true)
  | Self _ => Some (None, false)
  | SetSelf _ _ => Some (None, true)
  | _ => None
  end.
(** A data race: two goroutines are about to access the same memory and one changes it. *)
Definition race {A} (ps : list (prog A)) : Prop :=
  ∃ i j p q x b b', i ≠ j ∧ ps !! i = Some p ∧ ps !! j = Some q ∧
    access p = Some (x, b) ∧ access q = Some (x, b') ∧ (b = true ∨ b' = true).
Definition panics {A} (ps : list (prog A)) : Prop := Stop ∈ ps.

(** The goroutine reads the map or slice that it gets. *)
Definition as_slice (c : option (cell K T)) : list K := match c with Some (CSlice s) => s | _ => [] end.
Definition pread (r : hout K T) : prog (out K T) :=
  match r with
  | HErr e => Ret (RErr e)
  | HVertex r => Ret (RVertex r)
  | HBool r => Ret (RBool r)
  | HInt n => Ret (RInt n)
  | HMap l => Read l (λ c, Ret (RMap (as_verts c)))
  | HMapErr (inl e) => Ret (RMapErr (inl e))
  | HMapErr (inr l) => Read l (λ c, Ret (RMapErr (inr (as_verts c))))
  | HList (inl e) => Ret (RList (inl e))
  | HList (inr l) => Read l (λ c, Ret (RList (inr (as_slice c))))
  | HUnit => Ret RUnit
  | HText s => Ret (RText s)
  end.
(** A goroutine that makes some calls, and ends with what it read in their results *)
Fixpoint goroutine (os : list (op K T)) : prog (list (out K T)) :=
  match os with
  | [] => Ret []
  | o :: os => pbind (pcall isz o) (λ r, pbind (pread r) (λ x, pbind (goroutine os) (λ xs, Ret (x :: xs))))
  end.
(** The goroutine of a walker: AncestorsWalker if [up], DescendantsWalker if not
    (dag.go:429-478, 488-537).  It may halt anywhere, to wait for its client or to stop. *)
Definition walker (up : bool) (id : K) : prog (list (out K T)) :=
  pmap (λ _, []) (pwalk (if up then rinbound else routbound) id).
Inductive task : Type := Calls (os : list (op K T)) | Walk (up : bool) (id : K).
Definition task_prog (t : task) : prog (list (out K T)) :=
  match t with Calls os => goroutine os | Walk up id => walker up id end.
Definition task_calls (t : task) : list (op K T) := match t with Calls os => os | Walk _ _ => [] end.
(** The goroutines [ts], started in the memory [m], get to the state [s]. *)
Definition reaches (m : mem) (ts : list task) (s : mem * list (prog (list (out K T)))) : Prop :=
  rtc tstep (m, map task_prog ts) s.
(** The cache has every vertex.  ([ranc] and [rdesc] are the maps ancestorsCache and
    descendantsCache.) *)
Definition complete (m : mem) (cache : gref → loc) : Prop :=
  ∀ k, is_Some (verts_at m (rvertices (this m)) !! k) → is_Some (sets_at m (cache (this m)) !! k).
End race.
Global Arguments task K T : clear implicits.
Global Arguments Calls {K T} _.
Global Arguments Walk {K T} _ _.

(** Calls that do not change the graph *)
Definition query {K T} (o : op K T) : bool :=
  match o with
  | OpAddVertex _ _ | OpDeleteVertex _ | OpAddEdge _ _ | OpDeleteEdge _ _ | OpReduceTransitively => false
  | _ => true
  end.
(** The two of them that use the caches *)
Definition asks_ancestors {K T} (o : op K T) : bool := match o with OpGetAncestors _ => true | _ => false end.
Definition asks_descendants {K T} (o : op K T) : bool := match o with OpGetDescendants _ => true | _ => false end.
(** At most one goroutine makes a call of the kind. *)
Definition in_one {K T} (kind : op K T → bool) (ts : list (task K T)) : Prop :=
  ∀ i j t t' o o', ts !! i = Some t → ts !! j = Some t' → o ∈ task_calls t → o' ∈ task_calls t' → kind o = true → kind o' = true → i = j.
Definition queries {K T} (t : task K T) : Prop := ∀ o, o ∈ task_calls t → query o = true.
