(** * Model of pkg/dag/set.go

    A Go [Set[T]] is a [map[T]T] (set.go:4); the model keeps it a map from keys to
    values, and not a mathematical set.  A nil map is [None].  The key type is any
    countable type with decidable (reflexive) equality: NaN keys and interface
    keys holding incomparable values are outside the model. *)
From stdpp Require Import base list gmap.
From Verif Require Import GoBase.

(** set.go:4.  A non-nil [Set]. *)
Notation goset K := (gmap K K) (only parsing).
(** A reference to a map, and a variable that holds one or nil. *)
Notation loc := nat (only parsing).
Notation setvar := (option loc) (only parsing).

Section set.
Context {K : Type} `{Countable K}.

(** Keys of a Go map in the order chosen by the schedule for loop number [n]. *)
Definition range_keys {V} (σ : schedule K) (n : nat) (m : gmap K V) : list K :=
  σ n (map_to_list m).*1.

(** [for _, v := range s]: the values met by loop number [n]. *)
Definition range_vals (σ : schedule K) (n : nat) (s : goset K) : list K :=
  omap (λ k, s !! k) (range_keys σ n s).

(** set.go:7-9 (Add) on a non-nil set: [s[v] = v]. *)
Definition set_add (v : K) (s : goset K) : goset K := <[v := v]> s.

(** set.go:12-14 (Delete) on a non-nil set; deleting from a nil map is a no-op. *)
Definition set_delete (v : K) (s : goset K) : goset K := delete v s.

(** set.go:17-21 (Includes). *)
Definition set_includes (s : goset K) (v : K) : bool := bool_decide (is_Some (s !! v)).

(** ** Sets as references

    A [Set] variable is a reference to a map, or nil.  The heap holds the maps. *)
Notation heap := (gmap loc (goset K)).

(** [s[v]] for reading: a nil map reads as an empty one. *)
Definition hread (h : heap) (s : setvar) : goset K :=
  match s with None => ∅ | Some l => default ∅ (h !! l) end.
(** [make(Set[T])]: a new map. *)
Definition hmake (h : heap) : heap * setvar :=
  let l := fresh (dom h) in (<[l := ∅]> h, Some l).

(** set.go:7-9 (Add): [s[v] = v], a panic on a nil map. *)
Definition Set_Add (s : setvar) (v : K) (h : heap) : res heap :=
  match s with
  | None => Panic
  | Some l => Ok (<[l := <[v := v]> (hread h s)]> h)
  end.

(** set.go:12-14 (Delete): a no-op on a nil map. *)
Definition Set_Delete (s : setvar) (v : K) (h : heap) : heap :=
  match s with
  | None => h
  | Some l => <[l := delete v (hread h s)]> h
  end.

(** set.go:17-21 (Includes). *)
Definition Set_Includes (s : setvar) (v : K) (h : heap) : bool :=
  bool_decide (is_Some (hread h s !! v)).

(** Run the loop body on the keys in turn. *)
Fixpoint hloop (body : K → heap → res heap) (ks : list K) (h : heap) : res heap :=
  match ks with
  | [] => Ok h
  | k :: ks =>
      match body k h with
      | Ok h => hloop body ks h
      | Panic => Panic
      | OutOfFuel => OutOfFuel
      end
  end.
(** [for k, v := range s { body }]: the keys are visited in the order of the
    schedule, the values are read when the key is visited; an entry removed in
    the meantime is not visited. *)
Definition hrange (σ : schedule K) (s : setvar) (body : K → K → heap → res heap)
    (h : heap) : res heap :=
  hloop (λ k h, match hread h s !! k with Some v => body k v h | None => Ok h end)
        (range_keys σ 0 (hread h s)) h.
Definition hreturn (s : setvar) (r : res heap) : res (heap * setvar) :=
  match r with Ok h => Ok (h, s) | Panic => Panic | OutOfFuel => OutOfFuel end.

(** set.go:24-43 (Intersection): the smaller set is iterated. *)
Definition Set_Intersection (σ : schedule K) (s other : setvar) (h : heap)
    : res (heap * setvar) :=
  let '(h, r) := hmake h in
  match s, other with
  | Some _, Some _ =>
      let '(s, other) :=
        if decide (size (hread h other) < size (hread h s)) then (other, s) else (s, other) in
      hreturn r (hrange σ s (λ _ v h,
        if Set_Includes other v h then Set_Add r v h else Ok h) h)
  | _, _ => Ok (h, r)
  end.

(** set.go:91-99 (Copy); a copy of nil is an empty, non-nil set. *)
Definition Set_Copy (σ : schedule K) (s : setvar) (h : heap) : res (heap * setvar) :=
  let '(h, c) := hmake h in
  hreturn c (hrange σ s (λ k v h,
    match c with
    | None => Panic
    | Some l => Ok (<[l := <[k := v]> (hread h c)]> h)
    end) h).

(** set.go:46-60 (Difference). *)
Definition Set_Difference (σ : schedule K) (s other : setvar) (h : heap)
    : res (heap * setvar) :=
  if decide (size (hread h other) = 0) then Set_Copy σ s h
  else
    let '(h, r) := hmake h in
    hreturn r (hrange σ s (λ k v h,
      match hread h other !! k with
      | None => Set_Add r v h
      | Some _ => Ok h
      end) h).

(** set.go:64-74 (Filter); the callback is a pure predicate. *)
Definition Set_Filter (σ : schedule K) (s : setvar) (cb : K → bool) (h : heap)
    : res (heap * setvar) :=
  let '(h, r) := hmake h in
  hreturn r (hrange σ s (λ _ v h, if cb v then Set_Add r v h else Ok h) h).

(** set.go:77-88 (List): nil for a nil set, otherwise a non-nil slice. *)
Definition Set_List (σ : schedule K) (s : setvar) (h : heap) : option (list K) :=
  match s with
  | None => None
  | Some _ => Some (range_vals σ 0 (hread h s))
  end.

(** ** Programs that use sets

    A program has a list of [Set] variables; each command uses some of them and may
    append the resulting set as a new variable.  A variable that does not exist
    reads as nil. *)
Inductive sop : Type :=
| SMake
| SAdd (i : nat) (v : K)
| SDelete (i : nat) (v : K)
| SIncludes (i : nat) (v : K)
| SIntersection (i j : nat)
| SDifference (i j : nat)
| SFilter (i : nat) (cb : K → bool)
| SList (i : nat)
| SCopy (i : nat).
Inductive sout : Type :=
| SDone
| SBool (b : bool)
| SSlice (l : option (list K)).

Notation sstate := (heap * list setvar)%type.
Definition svar (vs : list setvar) (i : nat) : setvar := default None (vs !! i).
Definition spush (vs : list setvar) (r : res (heap * setvar)) : res (sout * sstate) :=
  match r with
  | Ok (h, s) => Ok (SDone, (h, vs ++ [s]))
  | Panic => Panic
  | OutOfFuel => OutOfFuel
  end.
Definition sexec (σ : schedule K) (o : sop) (st : sstate) : res (sout * sstate) :=
  let '(h, vs) := st in
  match o with
  | SMake => spush vs (Ok (hmake h))
  | SAdd i v =>
      match Set_Add (svar vs i) v h with
      | Ok h => Ok (SDone, (h, vs))
      | Panic => Panic
      | OutOfFuel => OutOfFuel
      end
  | SDelete i v => Ok (SDone, (Set_Delete (svar vs i) v h, vs))
  | SIncludes i v => Ok (SBool (Set_Includes (svar vs i) v h), st)
  | SIntersection i j => spush vs (Set_Intersection σ (svar vs i) (svar vs j) h)
  | SDifference i j => spush vs (Set_Difference σ (svar vs i) (svar vs j) h)
  | SFilter i cb => spush vs (Set_Filter σ (svar vs i) cb h)
  | SList i => Ok (SSlice (Set_List σ (svar vs i) h), st)
  | SCopy i => spush vs (Set_Copy σ (svar vs i) h)
  end.
Fixpoint srun (p : list (schedule K * sop)) (st : sstate) : res (list sout * sstate) :=
  match p with
  | [] => Ok ([], st)
  | (σ, o) :: p =>
      match sexec σ o st with
      | Ok (r, st) =>
          match srun p st with
          | Ok (rs, st) => Ok (r :: rs, st)
          | Panic => Panic
          | OutOfFuel => OutOfFuel
          end
      | Panic => Panic
      | OutOfFuel => OutOfFuel
      end
  end.

End set.
