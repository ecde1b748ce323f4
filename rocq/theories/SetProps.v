(** * The properties of pkg/dag/set.go *)
From stdpp Require Import base list gmap.
From Verif Require Import GoBase SetModel SetSpec SetProofs.

(** Whatever a program does with sets, every answer is the one that independent
    mathematical sets give: no operation modifies its operands, and no two
    variables share elements. *)
Theorem C23_sets_are_independent_values {K : Type} `{Countable K}
    (p : list (schedule K * sop (K:=K))) rs st :
  Forall (λ c, legal c.1) p → srun p (∅, []) = Ok (rs, st) →
  ∃ vs, set_spec_run [] (map snd p) rs vs.
Proof. exact (p23r p rs st). Qed.
(** {1,2,3}, {2,3,4}, then intersection, difference, a copy of the first set that is
    modified, and a list of the first set. *)
Definition set_program : list (schedule nat * sop (K:=nat)) :=
  map (λ o, (λ n l, reverse l, o))
    [SMake; SAdd 0 1; SAdd 0 2; SAdd 0 3; SMake; SAdd 1 4; SAdd 1 3; SAdd 1 2;
     SIntersection 0 1; SDifference 0 1; SCopy 0; SDelete 4 1; SAdd 4 9;
     SFilter 0 Nat.even; SList 0; SList 2; SList 3; SList 4; SList 5; SList 6; SIncludes 4 1].
Example C23_example :
  Forall (λ c, legal c.1) set_program ∧
  match srun set_program (∅, []) with
  | Ok (rs, _) => drop 14 rs =
      [SSlice (Some [2; 3; 1]); SSlice (Some [2; 3]); SSlice (Some [1]); SSlice (Some [2; 9; 3]);
       SSlice (Some [2]); SSlice None; SBool false]
  | _ => False
  end.
Proof.
  split; [|by vm_compute].
  apply Forall_map, Forall_true. intros o n l. apply reverse_Permutation.
Qed.
Print Assumptions C23_sets_are_independent_values.

Theorem C23_only_panic_is_add_to_nil {K : Type} `{Countable K}
    (p : list (schedule K * sop (K:=K))) σ o rs st :
  Forall (λ c, legal c.1) p → legal σ → srun p (∅, []) = Ok (rs, st) →
  ∃ vs, set_spec_run [] (map snd p) rs vs ∧
    ((set_panics vs o ∧ srun (p ++ [(σ, o)]) (∅, []) = Panic) ∨
     (¬ set_panics vs o ∧ ∃ r vs' st', srun (p ++ [(σ, o)]) (∅, []) = Ok (rs ++ [r], st') ∧ set_spec vs o r vs')).
Proof. exact (p23p p σ o rs st). Qed.
Example C23_panic_example :
  srun (set_program ++ [(λ n l, l, SAdd 7 1)]) (∅, []) = Panic ∧
  is_Ok (srun (set_program ++ [(λ n l, l, SIntersection 7 1)]) (∅, [])).
Proof. split; by vm_compute. Qed.
Print Assumptions C23_only_panic_is_add_to_nil.
