(** * The results of the recursive functions do not depend on the fuel *)
From stdpp Require Import base list gmap.
From Verif Require Import GoBase SetModel DagModel.

Section fuel.
Context {K T : Type} `{Countable K} `{Inhabited T} (isz : K → bool) (σ : schedule K).
Notation graph := (graph K T).
Notation M := (M (K:=K) (T:=T)).
Implicit Types g : graph.

(** Whatever [m1] finishes with, [m2] finishes with as well. *)
Definition fle {A} (m1 m2 : M A) : Prop := ∀ g n x, m1 g n = Ok x → m2 g n = Ok x.

Lemma fle_refl {A} (m : M A) : fle m m.
Proof. by intros g n x. Qed.
Lemma fle_bind {A B} (m1 m2 : M A) (f1 f2 : A → M B) :
  fle m1 m2 → (∀ a, fle (f1 a) (f2 a)) → fle (bind m1 f1) (bind m2 f2).
Proof.
  intros Hm Hf g n x. unfold bind. destruct (m1 g n) as [[[a g1] n1]| |] eqn:E; [|done..].
  rewrite (Hm _ _ _ E). apply Hf.
Qed.
Lemma fle_for_each {A B} (l : list B) (b1 b2 : A → B → M A) acc :
  (∀ a x, fle (b1 a x) (b2 a x)) → fle (for_each l b1 acc) (for_each l b2 acc).
Proof.
  intros Hb. revert acc. induction l as [|x l IH]; intros acc; simpl; [apply fle_refl|].
  apply fle_bind; [apply Hb|done].
Qed.

Ltac fle := repeat first
  [ apply fle_refl | apply fle_bind; [|intros ?] | apply fle_for_each; intros ? ?
  | match goal with |- fle (match ?x with _ => _ end) _ => destruct x end ].

Lemma getAncestorsIDs_fuel f1 f2 id :
  f1 ≤ f2 → fle (getAncestorsIDs isz σ f1 id) (getAncestorsIDs isz σ f2 id).
Proof.
  revert f2 id. induction f1 as [|f1 IH]; intros [|f2] id Hf; try lia; [by intros ? ? ?..|].
  simpl. fle. apply IH. lia.
Qed.
Lemma getDescendantsIDs_fuel f1 f2 id :
  f1 ≤ f2 → fle (getDescendantsIDs isz σ f1 id) (getDescendantsIDs isz σ f2 id).
Proof.
  revert f2 id. induction f1 as [|f1 IH]; intros [|f2] id Hf; try lia; [by intros ? ? ?..|].
  simpl. fle. apply IH. lia.
Qed.
Lemma walkAncestorsLoop_fuel f1 f2 fifo visited sent :
  f1 ≤ f2 → fle (walkAncestorsLoop σ f1 fifo visited sent) (walkAncestorsLoop σ f2 fifo visited sent).
Proof.
  revert f2 fifo visited sent. induction f1 as [|f1 IH]; intros [|f2] fifo visited sent Hf; try lia; [by intros ? ? ?..|].
  simpl. fle. apply IH. lia.
Qed.
Lemma walkDescendantsLoop_fuel f1 f2 fifo visited sent :
  f1 ≤ f2 → fle (walkDescendantsLoop σ f1 fifo visited sent) (walkDescendantsLoop σ f2 fifo visited sent).
Proof.
  revert f2 fifo visited sent. induction f1 as [|f1 IH]; intros [|f2] fifo visited sent Hf; try lia; [by intros ? ? ?..|].
  simpl. fle. apply IH. lia.
Qed.

(*P C20_fuel_irrelevant *)
Lemma p20f f1 f2 g n :
  f1 ≤ f2 →
  (∀ id x, getAncestorsIDs isz σ f1 id g n = Ok x → getAncestorsIDs isz σ f2 id g n = Ok x) ∧
  (∀ id x, getDescendantsIDs isz σ f1 id g n = Ok x → getDescendantsIDs isz σ f2 id g n = Ok x) ∧
  (∀ fifo visited sent x,
     walkAncestorsLoop σ f1 fifo visited sent g n = Ok x →
     walkAncestorsLoop σ f2 fifo visited sent g n = Ok x) ∧
  (∀ fifo visited sent x,
     walkDescendantsLoop σ f1 fifo visited sent g n = Ok x →
     walkDescendantsLoop σ f2 fifo visited sent g n = Ok x).
Proof.
  intros Hf. split_and!.
  - intros id x. by apply getAncestorsIDs_fuel.
  - intros id x. by apply getDescendantsIDs_fuel.
  - intros fifo visited sent x. by apply walkAncestorsLoop_fuel.
  - intros fifo visited sent x. by apply walkDescendantsLoop_fuel.
Qed.
End fuel.
