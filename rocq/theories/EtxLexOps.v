(** * Operators and identifiers *)
From stdpp Require Import base list option strings.
From Coq Require Import Ascii Lia.
From Verif Require Import GoBase EtxHeap EtxText EtxTextFacts EtxLex EtxLexSpec EtxLexFacts EtxLexNest.

(** ** Patterns that cannot match

    What a pattern can do on a text of which only the first characters are known: the
    known characters that are left, or None when it goes beyond them. *)
Fixpoint amatch (r : re) (u : text) : list (option text) :=
  match r with
  | RSet p => match u with [] => [None] | c :: v => if is_ascii_byte c && p c then [Some v] else [] end
  | RNot p =>
      match u with
      | [] => [None]
      | c :: v => if is_ascii_byte c then (if p c then [] else [Some v]) else [None]
      end
  | REps => [Some u]
  | RCat r1 r2 =>
      flat_map (λ o, match o with Some v => amatch r2 v | None => [None] end) (amatch r1 u)
  | RAlt r1 r2 => amatch r1 u ++ amatch r2 u
  | RStar r | RLazy r =>
      (fix star (n : nat) (u : text) : list (option text) :=
         match n with
         | 0 => [None]
         | S n =>
             flat_map (λ o, match o with Some v => star n v | None => [None] end) (amatch r u) ++ [Some u]
         end) (length u) u
  | RWordB => [Some u]
  | RGroup r => amatch r u
  end.
Definition covers (l : list (option text)) (tail : text) (y : spot) : Prop :=
  None ∈ l ∨ ∃ v, Some v ∈ l ∧ rest y = v ++ tail.
Lemma covers_flat_map l f tail z y :
  covers l tail z → (∀ v, Some v ∈ l → rest z = v ++ tail → covers (f v) tail y) →
  covers (flat_map (λ o, match o with Some v => f v | None => [None] end) l) tail y.
Proof.
  intros [Hn|(v & Hv & Hz)] Hf.
  - left. apply elem_of_list_In, in_flat_map. exists None. rewrite <- !elem_of_list_In. split; [done|left].
  - destruct (Hf v Hv Hz) as [Hn|(w & Hw & Hy)]; [left|right; exists w; split; [|done]];
      apply elem_of_list_In, in_flat_map; exists (Some v); by rewrite <- !elem_of_list_In.
Qed.
Lemma amatch_sound r tail u x y :
  y ∈ matches r x → rest x = u ++ tail → covers (amatch r u) tail y.
Proof.
  revert u x y. induction r as [p|p| |r1 IH1 r2 IH2|r1 IH1 r2 IH2|r IH|r IH| |r IH]; intros u x y Hy Hx; simpl in Hy.
  - rewrite Hx in Hy. destruct u as [|c u]; [left; left|]. simpl in *.
    destruct (is_ascii_byte c && p c); [|by apply elem_of_nil in Hy].
    apply elem_of_list_singleton in Hy as ->. right. exists u. split; [left|done].
  - rewrite Hx in Hy. destruct u as [|c u]; [left; left|]. simpl in *.
    destruct (is_ascii_byte c) eqn:Hc; [|left; left]. simpl in Hy.
    destruct (p c); [by apply elem_of_nil in Hy|]. apply elem_of_list_singleton in Hy as ->.
    right. exists u. split; [left|]. done.
  - apply elem_of_list_singleton in Hy as ->. right. exists u. split; [left|done].
  - apply elem_of_list_In, in_flat_map in Hy as (z & Hz & Hy). apply elem_of_list_In in Hz, Hy.
    simpl. eapply covers_flat_map; [by eapply IH1|]. intros v Hv Hzv. by eapply IH2.
  - simpl. apply elem_of_app in Hy as [Hy|Hy].
    + destruct (IH1 _ _ _ Hy Hx) as [?|(v & ? & ?)]; [left|right; exists v; split; [|done]]; apply elem_of_app; by left.
    + destruct (IH2 _ _ _ Hy Hx) as [?|(v & ? & ?)]; [left|right; exists v; split; [|done]]; apply elem_of_app; by right.
  - simpl. revert Hy. generalize (length (rest x)) as m, (length u) as n. intros m n. revert u x n Hx.
    induction m as [|m IHm]; intros u x n Hx Hy; (destruct n as [|n]; [left; left|]).
    + apply elem_of_list_singleton in Hy as ->. right. exists u. split; [|done].
      apply elem_of_app. right. left.
    + apply elem_of_app in Hy as [Hy|Hy].
      * apply elem_of_list_In, in_flat_map in Hy as (z & Hz & Hy). apply elem_of_list_In in Hz, Hy.
        match goal with |- covers (?l1 ++ ?l2) _ _ => assert (covers l1 tail y) as [?|(v & ? & ?)] end.
        { eapply covers_flat_map; [by eapply IH|]. intros v _ Hzv. by eapply IHm. }
        -- left. apply elem_of_app. by left.
        -- right. exists v. split; [|done]. apply elem_of_app. by left.
      * apply elem_of_list_singleton in Hy as ->. right. exists u. split; [|done].
        apply elem_of_app. right. left.
  - simpl. revert Hy. generalize (length (rest x)) as m, (length u) as n. intros m n. revert u x n Hx.
    induction m as [|m IHm]; intros u x n Hx Hy; (destruct n as [|n]; [left; left|]).
    + apply elem_of_list_singleton in Hy as ->. right. exists u. split; [|done].
      apply elem_of_app. right. left.
    + apply elem_of_cons in Hy as [Hy|Hy].
      * subst y. right. exists u. split; [|done]. apply elem_of_app. right. left.
      * apply elem_of_list_In, in_flat_map in Hy as (z & Hz & Hy). apply elem_of_list_In in Hz, Hy.
        match goal with |- covers (?l1 ++ ?l2) _ _ => assert (covers l1 tail y) as [?|(v & ? & ?)] end.
        { eapply covers_flat_map; [by eapply IH|]. intros v _ Hzv. by eapply IHm. }
        -- left. apply elem_of_app. by left.
        -- right. exists v. split; [|done]. apply elem_of_app. by left.
  - destruct (xorb _ _); [|by apply elem_of_nil in Hy]. apply elem_of_list_singleton in Hy as ->.
    right. exists u. split; [left|done].
  - apply elem_of_list_fmap in Hy as (z & -> & Hz). simpl. destruct (IH _ _ _ Hz Hx) as [?|(v & ? & ?)]; [by left|].
    right. by exists v.
Qed.
Definition dead (r : re) (u : text) : bool := match amatch r u with [] => true | _ => false end.
Lemma dead_find r u tail : dead r u = true → find r (u ++ tail) = None.
Proof.
  unfold dead, find. intros Hd. destruct (matches r (Spot None (u ++ tail) None)) as [|y l] eqn:E; [done|].
  assert (y ∈ matches r (Spot None (u ++ tail) None)) as Hy by (rewrite E; left).
  destruct (amatch_sound r tail u _ y Hy eq_refl) as [H|(v & H & _)];
    destruct (amatch r u); [by apply elem_of_nil in H|done|by apply elem_of_nil in H|done].
Qed.

(** ** Which rule is the first to match *)
Lemma first_match_at l i s r y :
  l !! i = Some r → (∀ j r', j < i → l !! j = Some r' → find (pattern r') s = None) →
  find (pattern r) s = Some y → first_match l s = Some (r, y).
Proof.
  revert i. induction l as [|r0 l IH]; intros [|i] Hr Hpre Hy; simpl in *; try done.
  - injection Hr as ->. by rewrite Hy.
  - rewrite (Hpre 0 r0) by (done || lia). apply (IH i); [done| |done].
    intros j r' Hj. apply (Hpre (S j)). lia.
Qed.
Lemma lex_step_some st fr p s r y v :
  first_match (rules fr) s = Some (r, y) → s = v ++ rest y → v ≠ [] →
  lex_step (fr :: st) p s = Some (Token (rname r) v p, rest y, apply_action (act r) y (fr :: st)).
Proof.
  intros H Hs Hv. unfold lex_step. rewrite H.
  assert (take (length s - length (rest y)) s = v) as -> by (rewrite Hs; apply app_take_eq).
  by rewrite decide_False.
Qed.

Lemma rlit_find o s :
  ascii_text (chars o) → find (RLit o) (chars o ++ s) = Some (Spot (last (chars o)) s None).
Proof.
  intros Ha. unfold find, RLit. rewrite (rtext_some (chars o) _ s) by done. simpl. by destruct (last (chars o)).
Qed.
Definition all_ascii : list ascii :=
  let b := [false; true] in
  b7 ← b; b6 ← b; b5 ← b; b4 ← b; b3 ← b; b2 ← b; b1 ← b; b0 ← b; [Ascii b0 b1 b2 b3 b4 b5 b6 b7].
Lemma all_ascii_complete c : c ∈ all_ascii.
Proof.
  assert (existsb (Ascii.eqb c) all_ascii = true) as H.
  { destruct c as [b0 b1 b2 b3 b4 b5 b6 b7]. destruct b0, b1, b2, b3, b4, b5, b6, b7; vm_compute; reflexivity. }
  apply existsb_exists in H as (d & Hd & Hc). apply Ascii.eqb_eq in Hc as ->. by apply elem_of_list_In.
Qed.
Definition code_states : list state := [SRoot; SStringExpr].

(** The place of the rule of an operator, and the check that no rule in front of it can
    match. *)
Definition place (l : list rule) (k : tname) : nat :=
  match list_find (λ r, rname r = k) l with Some (i, _) => i | None => length l end.
Definition op_check (l : list rule) (o : string) (k : tname) : bool :=
  forallb (λ c, extends o c || forallb (λ r, dead (pattern r) (chars o ++ [c])) (take (place l k) l)) all_ascii.
Definition op_check_end (l : list rule) (o : string) (k : tname) : bool :=
  forallb (λ r, match find (pattern r) (chars o) with None => true | Some _ => false end) (take (place l k) l).

Lemma op_checks :
  Forall (λ m, Forall (λ ok, m = SStringExpr ∧ fst ok = "}" ∨
    rules (m, []) !! place (rules (m, [])) (snd ok) = Some (op (snd ok) (fst ok)) ∧
    op_check (rules (m, [])) (fst ok) (snd ok) = true ∧ op_check_end (rules (m, [])) (fst ok) (snd ok) = true ∧
    forallb is_ascii_byte (chars (fst ok)) = true ∧ chars (fst ok) ≠ []) operators) code_states.
Proof.
  unfold code_states, operators.
  repeat (apply Forall_cons; split); try apply List.Forall_nil;
    try (right; split; [reflexivity|]; split; [vm_compute; reflexivity|]; split; [vm_compute; reflexivity|]; split; [vm_compute; reflexivity|discriminate]).
  left. done.
Qed.
