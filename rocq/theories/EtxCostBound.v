(** * How long the parser takes at most *)
From stdpp Require Import base list option strings sets.
From Coq Require Import Ascii Lia.
From Verif Require Import GoBase EtxAst EtxHeap EtxHeapSpec EtxText EtxLex EtxLexSpec EtxLexFacts EtxUtil EtxGram
  EtxParse EtxParseBase EtxParseSpec EtxParseStore EtxIterProofs EtxCost EtxCostProofs.

(** How often a struct is tried in [g], if those tried later are twice as cheap. *)
Fixpoint weight (g : gexp) : nat :=
  match g with
  | GLit _ | GTok _ => 0
  | GSub _ _ => 1
  | GCap _ g | GOpt g => weight g
  | GSeq gs | GAlt gs => (fix go gs := match gs with [] => 0 | g :: gs => weight g + go gs end) gs
  | GMany g | GSome g => 2 * weight g
  end.
Definition weights (gs : list gexp) : nat := (fix go gs := match gs with [] => 0 | g :: gs => weight g + go gs end) gs.
Lemma weights_cons g gs : weights (g :: gs) = weight g + weights gs.
Proof. done. Qed.
Section bound.
Context (sub : kind → list token → parsed * nat).
Context (Hmoves : ∀ k ts, moves_struct (negb (empty_struct k)) ts (sub k ts).1).
Context (len r : nat) (Z : nat → nat).
Context (Hsub : ∀ k ts, length ts < len ∨ length ts = len ∧ rank k < r → (sub k ts).2 ≤ Z (length ts)).
Context (Hdouble : ∀ i j, i < j → j ≤ len → 2 * Z i ≤ Z j).
Definition inside (g : gexp) (x : ctx) : Prop :=
  length (todo x) < len ∨ length (todo x) = len ∧ Forall (λ k, rank k < r) (heads g).
Lemma Z_mono i j : i ≤ j → j ≤ len → Z i ≤ Z j.
Proof. intros H1 H2. destruct (decide (i = j)) as [->|]; [done|]. pose proof (Hdouble i j). lia. Qed.
Lemma inside_le g x : inside g x → length (todo x) ≤ len.
Proof. intros [|[? _]]; lia. Qed.
Lemma cost_moves g x : moves (negb (nullable g)) x (eval_cost sub g x).1.
Proof. rewrite (eval_erased (λ k ts, (sub k ts).1)) by done. by apply eval_moves. Qed.
Lemma many_bound g some n acc x :
  (∀ x, inside g x → (eval_cost sub g x).2 ≤ weight g * Z (length (todo x))) → nullable g = false → inside g x →
  (many_cost (eval_cost sub g) some n acc x).2 ≤ 2 * weight g * Z (length (todo x)).
Proof.
  intros Hg Hn. revert some acc x. induction n as [|n IH]; intros some acc x Hx; cbn [many_cost]; [cbn; lia|].
  pose proof (cost_moves g (branch x)) as Hm. specialize (Hg (branch x) Hx). rewrite Hn in Hm. cbn [branch todo] in Hg.
  destruct (eval_cost sub g (branch x)) as [[[l|] y|y| |] c]; cbn [snd] in *; try lia.
  cbn [fst] in Hm. destruct Hm as (us & Hus & _ & Hs). cbn in Hus. specialize (Hs ltac:(eauto) eq_refl).
  assert (Hy : length (todo y) < length (todo x)). { rewrite Hus, app_length. destruct us; [done|]. cbn. lia. }
  pose proof (inside_le g x Hx) as Hl. specialize (IH false (acc ++ l) (accept x y)). cbn [accept todo] in IH.
  destruct (many_cost _ _ _ _ _) as [r' c']. cbn [snd] in *.
  assert (c' ≤ 2 * weight g * Z (length (todo y))) by (apply IH; left; cbn; lia).
  pose proof (Hdouble _ _ Hy Hl). nia.
Qed.
Lemma cost_bound g : loops_ok g = true → ∀ x, inside g x → (eval_cost sub g x).2 ≤ weight g * Z (length (todo x)).
Proof.
  induction g as [s|t|f k|f g IH|gs IH|gs IH|g IH|g IH|g IH] using gexp_ind2; intros Hl x Hx; cbn [eval_cost].
  - cbn. lia.
  - cbn. lia.
  - assert ((sub k (todo x)).2 ≤ Z (length (todo x))).
    { apply Hsub. destruct Hx as [|[? Hx]]; [by left|right]. by inversion Hx. }
    destruct (sub k (todo x)). cbn in *. lia.
  - specialize (IH Hl x Hx). by destruct (eval_cost sub g x).
  - cbn [loops_ok] in Hl. change (weight (GSeq gs)) with (weights gs). revert Hx. generalize true, (@nil text). revert x.
    induction IH as [|g gs Hg _ IH]; intros x first acc Hx; cbn [seq_cost]; [cbn; lia|].
    cbn [forallb] in Hl. apply andb_true_iff in Hl as [Hl1 Hl2]. rewrite weights_cons.
    assert (Hx1 : inside g x).
    { destruct Hx as [|[? Hx]]; [by left|right]. split; [done|]. cbn in Hx. by apply Forall_app in Hx as [? _]. }
    specialize (Hg Hl1 x Hx1). pose proof (cost_moves g x) as Hm. pose proof (inside_le g x Hx1) as Hlen.
    destruct (eval_cost sub g x) as [[[l|] y|y| |] c]; cbn [fst snd] in *; try lia.
    destruct Hm as (us & Hus & _ & Hs).
    assert (Hy : inside (GSeq gs) y).
    { destruct us as [|u us].
      + cbn in Hus. unfold inside. rewrite <- Hus. destruct Hx as [|[? Hx]]; [by left|right]. split; [done|].
        cbn in Hx. apply Forall_app in Hx as [_ Hx]. destruct (nullable g); [done|]. by destruct Hs; [eauto|..].
      + left. unfold inside in Hx. rewrite Hus in Hx. destruct Hx as [Hx|[Hx _]]; rewrite app_length in Hx; cbn in Hx; lia. }
    specialize (IH Hl2 y false (acc ++ l) Hy). destruct (seq_cost _ _ _ _ _) as [r' c']. cbn [snd] in *.
    assert (Z (length (todo y)) ≤ Z (length (todo x))) by (apply Z_mono; [rewrite Hus, app_length; lia|done]). nia.
  - cbn [loops_ok] in Hl. change (weight (GAlt gs)) with (weights gs). revert Hx. generalize false. revert x.
    induction IH as [|g gs Hg _ IH]; intros x failed Hx; cbn [alt_cost]; [cbn; lia|].
    cbn [forallb] in Hl. apply andb_true_iff in Hl as [Hl1 Hl2]. rewrite weights_cons.
    assert (Hx1 : inside g (branch x)).
    { destruct Hx as [|[? Hx]]; [by left|right]. split; [done|]. cbn in Hx. by apply Forall_app in Hx as [? _]. }
    assert (Hx2 : ∀ y, inside (GAlt gs) (drop_branch x y)).
    { intros y. destruct Hx as [|[? Hx]]; [by left|right]. split; [done|]. cbn in Hx. by apply Forall_app in Hx as [_ ?]. }
    specialize (Hg Hl1 (branch x) Hx1). cbn [branch todo] in Hg.
    destruct (eval_cost sub g (branch x)) as [[[l|] y|y| |] c]; cbn [snd] in *; try lia.
    + specialize (IH Hl2 (drop_branch x y) failed (Hx2 y)). destruct (alt_cost _ _ _ _). cbn [snd drop_branch todo] in *. lia.
    + destruct (stop x y); cbn [snd]; [lia|].
      specialize (IH Hl2 (drop_branch x y) true (Hx2 y)). destruct (alt_cost _ _ _ _). cbn [snd drop_branch todo] in *. lia.
  - specialize (IH Hl (branch x) Hx). unfold opt_cost. cbn [branch todo weight] in *.
    destruct (eval_cost sub g (branch x)) as [[?|?| |] c]; cbn [snd] in *; done.
  - cbn [loops_ok] in Hl. apply andb_true_iff in Hl as [Hn Hl]. cbn [weight].
    apply many_bound; [by apply IH|by apply negb_true_iff|done].
  - cbn [loops_ok] in Hl. apply andb_true_iff in Hl as [Hn Hl]. cbn [weight].
    apply many_bound; [by apply IH|by apply negb_true_iff|done].
Qed.
End bound.
(** No struct is heavier. *)
Lemma weight_small : ∃ b, 2 ≤ b ∧ ∀ k, weight (grammar k) < b.
Proof. exists 32. split; [lia|]. intros k. apply Nat.ltb_lt. revert k. apply for_all_kinds. vm_compute. reflexivity. Qed.
Section base.
Context (b : nat) (Hb : 2 ≤ b) (Hw : ∀ k, weight (grammar k) < b).
Lemma struct_bound eof n k ts : (struct_cost eof n k ts).2 ≤ b ^ (61 * length ts + rank k + 1).
Proof.
  revert k ts. induction n as [|n IH]; intros k ts; [cbn [struct_cost snd]; lia|]. cbn [struct_cost].
  destruct (kind_facts k) as (Hl & Hh & Hr). specialize (Hw k).
  set (Z := λ j, if decide (j = length ts) then b ^ (61 * length ts + rank k) else b ^ (61 * j + 60)).
  pose proof (cost_bound (struct_cost eof n)) as H.
  assert (Hm : ∀ k ts, moves_struct (negb (empty_struct k)) ts (struct_cost eof n k ts).1) by (intros; rewrite struct_erased; apply parse_struct_moves).
  specialize (H Hm (length ts) (rank k) Z).
  assert (Hs : ∀ k' us, length us < length ts ∨ length us = length ts ∧ rank k' < rank k → (struct_cost eof n k' us).2 ≤ Z (length us)).
  { intros k' us Hu. etrans; [apply IH|]. unfold Z. destruct (kind_facts k') as (_ & _ & ?).
    destruct Hu as [Hu|[Hu Hk]]; [rewrite decide_False by lia|rewrite decide_True by done]; apply Nat.pow_le_mono_r; lia. }
  specialize (H Hs).
  assert (Hd : ∀ i j, i < j → j ≤ length ts → 2 * Z i ≤ Z j).
  { intros i j Hij Hj. unfold Z. rewrite (decide_False (P := i = length ts)) by lia.
    transitivity (b ^ S (61 * i + 60)); [rewrite Nat.pow_succ_r'; by apply Nat.mul_le_mono_r|].
    destruct (decide (j = length ts)); apply Nat.pow_le_mono_r; lia. }
  specialize (H Hd (grammar k) Hl (Ctx ts [] []) ltac:(by right)). cbn [todo] in H.
  destruct (eval_cost _ _ _) as [r c]. cbn [snd] in *. unfold Z in H. rewrite decide_True in H by done.
  rewrite (Nat.add_1_r (_ + _)), Nat.pow_succ_r'. assert (1 ≤ b ^ (61 * length ts + rank k)) by (apply Nat.neq_0_lt_0, Nat.pow_nonzero; lia). nia.
Qed.
End base.
(*P C92_at_most_exponential *)
(** The parser tries at most exponentially many structs. *)
Lemma at_most_exponential :
  ∃ b, ∀ s, tries s ≤ b ^ (length s + 1).
Proof.
  destruct weight_small as (b & Hb & Hw). exists (b ^ 61). intros s. unfold tries, parse_cost. destruct (lex "" s) as [[ts st|ts p]| |] eqn:E; [|cbn [snd]; lia..].
  apply tokens_bytes in E. unfold tokens_cost. pose proof (struct_bound b Hb Hw (advance (start_pos "") s) (struct_fuel (elide ts)) KAST (elide ts)) as H.
  destruct (struct_cost _ _ _ _) as [r c]. cbn [snd] in *. etrans; [exact H|]. rewrite <- Nat.pow_mul_r.
  destruct (kind_facts KAST) as (_ & _ & Hr). apply Nat.pow_le_mono_r; lia.
Qed.
