(** * Which tokens a struct can start with *)
From stdpp Require Import base list option strings.
From Coq Require Import Ascii Lia.
From Verif Require Import GoBase EtxAst EtxHeap EtxHeapSpec EtxText EtxLex EtxUtil EtxGram EtxParse EtxParseBase.

Inductive atom : Type := ALit (s : string) | ATok (k : tname).
Global Instance atom_eq_dec : EqDecision atom.
Proof. solve_decision. Defined.
Definition atom_is (u : token) (a : atom) : bool :=
  match a with ALit s => bool_decide (value u = chars s) | ATok k => bool_decide (kind_of_token u = k) end.

(** The tokens an expression can start with, if [tbl] says it for structs. *)
Fixpoint firsts (tbl : kind → list atom) (g : gexp) : list atom :=
  match g with
  | GLit s => [ALit s]
  | GTok k => [ATok k]
  | GSub _ k => tbl k
  | GCap _ g | GOpt g | GMany g | GSome g => firsts tbl g
  | GSeq gs =>
      (fix go gs := match gs with [] => [] | g :: gs => firsts tbl g ++ (if nullable g then go gs else []) end) gs
  | GAlt gs => flat_map (firsts tbl) gs
  end.
Fixpoint first_n (dead : kind → bool) (n : nat) (k : kind) : list atom :=
  if dead k then [] else match n with 0 => [] | S n => firsts (first_n dead n) (grammar k) end.
Definition first_of (dead : kind → bool) : kind → list atom := first_n dead 24.
Definition first_closed (dead : kind → bool) : bool :=
  forallb (λ k, dead k || forallb (λ a, bool_decide (a ∈ first_of dead k)) (firsts (first_of dead) (grammar k)))
    all_kinds.
Definition none_dead (k : kind) : bool := false.
Definition unary_dead (k : kind) : bool := match k with KExprUnary => true | _ => false end.
Lemma first_closed_all : first_closed none_dead = true.
Proof. vm_compute. reflexivity. Qed.
Lemma first_closed_unary : first_closed unary_dead = true.
Proof. vm_compute. reflexivity. Qed.

Definition starts (l : list atom) (ts : list token) : Prop :=
  ∃ u us, ts = u :: us ∧ existsb (atom_is u) l = true.
Lemma starts_mono l l' ts : (∀ a, a ∈ l → a ∈ l') → starts l ts → starts l' ts.
Proof.
  intros H (u & us & -> & Hu). exists u, us. split; [done|]. apply existsb_exists in Hu as (a & Ha & Hu).
  apply existsb_exists. exists a. split; [|done]. apply elem_of_list_In, H. by apply elem_of_list_In.
Qed.

Section sound.
Context (sub : kind → list token → parsed) (tbl : kind → list atom) (ts : list token).
Context (Hmoves : ∀ k ts, moves_struct (negb (empty_struct k)) ts (sub k ts)).
Context (Hsub : ∀ k t ts', sub k ts = PNode t ts' → ts' = ts ∨ starts (tbl k) ts).
Definition starts_if (g : gexp) (r : result) : Prop :=
  match r with Ret _ y => todo y = ts ∨ starts (firsts tbl g) ts | _ => True end.
Lemma eval_starts g : ∀ x, todo x = ts → starts_if g (eval sub g x).
Proof.
  induction g as [s|t|f k|f g IH|gs IH|gs IH|g IH|g IH|g IH] using gexp_ind2; intros x Hx; cbn [eval].
  - unfold next_is. destruct (todo x) as [|u us] eqn:E; [by left; rewrite E|].
    destruct (bool_decide _) eqn:Hu; [|by left; rewrite E]. right. exists u, us. split; [done|]. cbn. by rewrite Hu.
  - unfold next_is. destruct (todo x) as [|u us] eqn:E; [by left; rewrite E|].
    destruct (bool_decide _) eqn:Hu; [|by left; rewrite E]. right. exists u, us. split; [done|]. cbn. by rewrite Hu.
  - rewrite Hx. destruct (sub k ts) as [t ts'| | | |] eqn:E; try done; [|by left].
    destruct (Hsub k t ts' E) as [->|H]; [by left|by right].
  - specialize (IH x Hx). destruct (eval sub g x) as [[l|] y|y| |]; done.
  - cbn [starts_if]. revert Hx. generalize true, (@nil text). revert x.
    induction IH as [|g gs Hg _ IH]; intros x first acc Hx; cbn [run_seq]; [by left|].
    specialize (Hg x Hx). pose proof (eval_moves sub Hmoves g x) as Hm.
    destruct (eval sub g x) as [[l|] y|y| |]; cbn in Hg; try done.
    + destruct Hg as [Hy|Hg].
      * specialize (IH y false (acc ++ l) Hy). destruct (run_seq _ _ _ _ _) as [o z|z| |]; try done.
        destruct IH as [IH|IH]; [by left|right]. cbn. destruct (nullable g) eqn:Hn.
        -- eapply starts_mono; [|exact IH]. intros a Ha. by apply elem_of_app; right.
        -- destruct Hm as (us & Hus & _ & Hs). rewrite Hx, Hy in Hus. destruct (Hs ltac:(eauto) eq_refl).
           apply (f_equal length) in Hus. rewrite app_length in Hus. destruct us; [done|]. cbn in Hus. lia.
      * destruct (run_seq _ _ _ _ _) as [o z|z| |]; try done. right.
        eapply starts_mono; [|exact Hg]. intros a Ha. by apply elem_of_app; left.
    + destruct first; [|done]. destruct Hm as (us & Hus & Hl & _). rewrite Hl in Hus by done. left. cbn. by rewrite <- Hx.
  - cbn [starts_if]. revert Hx. generalize false. revert x.
    induction IH as [|g gs Hg _ IH]; intros x failed Hx; cbn [run_alt]; [by destruct failed; [|left]|].
    specialize (Hg (branch x) Hx).
    assert (∀ y failed', starts_if (GAlt (g :: gs)) (run_alt (eval sub) failed' gs (drop_branch x y))) as IH'.
    { intros y failed'. specialize (IH (drop_branch x y) failed' Hx). destruct (run_alt _ _ _ _) as [o z|z| |]; try done.
      destruct IH as [IH|IH]; [by left|right]. eapply starts_mono; [|exact IH].
      intros a Ha. cbn. by apply elem_of_app; right. }
    destruct (eval sub g (branch x)) as [[l|] y|y| |]; cbn in Hg; try done.
    + destruct Hg as [Hg|Hg]; [by left|right]. eapply starts_mono; [|exact Hg].
      intros a Ha. cbn. by apply elem_of_app; left.
    + destruct (stop x y); [done|]. apply IH'.
  - specialize (IH (branch x) Hx). unfold run_opt. destruct (eval sub g (branch x)) as [o y|y| |]; try done.
    destruct (stop x y); [done|]. by left.
  - cbn [starts_if]. revert Hx. generalize (S (length (todo x))), (@nil text), false. intros n. revert x.
    induction n as [|n IHn]; intros x acc some Hx; [done|]. cbn [run_many].
    specialize (IH (branch x) Hx). destruct (eval sub g (branch x)) as [[l|] y|y| |]; try done; cbn in IH.
    + destruct IH as [IH|IH].
      * by apply IHn.
      * destruct (run_many _ _ _ _ _); try done. by right.
    + by destruct some.
    + destruct (stop x y); [done|]. destruct some; [done|]. by left.
  - cbn [starts_if]. revert Hx. generalize (S (length (todo x))), (@nil text), true. intros n. revert x.
    induction n as [|n IHn]; intros x acc some Hx; [done|]. cbn [run_many].
    specialize (IH (branch x) Hx). destruct (eval sub g (branch x)) as [[l|] y|y| |]; try done; cbn in IH.
    + destruct IH as [IH|IH].
      * by apply IHn.
      * destruct (run_many _ _ _ _ _); try done. by right.
    + by destruct some.
    + destruct (stop x y); [done|]. destruct some; [done|]. by left.
Qed.
End sound.

(** A struct that consumes tokens starts with one of its first tokens, at a place where
    the structs called dead fail. *)
Lemma parser_starts eof dead ts :
  first_closed dead = true →
  (∀ k t ts', dead k = true → parser eof k ts ≠ PNode t ts') →
  ∀ k t ts', parser eof k ts = PNode t ts' → ts' = ts ∨ starts (first_of dead k) ts.
Proof.
  intros Hc Hd k. enough (∀ ts', ts' = ts → match parser eof k ts' with
    PNode _ ts'' => ts'' = ts ∨ starts (first_of dead k) ts | _ => True end) as H.
  { intros t ts' E. specialize (H ts eq_refl). by rewrite E in H. }
  intros ts1. revert k ts1.
  apply (parser_ind eof (λ k ts1 r, ts1 = ts → match r with
    PNode _ ts'' => ts'' = ts ∨ starts (first_of dead k) ts | _ => True end)); [done|].
  intros sub Hp Hm IH k ts1 ->.
  assert (Hsub : ∀ k t ts', sub k ts = PNode t ts' → ts' = ts ∨ starts (first_of dead k) ts).
  { intros k' t ts' E. specialize (IH k' ts eq_refl). by rewrite E in IH. }
  pose proof (eval_starts sub (first_of dead) ts Hm Hsub (grammar k) (Ctx ts [] []) eq_refl) as H.
  destruct (dead k) eqn:Hk.
  - destruct (finish_struct _ _ _ _) as [t ts'| | | |] eqn:E; try done. exfalso.
    apply (Hd k t ts' Hk). rewrite parser_unfold. rewrite <- E. f_equal.
    apply eval_monotone; [intros; symmetry; by apply Hp|]. intros E'. by rewrite E' in E.
  - destruct (eval _ _ _) as [[l|] y|y| |]; cbn; try done. destruct (store_all _ _ _); try done.
    destruct H as [H|H]; [by left|right]. eapply starts_mono; [|exact H]. cbn [firsts].
    unfold first_closed in Hc. rewrite forallb_forall in Hc.
    specialize (Hc k ltac:(apply elem_of_list_In, all_kinds_complete)). rewrite Hk in Hc. cbn in Hc.
    rewrite forallb_forall in Hc. intros a Ha. apply elem_of_list_In, Hc in Ha. by apply bool_decide_eq_true in Ha.
Qed.
