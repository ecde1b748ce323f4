(** * The parser with any lookahead limit always ends, and does not panic

    The proofs of EtxParseBase.v and EtxParseTotal.v, for a limit that is a parameter. *)
From stdpp Require Import base list option strings sets.
From Coq Require Import Ascii Lia.
From Verif Require Import GoBase EtxAst EtxHeap EtxHeapSpec EtxText EtxLex EtxLexSpec EtxLexFacts EtxUtil EtxUtilProofs EtxGram
  EtxParse EtxParseBase EtxParseSpec EtxParseStore EtxParseTotal EtxLook EtxLookProofs.

Section total.
Context (n : nat).
Section progress.
Context (sub : kind → list token → parsed).

Lemma at_seq_texts gs acc x o y :
  run_seq (eval_at n sub) false gs acc x = Ret o y → default [] o = [] → acc = [].
Proof.
  revert acc x. induction gs as [|g gs IH]; intros acc x; cbn [run_seq].
  - destruct (decide (acc = [])) as [->|]; [done|]. rewrite bool_decide_false by done. by intros [= <- <-].
  - destruct (eval_at n sub g x) as [[l|] z|z| |]; try done.
    intros H Ho. pose proof (IH _ _ H Ho) as E. apply app_eq_nil in E. tauto.
Qed.
Section struct_moves.
Context (Hsub : ∀ k ts, moves_struct (negb (empty_struct k)) ts (sub k ts)).
Lemma at_many_moves g some m acc x :
  (∀ x, moves (negb (nullable g)) x (eval_at n sub g x)) →
  match run_many_at n (eval_at n sub g) some m acc x with
  | Ret o y => ∃ us l, o = Some (acc ++ l) ∧ todo x = us ++ todo y ∧ (l = [] → us = []) ∧
      (some = true → negb (nullable g) = true → us ≠ [])
  | Err y => ∃ us, todo x = us ++ todo y
  | _ => True
  end.
Proof.
  intros Hg. revert some acc x. induction m as [|m IH]; intros some acc x; [done|]. cbn [run_many_at].
  specialize (Hg (branch x)). destruct (eval_at n sub g (branch x)) as [[l|] y|y| |]; try done; cbn in Hg.
  - destruct Hg as (us & Hus & Hl & Hs). specialize (IH false (acc ++ l) (accept x y)).
    destruct (run_many_at n _ _ _ _ _) as [o z|z| |]; try done; cbn in IH.
    + destruct IH as (vs & l' & -> & Hvs & Hl' & _). exists (us ++ vs), (l ++ l').
      split; [by rewrite (assoc_L _)|]. split; [rewrite <- (assoc_L _), <- Hvs; done|]. split.
      * intros [-> ->]%app_nil. rewrite Hl, Hl'; done.
      * intros _ Hn. destruct us; [by destruct (Hs ltac:(eauto) Hn)|done].
    + destruct IH as (vs & Hvs). exists (us ++ vs). rewrite <- (assoc_L _), <- Hvs. done.
  - destruct Hg as (us & Hus & Hl & _). rewrite Hl in Hus by done. destruct some.
    + cbn. by exists [].
    + cbn. exists [], []. by rewrite app_nil_r.
  - destruct Hg as (us & Hus). destruct (stop_at n x y); [by exists us|]. destruct some.
    + by exists [].
    + exists [], []. by rewrite app_nil_r.
Qed.
Lemma at_moves g : ∀ x, moves (negb (nullable g)) x (eval_at n sub g x).
Proof.
  induction g as [s|t|f k|f g IH|gs IH|gs IH|g IH|g IH|g IH] using gexp_ind2; intros x; cbn [eval_at].
  - apply next_is_moves.
  - apply next_is_moves.
  - specialize (Hsub k (todo x)). destruct (sub k (todo x)); cbn in *; try done.
    + destruct Hsub as (us & -> & H). exists us. split; [done|]. split; [done|]. by intros _.
    + by apply moves_none.
  - specialize (IH x). cbn [nullable]. destruct (eval_at n sub g x) as [[l|] y|y| |]; cbn in *; try done.
    destruct IH as (us & ? & ? & H). exists us. split; [done|]. split; [done|]. intros _. by apply H.
  - cbn [nullable].
    enough (∀ acc first x, match run_seq (eval_at n sub) first gs acc x with
      | Ret o y => ∃ us, todo x = us ++ todo y ∧ (default [] o = [] → us = []) ∧
           (is_Some o → negb (forallb nullable gs) = true → us ≠ [])
      | Err y => ∃ us, todo x = us ++ todo y
      | _ => True end) as H by exact (H [] true x).
    clear x. induction IH as [|g gs Hg _ IH]; intros acc first x; cbn [run_seq].
    { exists []. split; [done|]. split; [done|]. by intros _. }
    specialize (Hg x). destruct (eval_at n sub g x) as [[l|] y|y| |]; cbn in Hg; try done.
    + destruct Hg as (us & Hus & Hl & Hs). specialize (IH (acc ++ l) false y).
      destruct (run_seq _ _ _ _ _) as [o z|z| |] eqn:E; try done.
      * destruct IH as (vs & Hvs & Hl' & Hs'). exists (us ++ vs). rewrite <- (assoc_L _), <- Hvs.
        split; [done|]. split.
        -- intros Ho. pose proof (at_seq_texts _ _ _ _ _ E Ho) as E'. rewrite (Hl' Ho), app_nil_r. apply Hl.
           apply app_eq_nil in E'. tauto.
        -- intros Ho. cbn. rewrite negb_andb. intros [H|H]%orb_true_iff.
           ++ destruct us; [by destruct (Hs ltac:(eauto) H)|done].
           ++ destruct vs; [by destruct (Hs' Ho H)|]. by destruct us.
      * destruct IH as (vs & Hvs). exists (us ++ vs). rewrite <- (assoc_L _), <- Hvs. done.
    + destruct Hg as (us & Hus & Hl & Hs). rewrite Hl in Hus by done. destruct first.
      * by apply moves_none.
      * by exists [].
  - cbn [nullable]. enough (∀ failed x y, todo x = todo y → moves (negb (existsb nullable gs)) x
      (run_alt_at n (eval_at n sub) failed gs y)) as H by by apply H.
    clear x. induction IH as [|g gs Hg _ IH]; intros failed x x' Hx; cbn [run_alt_at].
    { destruct failed; [by exists []|by apply moves_none]. }
    specialize (Hg (branch x')). destruct (eval_at n sub g (branch x')) as [[l|] y|y| |]; cbn in Hg; try done.
    + destruct Hg as (us & Hus & Hl & Hs). cbn. rewrite Hx, Hus. exists us. split; [done|]. split; [done|].
      intros _. rewrite negb_orb. intros [? _]%andb_true_iff. by apply Hs.
    + specialize (IH failed x (drop_branch x' y) Hx). cbn [existsb].
      destruct (run_alt_at n _ _ _ _) as [o z|z| |]; cbn in *; try done.
      destruct IH as (us & ? & ? & H). exists us. split; [done|]. split; [done|]. intros Ho.
      rewrite negb_orb. intros [_ ?]%andb_true_iff. by apply H.
    + destruct Hg as (us & Hus). destruct (stop_at n x' y); [cbn; rewrite Hx, Hus; by exists us|].
      specialize (IH true x (drop_branch x' y) Hx). cbn [existsb].
      destruct (run_alt_at n _ _ _ _) as [o z|z| |]; cbn in *; try done.
      destruct IH as (vs & ? & ? & H). exists vs. split; [done|]. split; [done|]. intros Ho.
      rewrite negb_orb. intros [_ ?]%andb_true_iff. by apply H.
  - cbn [nullable]. specialize (IH (branch x)). unfold run_opt_at.
    destruct (eval_at n sub g (branch x)) as [o y|y| |]; cbn in IH; try done.
    + destruct IH as (us & ? & H & _). exists us. split; [done|]. split; [|done].
      intros Hd. apply H. by destruct o.
    + destruct IH as (us & Hus). destruct (stop_at n x y); [by exists us|]. exists []. done.
  - cbn [nullable negb]. pose proof (at_many_moves g false (S (length (todo x))) [] x IH) as H.
    destruct (run_many_at n _ _ _ _ _) as [o y|y| |]; try done. destruct H as (us & l & -> & ? & ? & _).
    exists us. split; [done|]. split; [done|]. done.
  - cbn [nullable]. pose proof (at_many_moves g true (S (length (todo x))) [] x IH) as H.
    destruct (run_many_at n _ _ _ _ _) as [o y|y| |]; try done. destruct H as (us & l & -> & ? & ? & H).
    exists us. split; [done|]. split; [done|]. intros _. by apply H.
Qed.
End struct_moves.
End progress.

(** ** Enough fuel *)
Section fuel.
Context (sub : kind → list token → parsed).
Context (Hmoves : ∀ k ts, moves_struct (negb (empty_struct k)) ts (sub k ts)).
Context (len r : nat).
Context (Hsub : ∀ k ts, length ts < len ∨ length ts = len ∧ rank k < r → sub k ts ≠ PNoFuel).
Definition within_at (g : gexp) (x : ctx) : Prop :=
  length (todo x) < len ∨ length (todo x) = len ∧ Forall (λ k, rank k < r) (heads g).
Lemma at_many_fuel g some m acc x :
  (∀ x, within_at g x → eval_at n sub g x ≠ NoFuel) → nullable g = false → within_at g x →
  length (todo x) < m → run_many_at n (eval_at n sub g) some m acc x ≠ NoFuel.
Proof.
  intros Hg Hn. revert some acc x. induction m as [|m IH]; intros some acc x Hw Hx; [lia|]. cbn [run_many_at].
  pose proof (at_moves sub Hmoves g (branch x)) as Hm. specialize (Hg (branch x) Hw). rewrite Hn in Hm.
  destruct (eval_at n sub g (branch x)) as [[l|] y|y| |]; try done.
  - destruct Hm as (us & Hus & _ & Hs). cbn in Hus. specialize (Hs ltac:(eauto) eq_refl).
    assert (length (todo y) < length (todo x)).
    { rewrite Hus, app_length. destruct us; [done|]. cbn. lia. }
    apply IH; [|cbn; lia]. left. cbn. destruct Hw as [|[? _]]; lia.
  - by destruct some.
  - destruct (stop_at n x y); [done|]. by destruct some.
Qed.
Lemma at_fuel g : loops_ok g = true → ∀ x, within_at g x → eval_at n sub g x ≠ NoFuel.
Proof.
  induction g as [s|t|f k|f g IH|gs IH|gs IH|g IH|g IH|g IH] using gexp_ind2; intros Hl x Hx; cbn [eval_at].
  - unfold next_is. repeat case_match; done.
  - unfold next_is. repeat case_match; done.
  - assert (sub k (todo x) ≠ PNoFuel); [|by case_match].
    apply Hsub. destruct Hx as [|[? Hx]]; [by left|right]. by inversion Hx.
  - specialize (IH Hl x Hx). repeat case_match; done.
  - cbn [loops_ok] in Hl. revert Hx. generalize true, (@nil text). revert x.
    induction IH as [|g gs Hg _ IH]; intros x first acc Hx; cbn [run_seq]; [done|].
    cbn [forallb] in Hl. apply andb_true_iff in Hl as [Hl1 Hl2].
    assert (Hx1 : within_at g x).
    { destruct Hx as [|[? Hx]]; [by left|right]. split; [done|]. cbn in Hx. by apply Forall_app in Hx as [? _]. }
    specialize (Hg Hl1 x Hx1). pose proof (at_moves sub Hmoves g x) as Hm.
    destruct (eval_at n sub g x) as [[l|] y|y| |]; try done; [|by destruct first].
    apply IH; [done|]. destruct Hm as (us & Hus & _ & Hs).
    destruct us as [|u us].
    + cbn in Hus. unfold within_at. rewrite <- Hus. destruct Hx as [|[? Hx]]; [by left|right]. split; [done|].
      cbn in Hx. apply Forall_app in Hx as [_ Hx]. destruct (nullable g); [done|]. by destruct Hs; [eauto|..].
    + left. unfold within_at in Hx. rewrite Hus in Hx. destruct Hx as [Hx|[Hx _]]; rewrite app_length in Hx; cbn in Hx; lia.
  - cbn [loops_ok] in Hl. revert Hx. generalize false. revert x.
    induction IH as [|g gs Hg _ IH]; intros x failed Hx; cbn [run_alt_at]; [by destruct failed|].
    cbn [forallb] in Hl. apply andb_true_iff in Hl as [Hl1 Hl2].
    assert (Hx1 : within_at g (branch x)).
    { destruct Hx as [|[? Hx]]; [by left|right]. split; [done|]. cbn in Hx. by apply Forall_app in Hx as [? _]. }
    assert (Hx2 : ∀ y, within_at (GAlt gs) (drop_branch x y)).
    { intros y. destruct Hx as [|[? Hx]]; [by left|right]. split; [done|]. cbn in Hx. by apply Forall_app in Hx as [_ ?]. }
    specialize (Hg Hl1 (branch x) Hx1). destruct (eval_at n sub g (branch x)) as [[l|] y|y| |]; try done.
    + by apply IH.
    + destruct (stop_at n x y); [done|]. by apply IH.
  - specialize (IH Hl (branch x) Hx). unfold run_opt_at. destruct (eval_at n sub g (branch x)); try done. by destruct (stop_at n _ _).
  - cbn [loops_ok] in Hl. apply andb_true_iff in Hl as [Hn Hl].
    apply at_many_fuel; [by apply IH|by apply negb_true_iff|done|lia].
  - cbn [loops_ok] in Hl. apply andb_true_iff in Hl as [Hn Hl].
    apply at_many_fuel; [by apply IH|by apply negb_true_iff|done|lia].
Qed.
End fuel.

Section from.
Context (sub : kind → list token → parsed) (ts : list token).
Context (Hmoves : ∀ k ts, moves_struct (negb (empty_struct k)) ts (sub k ts)).
Lemma at_from_many P g some m acc x :
  (∀ x, all_from ts P x → from ts P (eval_at n sub g x)) → all_from ts P x → from ts P (run_many_at n (eval_at n sub g) some m acc x).
Proof.
  intros Hg. revert some acc x. induction m as [|m IH]; intros some acc x Hx; [done|]. cbn [run_many_at].
  pose proof (Hg _ (from_branch _ _ _ Hx)) as H. destruct (eval_at n sub g (branch x)) as [[l|] y|y| |]; try done.
  - apply IH. by apply from_accept.
  - destruct some; by apply from_accept.
  - destruct (stop_at n x y); [by apply from_accept|]. destruct some; by apply from_drop.
Qed.
Lemma at_from (P : capture → Prop) g : (∀ c, captures ts g c → P c) → ∀ x, all_from ts P x → from ts P (eval_at n sub g x).
Proof.
  induction g as [s|t|f k|f g IH|gs IH|gs IH|g IH|g IH|g IH] using gexp_ind2; intros Hg x Hx; cbn [eval_at].
  - unfold next_is. destruct (todo x) as [|u us] eqn:E; [done|]. destruct (bool_decide _); [|done].
    destruct Hx as (H1 & H2 & H3). split; [|done]. rewrite E in H1. cbn. set_solver.
  - unfold next_is. destruct (todo x) as [|u us] eqn:E; [done|]. destruct (bool_decide _); [|done].
    destruct Hx as (H1 & H2 & H3). split; [|done]. rewrite E in H1. cbn. set_solver.
  - destruct Hx as (H1 & H2 & H3). pose proof (Hmoves k (todo x)) as Hm.
    destruct (sub k (todo x)) as [t ts'| |ts'| |]; try done.
    + destruct Hm as (us & Hus & _). split; [cbn; rewrite Hus in H1; set_solver|]. cbn. split; [by apply Forall_app|].
      apply Forall_singleton, Hg. by exists t.
    + destruct Hm as (us & Hus). split; [cbn; rewrite Hus in H1; set_solver|]. cbn. split; [by apply Forall_app|constructor].
  - assert (from ts P (eval_at n sub g x)) as H by (apply IH; [|done]; intros c Hc; apply Hg; by left).
    assert (∀ l y, eval_at n sub g x = Ret (Some l) y →
      match g with GTok k => ∃ t, t ∈ ts ∧ kind_of_token t = k ∧ l = [value t] | _ => True end) as Ht.
    { intros l y E. destruct g; try done. cbn in E. unfold next_is in E. destruct Hx as (H1 & _ & _).
      destruct (todo x) as [|u us]; [done|]. destruct (bool_decide (kind_of_token u = t)) eqn:Hu; [|done].
      apply bool_decide_eq_true in Hu. injection E as <- <-. exists u. split; [|done]. set_solver. }
    destruct (eval_at n sub g x) as [[l|] y|y| |]; try done. destruct H as (H1 & H2 & H3). split; [done|]. split; [done|].
    apply Forall_app. split; [done|]. apply Forall_singleton, Hg. right. exists l. split; [done|]. by eapply Ht.
  - assert (∀ first acc x, all_from ts P x → from ts P (run_seq (eval_at n sub) first gs acc x)) as H; [|by apply H].
    clear x Hx. induction IH as [|g gs IHg _ IH]; intros first acc x Hx; cbn [run_seq]; [done|].
    assert (from ts P (eval_at n sub g x)) as H by (apply IHg; [|done]; intros c Hc; apply Hg; by left).
    destruct (eval_at n sub g x) as [[l|] y|y| |]; try done.
    + apply IH; [|done]. intros c Hc. apply Hg. by right.
    + by destruct first.
  - assert (∀ failed x, all_from ts P x → from ts P (run_alt_at n (eval_at n sub) failed gs x)) as H; [|by apply H].
    clear x Hx. induction IH as [|g gs IHg _ IH]; intros failed x Hx; cbn [run_alt_at]; [by destruct failed|].
    assert (from ts P (eval_at n sub g (branch x))) as H.
    { apply IHg; [|by apply from_branch]. intros c Hc. apply Hg. by left. }
    assert (∀ failed x, all_from ts P x → from ts P (run_alt_at n (eval_at n sub) failed gs x)) as IH'.
    { apply IH. intros c Hc. apply Hg. by right. }
    destruct (eval_at n sub g (branch x)) as [[l|] y|y| |]; try done.
    + by apply from_accept.
    + by apply IH', from_drop.
    + destruct (stop_at n x y); [by apply from_accept|]. by apply IH', from_drop.
  - unfold run_opt_at. pose proof (IH Hg _ (from_branch _ _ _ Hx)) as H.
    destruct (eval_at n sub g (branch x)) as [o y|y| |]; try done; [by apply from_accept|].
    destruct (stop_at n x y); [by apply from_accept|by apply from_drop].
  - apply at_from_many; [|done]. by apply IH.
  - apply at_from_many; [|done]. by apply IH.
Qed.
(** No panic if none below. *)
Lemma at_no_crash g x :
  (∀ k us vs, ts = us ++ vs → sub k vs ≠ PCrash) → (∃ us, ts = us ++ todo x) → eval_at n sub g x ≠ Crash.
Proof.
  intros Hs. revert x. assert (Hnext : ∀ g x o y, (∃ us, ts = us ++ todo x) → eval_at n sub g x = Ret o y → ∃ us, ts = us ++ todo y).
  { intros g0 x o y [us Hus] E. pose proof (at_moves sub Hmoves g0 x) as H. rewrite E in H. destruct H as (vs & Hvs & _).
    exists (us ++ vs). by rewrite Hus, Hvs, (assoc_L _). }
  assert (Hmany : ∀ g some m acc x, (∀ x, (∃ us, ts = us ++ todo x) → eval_at n sub g x ≠ Crash) → 
    (∃ us, ts = us ++ todo x) → run_many_at n (eval_at n sub g) some m acc x ≠ Crash).
  { intros g0 some m. revert some. induction m as [|m IHn]; intros some acc x Hg Hx; [done|]. cbn [run_many_at].
    pose proof (Hg (branch x) Hx) as H. pose proof (Hnext g0 (branch x)) as Hn.
    destruct (eval_at n sub g0 (branch x)) as [[l|] y|y| |]; try done.
    - apply IHn; [done|]. exact (Hn _ _ Hx eq_refl).
    - by destruct some.
    - destruct (stop_at n x y); [done|]. by destruct some. }
  induction g as [s|t|f k|f g IH|gs IH|gs IH|g IH|g IH|g IH] using gexp_ind2; intros x Hx; cbn [eval_at].
  - unfold next_is. by repeat case_match.
  - unfold next_is. by repeat case_match.
  - destruct Hx as [us Hus]. pose proof (Hs k us _ Hus). by destruct (sub k (todo x)).
  - specialize (IH x Hx). by destruct (eval_at n sub g x) as [[l|] y|y| |].
  - assert (∀ first acc x, (∃ us, ts = us ++ todo x) → run_seq (eval_at n sub) first gs acc x ≠ Crash) as H; [|by apply H].
    clear x Hx. induction IH as [|g gs IHg _ IH]; intros first acc x Hx; cbn [run_seq]; [done|].
    specialize (IHg x Hx). pose proof (Hnext g x) as Hn. destruct (eval_at n sub g x) as [[l|] y|y| |]; try done.
    + apply IH. exact (Hn _ _ Hx eq_refl).
    + by destruct first.
  - assert (∀ failed x, (∃ us, ts = us ++ todo x) → run_alt_at n (eval_at n sub) failed gs x ≠ Crash) as H; [|by apply H].
    clear x Hx. induction IH as [|g gs IHg _ IH]; intros failed x Hx; cbn [run_alt_at]; [by destruct failed|].
    specialize (IHg (branch x) Hx). destruct (eval_at n sub g (branch x)) as [[l|] y|y| |]; try done.
    + by apply IH.
    + destruct (stop_at n x y); [done|]. by apply IH.
  - unfold run_opt_at. specialize (IH (branch x) Hx). destruct (eval_at n sub g (branch x)) as [o y|y| |]; try done.
    by destruct (stop_at n x y).
  - by apply Hmany.
  - by apply Hmany.
Qed.
End from.


Section struct.
Context (eof : pos).
Lemma struct_at_moves m k ts : moves_struct (negb (empty_struct k)) ts (parse_struct_at n eof m k ts).
Proof.
  revert k ts. induction m as [|m IH]; intros k ts; [done|]. cbn [parse_struct_at].
  pose proof (at_moves (parse_struct_at n eof m) IH (grammar k) (Ctx ts [] [])) as H.
  assert (negb (empty_struct k) = true → negb (nullable (grammar k)) = true) as Hk.
  { pose proof (kinds_ok k) as Hk. unfold kind_ok in Hk. intros E.
    destruct (nullable (grammar k)); [|done]. destruct (empty_struct k); [done|]. cbn in Hk.
    rewrite andb_false_r in Hk. done. }
  destruct (eval_at n _ _ _) as [[l|] y|y| |]; cbn in *; try done.
  destruct H as (us & Hus & _ & Hs). destruct (store_all _ _ _); cbn; try done.
  - exists us. split; [done|]. intros E. apply Hs; [eauto|by apply Hk].
  - by exists us.
Qed.
Lemma struct_at_fuel m k ts : enough k ts ≤ m → parse_struct_at n eof m k ts ≠ PNoFuel.
Proof.
  revert k ts. induction m as [|m IH]; intros k ts Hm; unfold enough in Hm; [lia|]. cbn [parse_struct_at].
  destruct (kind_facts k) as (Hl & Hh & Hr).
  assert (eval_at n (parse_struct_at n eof m) (grammar k) (Ctx ts [] []) ≠ NoFuel).
  { apply (at_fuel _ (struct_at_moves m) (length ts) (rank k)); [|done|by right].
    intros k' ts' H. apply IH. unfold enough. destruct (kind_facts k') as (_ & _ & ?). lia. }
  repeat case_match; done.
Qed.
Lemma struct_at_no_crash m k ts : openers_ok ts → parse_struct_at n eof m k ts ≠ PCrash.
Proof.
  revert k ts. induction m as [|m IH]; intros k ts Ho; [done|]. cbn [parse_struct_at].
  set (sub := parse_struct_at n eof m) in *. assert (Hm : ∀ k ts, moves_struct (negb (empty_struct k)) ts (sub k ts)) by (intros; apply struct_at_moves).
  pose proof (at_from sub ts Hm (storable k) (grammar k) (λ c, captures_storable k ts c Ho) (Ctx ts [] [])) as Hf.
  specialize (Hf ltac:(split; [done|]; split; constructor)).
  assert (eval_at n sub (grammar k) (Ctx ts [] []) ≠ Crash) as Hc.
  { apply (at_no_crash sub ts Hm); [|by exists []]. intros k1 us vs E. apply IH. intros t Ht. apply Ho. set_solver. }
  destruct (eval_at n sub (grammar k) (Ctx ts [] [])) as [[l|] y|y| |]; try done.
  destruct Hf as (_ & H1 & H2).
  pose proof (store_all_no_crash k (fields (zero no_pos k)) (assigned y ++ waiting y)) as H.
  destruct (store_all _ _ _); try done. intros _. apply H; [|done]. by apply Forall_app.
Qed.
Lemma tokens_at_total ts : openers_ok ts → ∃ o, parse_tokens_at n eof ts = Ok o.
Proof.
  intros Ho. unfold parse_tokens_at. pose proof (struct_at_no_crash (struct_fuel ts) KAST ts Ho).
  pose proof (struct_at_fuel (struct_fuel ts) KAST ts (enough_struct_fuel KAST ts)).
  destruct (parse_struct_at n eof (struct_fuel ts) KAST ts) as [t [|? ?]| | | |]; try done; by eexists.
Qed.
End struct.
End total.

(*P C79_total *)
(** With any limit the parser ends, and it does not panic. *)
Lemma any_limit_total n s :
  ∃ o, parse_at n s = Ok o.
Proof.
  unfold parse_at. destruct (lex_total (length s) [(SRoot, [])] (start_pos "") s) as (l & E & _); [done|]. unfold lex. rewrite E.
  destruct l as [ts st|ts p]; [|by eexists]. apply tokens_at_total. by eapply elide_openers.
Qed.
