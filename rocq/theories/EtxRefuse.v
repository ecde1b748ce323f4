(** * What the parser refuses at a token that cannot start it *)
From stdpp Require Import base list option strings.
From Coq Require Import Ascii Lia.
From Verif Require Import GoBase EtxAst EtxHeap EtxHeapSpec EtxText EtxLex EtxUtil EtxGram EtxParse EtxParseBase
  EtxParseSpec EtxParseStore EtxParseTyped EtxParseFirst EtxParseClean EtxFind.

(** What may be skipped at the start of an expression captures nothing. *)
Fixpoint silent (g : gexp) : bool :=
  match g with
  | GLit _ | GTok _ => true
  | GSub _ k => negb (empty_struct k)
  | GCap _ g => negb (nullable g) && silent g
  | GSeq gs => (fix go gs := match gs with [] => true | g :: gs => silent g && (negb (nullable g) || go gs) end) gs
  | GAlt gs => forallb silent gs
  | GOpt g | GMany g | GSome g => negb (nullable g) && silent g
  end.
Lemma kinds_silent k : silent (grammar k) = true.
Proof. revert k. apply for_all_kinds. vm_compute. reflexivity. Qed.

Section refuse.
Context (sub : kind → list token → parsed) (tbl : kind → list atom) (ts : list token).
Definition gives_up (r : parsed) : Prop := r = PNone ∨ r = PErr ts ∨ r = PNoFuel.
Context (Hsub : ∀ k, empty_struct k = false → ¬ starts (tbl k) ts → gives_up (sub k ts)).
Definition backs_out (g : gexp) (x : ctx) (r : result) : Prop :=
  r = Ret None x ∨ (nullable g = true ∧ r = Ret (Some []) x) ∨ (∃ y, r = Err y ∧ todo y = ts ∧ assigned y = assigned x) ∨ r = NoFuel.
Lemma not_starts_app l l' : ¬ starts (l ++ l') ts → ¬ starts l ts ∧ ¬ starts l' ts.
Proof.
  intros H. split; intros Hs; apply H; (eapply starts_mono; [|exact Hs]); intros a Ha; apply elem_of_app; auto.
Qed.
Lemma no_stop x y : todo x = ts → todo y = ts → stop x y = false.
Proof. intros Hx Hy. apply go_on. rewrite Hx, Hy. lia. Qed.
Lemma eval_backs_out g : silent g = true → ¬ starts (firsts tbl g) ts →
  ∀ x, todo x = ts → waiting x = [] → backs_out g x (eval sub g x).
Proof.
  induction g as [s|t|f k|f g IH|gs IH|gs IH|g IH|g IH|g IH] using gexp_ind2; intros Hs Hn x Hx Hw; cbn [eval].
  - unfold next_is. rewrite Hx. destruct ts as [|u us]; [by left|]. destruct (bool_decide _) eqn:E; [|by left].
    destruct Hn. exists u, us. split; [done|]. cbn. by rewrite E.
  - unfold next_is. rewrite Hx. destruct ts as [|u us]; [by left|]. destruct (bool_decide _) eqn:E; [|by left].
    destruct Hn. exists u, us. split; [done|]. cbn. by rewrite E.
  - rewrite Hx. destruct (Hsub k) as [->|[->| ->]]; [by apply negb_true_iff|done|by left| |by do 3 right].
    do 2 right; left. eexists. split; [done|]. cbn. by rewrite Hw, app_nil_r.
  - cbn [silent] in Hs. apply andb_true_iff in Hs as [Hs1 Hs2]. apply negb_true_iff in Hs1.
    destruct (IH Hs2 Hn x Hx Hw) as [->|[[E _]|[(y & -> & H)| ->]]]; [by left|congruence|do 2 right; left; eauto|by do 3 right].
  - enough (∀ first acc, acc = [] → match run_seq (eval sub) first gs acc x with
      | Ret (Some l) y => False
      | Ret None y => y = x
      | Err y => todo y = ts ∧ assigned y = assigned x
      | Crash => False
      | NoFuel => True end) as H.
    { specialize (H true [] eq_refl). destruct (run_seq _ _ _ _ _) as [[l|] y|y| |]; [done| | |done|by do 3 right].
      - subst y. by left.
      - do 2 right; left. eauto. }
    induction IH as [|g gs Hg _ IHs]; intros first acc Hacc.
    { cbn. subst acc. by rewrite bool_decide_true. }
    cbn [silent] in Hs. apply andb_true_iff in Hs as [Hs1 Hs2].
    change (¬ starts (firsts tbl g ++ (if nullable g then firsts tbl (GSeq gs) else [])) ts) in Hn.
    apply not_starts_app in Hn as [Hn1 Hn2]. cbn [run_seq].
    destruct (Hg Hs1 Hn1 x Hx Hw) as [->|[[E ->]|[(y & -> & H)| ->]]]; [by destruct first|..].
    + rewrite E in Hs2, Hn2. cbn in Hs2. by apply (IHs Hs2 Hn2); rewrite app_nil_r.
    + done.
    + done.
  - enough (∀ failed, backs_out (GAlt gs) x (run_alt (eval sub) failed gs x)) as H by apply H.
    induction IH as [|g gs Hg _ IHs]; intros failed.
    { cbn. destruct failed; [do 2 right; left; eauto|by left]. }
    cbn [silent forallb] in Hs. apply andb_true_iff in Hs as [Hs1 Hs2]. cbn [firsts flat_map] in Hn. apply not_starts_app in Hn as [Hn1 Hn2].
    assert (∀ failed, backs_out (GAlt (g :: gs)) x (run_alt (eval sub) failed gs x)) as Hrest.
    { intros failed'. destruct (IHs Hs2 Hn2 failed') as [->|[[E ->]|[H|H]]]; [by left| |do 2 right; by left|by do 3 right].
      right; left. split; [|done]. cbn in E |- *. by rewrite E, orb_true_r. }
    cbn [run_alt]. destruct (Hg Hs1 Hn1 (branch x) Hx eq_refl) as [->|[[E ->]|[(y & -> & Hy & Ha)| ->]]].
    + rewrite drop_branch_same by done. apply Hrest.
    + rewrite accept_branch. right; left. split; [cbn; by rewrite E|done].
    + rewrite no_stop by done. rewrite drop_branch_same by done. apply Hrest.
    + by do 3 right.
  - cbn [silent] in Hs. apply andb_true_iff in Hs as [Hs1 Hs2]. apply negb_true_iff in Hs1. unfold run_opt.
    destruct (IH Hs2 Hn (branch x) Hx eq_refl) as [->|[[E _]|[(y & -> & Hy & Ha)| ->]]]; [|congruence| |by do 3 right].
    + rewrite accept_branch. by right; left.
    + rewrite no_stop, drop_branch_same by done. by right; left.
  - cbn [silent] in Hs. apply andb_true_iff in Hs as [Hs1 Hs2]. apply negb_true_iff in Hs1. cbn [run_many].
    destruct (IH Hs2 Hn (branch x) Hx eq_refl) as [->|[[E _]|[(y & -> & Hy & Ha)| ->]]]; [|congruence| |by do 3 right].
    + rewrite accept_branch. by right; left.
    + rewrite no_stop, drop_branch_same by done. by right; left.
  - cbn [silent] in Hs. apply andb_true_iff in Hs as [Hs1 Hs2]. apply negb_true_iff in Hs1. cbn [run_many].
    destruct (IH Hs2 Hn (branch x) Hx eq_refl) as [->|[[E _]|[(y & -> & Hy & Ha)| ->]]]; [|congruence| |by do 3 right].
    + rewrite accept_branch. do 2 right; left. eauto.
    + rewrite no_stop, drop_branch_same by done. do 2 right; left. eauto.
Qed.
End refuse.

Section refused.
Context (eof : pos).
Notation P := (parser eof).
Notation tbl := (first_of none_dead).
Lemma parser_refuses ts k : empty_struct k = false → ¬ starts (tbl k) ts → P k ts = PNone ∨ P k ts = PErr ts.
Proof.
  enough (∀ ts1, ts1 = ts → empty_struct k = false → ¬ starts (tbl k) ts → gives_up ts (P k ts1)) as H.
  { intros H1 H2. destruct (H ts eq_refl H1 H2) as [H0|[H0|H0]]; [by left|by right|]. by apply parser_not_out_of_fuel in H0. }
  intros ts1. revert k ts1.
  apply (parser_ind eof (λ k ts1 r, ts1 = ts → empty_struct k = false → ¬ starts (tbl k) ts → gives_up ts r)); [by do 2 right|].
  intros sub Hp Hm IH k ts1 -> He Hn.
  assert (nullable (grammar k) = false) as Hnull.
  { pose proof (kinds_ok k) as Hk. unfold kind_ok in Hk. rewrite He in Hk. destruct (nullable (grammar k)); [|done].
    cbn in Hk. by rewrite !andb_false_r in Hk || (apply andb_true_iff in Hk as [Hk _]; apply andb_true_iff in Hk as [_ Hk]). }
  assert (¬ starts (firsts tbl (grammar k)) ts) as Hf.
  { intros Hs. apply Hn. eapply starts_mono; [|exact Hs]. pose proof first_closed_all as Hc. unfold first_closed in Hc.
    rewrite forallb_forall in Hc. specialize (Hc k ltac:(apply elem_of_list_In, all_kinds_complete)). cbn [orb none_dead] in Hc.
    rewrite forallb_forall in Hc. intros a Ha. apply elem_of_list_In, Hc in Ha. by apply bool_decide_eq_true in Ha. }
  destruct (eval_backs_out sub tbl ts (λ k, IH k ts eq_refl) (grammar k) (kinds_silent k) Hf (Ctx ts [] []) eq_refl eq_refl)
    as [->|[[E _]|[(y & -> & Hy & _)| ->]]]; cbn [finish_struct].
  - by left.
  - congruence.
  - right; left. by rewrite Hy.
  - by do 2 right.
Qed.
(** An expression whose first tokens do not include the next one is refused. *)
Lemma refused_first g ts :
  nullable g = false → silent g = true → loops_ok g = true → ¬ starts (firsts tbl g) ts → refused eof g ts.
Proof.
  intros Hn Hs Hl Hf x Hx Hw.
  assert (∀ k, empty_struct k = false → ¬ starts (tbl k) ts → gives_up ts (P k ts)) as Hsub.
  { intros k He Hk. destruct (parser_refuses ts k He Hk) as [->| ->]; [by left|by right; left]. }
  pose proof (eval_backs_out P tbl ts Hsub g Hs Hf x Hx Hw) as [H|[[H _]|[(y & H & Hy & Ha)|H]]].
  - by left.
  - congruence.
  - right. exists y. split_and!; [done..|]. rewrite Hy. lia.
  - exfalso. revert H. apply (eval_fuel P (λ k ts, parser_moves eof k ts) (S (length ts)) 0); [|done|].
    + intros k ts' _. apply parser_not_out_of_fuel.
    + left. rewrite Hx. lia.
Qed.
End refused.
