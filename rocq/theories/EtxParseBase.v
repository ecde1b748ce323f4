(** * The parser terminates *)
From stdpp Require Import base list option strings.
From Coq Require Import Ascii Lia.
From Verif Require Import GoBase EtxAst EtxHeap EtxHeapSpec EtxText EtxLex EtxUtil EtxGram EtxParse.

Section gexp_ind2.
Context (P : gexp → Prop).
Context (HLit : ∀ s, P (GLit s)) (HTok : ∀ t, P (GTok t)) (HSub : ∀ f k, P (GSub f k))
  (HCap : ∀ f g, P g → P (GCap f g)) (HSeq : ∀ gs, Forall P gs → P (GSeq gs))
  (HAlt : ∀ gs, Forall P gs → P (GAlt gs)) (HOpt : ∀ g, P g → P (GOpt g))
  (HMany : ∀ g, P g → P (GMany g)) (HSome : ∀ g, P g → P (GSome g)).
Fixpoint gexp_ind2 (g : gexp) : P g :=
  let go := fix go gs : Forall P gs :=
    match gs with
    | [] => List.Forall_nil _
    | g :: gs => List.Forall_cons _ _ _ (gexp_ind2 g) (go gs)
    end in
  match g with
  | GLit s => HLit s
  | GTok t => HTok t
  | GSub f k => HSub f k
  | GCap f g => HCap f g (gexp_ind2 g)
  | GSeq gs => HSeq gs (go gs)
  | GAlt gs => HAlt gs (go gs)
  | GOpt g => HOpt g (gexp_ind2 g)
  | GMany g => HMany g (gexp_ind2 g)
  | GSome g => HSome g (gexp_ind2 g)
  end.
End gexp_ind2.

(** ** More fuel gives the same result *)
Section monotone.
Context (sub sub' : kind → list token → parsed).
Context (Hsub : ∀ k ts, sub k ts ≠ PNoFuel → sub' k ts = sub k ts).
Lemma eval_monotone g : ∀ x, eval sub g x ≠ NoFuel → eval sub' g x = eval sub g x.
Proof.
  induction g as [s|t|f k|f g IH|gs IH|gs IH|g IH|g IH|g IH] using gexp_ind2; intros x Hx.
  - done.
  - done.
  - cbn [eval] in *. rewrite Hsub; [done|]. by intros E; rewrite E in Hx.
  - cbn [eval] in *. rewrite IH; [done|]. by intros E; rewrite E in Hx.
  - cbn [eval] in *. revert Hx. generalize true, (@nil text). revert x.
    induction IH as [|g gs Hg IH IH']; intros x first acc Hx; [done|].
    cbn [run_seq] in *. rewrite Hg; [|by intros E; rewrite E in Hx].
    destruct (eval sub g x) as [[l|] y|y| |]; try done. by apply IH'.
  - cbn [eval] in *. revert Hx. generalize false. revert x.
    induction IH as [|g gs Hg IH IH']; intros x failed Hx; [done|].
    cbn [run_alt] in *. rewrite Hg; [|by intros E; rewrite E in Hx].
    destruct (eval sub g (branch x)) as [[l|] y|y| |]; try done; [by apply IH'|].
    destruct (stop x y); [done|]. by apply IH'.
  - cbn [eval] in *. unfold run_opt in *. rewrite IH; [done|]. by intros E; rewrite E in Hx.
  - cbn [eval] in *. revert Hx. generalize (S (length (todo x))), (@nil text), false. intros n. revert x.
    induction n as [|n IHn]; intros x acc some Hx; [done|].
    cbn [run_many] in *. rewrite IH; [|by intros E; rewrite E in Hx].
    destruct (eval sub g (branch x)) as [[l|] y|y| |]; try done. by apply IHn.
  - cbn [eval] in *. revert Hx. generalize (S (length (todo x))), (@nil text), true. intros n. revert x.
    induction n as [|n IHn]; intros x acc some Hx; [done|].
    cbn [run_many] in *. rewrite IH; [|by intros E; rewrite E in Hx].
    destruct (eval sub g (branch x)) as [[l|] y|y| |]; try done. by apply IHn.
Qed.
End monotone.

Section struct.
Context (eof : pos).
Lemma parse_struct_monotone n m k ts :
  n ≤ m → parse_struct eof n k ts ≠ PNoFuel → parse_struct eof m k ts = parse_struct eof n k ts.
Proof.
  revert m k ts. induction n as [|n IH]; intros m k ts Hm Hn; [done|].
  destruct m as [|m]; [lia|]. cbn [parse_struct] in *.
  rewrite (eval_monotone (parse_struct eof n)); [done| |by intros E; rewrite E in Hn].
  intros k' ts' H. apply IH; [lia|done].
Qed.
End struct.

(** ** What consumes no token *)
Definition empty_struct (k : kind) : bool :=
  match k with KAST | KTypeEnum | KTypeObject | KExprInvocationParams => true | _ => false end.
Fixpoint nullable (g : gexp) : bool :=
  match g with
  | GLit _ | GTok _ => false
  | GSub _ k => empty_struct k
  | GCap _ g => nullable g
  | GSeq gs => forallb nullable gs
  | GAlt gs => existsb nullable gs
  | GOpt _ | GMany _ => true
  | GSome g => nullable g
  end.
(** No iteration of a loop is empty. *)
Fixpoint loops_ok (g : gexp) : bool :=
  match g with
  | GLit _ | GTok _ | GSub _ _ => true
  | GCap _ g | GOpt g => loops_ok g
  | GSeq gs | GAlt gs => forallb loops_ok gs
  | GMany g | GSome g => negb (nullable g) && loops_ok g
  end.
(** The structs that are tried before a token is consumed. *)
Fixpoint heads (g : gexp) : list kind :=
  match g with
  | GLit _ | GTok _ => []
  | GSub _ k => [k]
  | GCap _ g | GOpt g | GMany g | GSome g => heads g
  | GSeq gs =>
      (fix go gs := match gs with [] => [] | g :: gs => heads g ++ (if nullable g then go gs else []) end) gs
  | GAlt gs => flat_map heads gs
  end.
Definition rank (k : kind) : nat :=
  match k with
  | KAST => 22 | KRootItem => 21 | KFuncStatement => 20 | KListItem => 20 | KExprInvocationParams => 20
  | KExpr => 19 | KExprConditional => 18 | KExprIf | KExprSwitch | KExprCase => 1
  | KExprLogicalOr => 17 | KExprLogicalAnd => 16 | KExprBitwiseOr => 15 | KExprBitwiseXor => 14
  | KExprBitwiseAnd => 13 | KExprEquality => 12 | KExprRelational => 11 | KExprShift => 10
  | KExprAdditive => 9 | KExprMultiplicative => 8 | KExprUnary => 7 | KExprPostfix => 6 | KExprPrimary => 5
  | KValue => 4 | KTypeEnum | KTypeObject => 3 | KMapItem | KTypeEnumItem | KTypeObjectItem | KBlockItem => 2
  | KMapKey | KParameterType | KLambda => 1
  | _ => 0
  end.
Definition all_kinds : list kind :=
  [KAST; KRootItem; KParameterType; KFuncSignature; KDecl; KFunc; KFuncParameter; KFuncStatement;
   KFuncDecl; KLambda; KLambdaParameter; KType; KTypeEnum; KTypeEnumItem; KTypeObject;
   KTypeObjectItem; KBlock; KBlockItem; KAttribute; KComment; KIdent; KValue; KValueBool;
   KValueNumber; KHeredoc; KHeredocFragment; KValueString; KStringFragment; KValueList; KListItem;
   KValueMap; KMapItem; KMapKey; KExpr; KExprIf; KExprSwitch; KExprCase; KExprConditional;
   KExprLogicalOr; KExprLogicalAnd; KExprBitwiseOr; KExprBitwiseXor; KExprBitwiseAnd;
   KExprEquality; KExprRelational; KExprShift; KExprAdditive; KExprMultiplicative; KExprUnary;
   KExprPostfix; KExprPrimary; KExprInvocationParams].
Lemma all_kinds_complete k : k ∈ all_kinds.
Proof. apply elem_of_list_In. destruct k; cbn; tauto. Qed.
Lemma for_all_kinds (p : kind → bool) : forallb p all_kinds = true → ∀ k, p k = true.
Proof. rewrite forallb_forall. intros H k. apply H, elem_of_list_In, all_kinds_complete. Qed.
Definition kind_ok (k : kind) : bool :=
  loops_ok (grammar k) && forallb (λ k', rank k' <? rank k)%nat (heads (grammar k)) &&
  implb (nullable (grammar k)) (empty_struct k) && (rank k <? 60)%nat.
Lemma kinds_ok k : kind_ok k = true.
Proof. revert k. apply for_all_kinds. vm_compute. reflexivity. Qed.

(** ** Progress *)
(** Where the parser is after [x]; [strict]: a match is not empty. *)
Definition moves (strict : bool) (x : ctx) (r : result) : Prop :=
  match r with
  | Ret o y => ∃ us, todo x = us ++ todo y ∧ (default [] o = [] → us = []) ∧
                     (is_Some o → strict = true → us ≠ [])
  | Err y => ∃ us, todo x = us ++ todo y
  | _ => True
  end.
Definition moves_struct (strict : bool) (ts : list token) (r : parsed) : Prop :=
  match r with
  | PNode _ ts' => ∃ us, ts = us ++ ts' ∧ (strict = true → us ≠ [])
  | PErr ts' => ∃ us, ts = us ++ ts'
  | _ => True
  end.

Lemma moves_none strict x y : todo x = todo y → moves strict x (Ret None y).
Proof. intros E. exists []. split; [done|]. split; [done|]. by intros [? ?]. Qed.
Lemma next_is_moves p strict x : moves strict x (next_is p x).
Proof.
  unfold next_is. destruct (todo x) as [|t ts] eqn:E; [by apply moves_none|].
  destruct (p t); [|by apply moves_none]. exists [t]. rewrite E. split; [done|]. split; [done|]. done.
Qed.

Section progress.
Context (sub : kind → list token → parsed).

Lemma run_seq_texts gs acc x o y :
  run_seq (eval sub) false gs acc x = Ret o y → default [] o = [] → acc = [].
Proof.
  revert acc x. induction gs as [|g gs IH]; intros acc x; cbn [run_seq].
  - destruct (decide (acc = [])) as [->|]; [done|]. rewrite bool_decide_false by done. by intros [= <- <-].
  - destruct (eval sub g x) as [[l|] z|z| |]; try done.
    intros H Ho. pose proof (IH _ _ H Ho) as E. apply app_eq_nil in E. tauto.
Qed.
Section struct_moves.
Context (Hsub : ∀ k ts, moves_struct (negb (empty_struct k)) ts (sub k ts)).
Lemma run_many_moves g some n acc x :
  (∀ x, moves (negb (nullable g)) x (eval sub g x)) →
  match run_many (eval sub g) some n acc x with
  | Ret o y => ∃ us l, o = Some (acc ++ l) ∧ todo x = us ++ todo y ∧ (l = [] → us = []) ∧
      (some = true → negb (nullable g) = true → us ≠ [])
  | Err y => ∃ us, todo x = us ++ todo y
  | _ => True
  end.
Proof.
  intros Hg. revert some acc x. induction n as [|n IH]; intros some acc x; [done|]. cbn [run_many].
  specialize (Hg (branch x)). destruct (eval sub g (branch x)) as [[l|] y|y| |]; try done; cbn in Hg.
  - destruct Hg as (us & Hus & Hl & Hs). specialize (IH false (acc ++ l) (accept x y)).
    destruct (run_many _ _ _ _ _) as [o z|z| |]; try done; cbn in IH.
    + destruct IH as (vs & l' & -> & Hvs & Hl' & _). exists (us ++ vs), (l ++ l').
      split; [by rewrite (assoc_L _)|]. split; [rewrite <- (assoc_L _), <- Hvs; done|]. split.
      * intros [-> ->]%app_nil. rewrite Hl, Hl'; done.
      * intros _ Hn. destruct us; [by destruct (Hs ltac:(eauto) Hn)|done].
    + destruct IH as (vs & Hvs). exists (us ++ vs). rewrite <- (assoc_L _), <- Hvs. done.
  - destruct Hg as (us & Hus & Hl & _). rewrite Hl in Hus by done. destruct some.
    + cbn. by exists [].
    + cbn. exists [], []. by rewrite app_nil_r.
  - destruct Hg as (us & Hus). destruct (stop x y); [by exists us|]. destruct some.
    + by exists [].
    + exists [], []. by rewrite app_nil_r.
Qed.
Lemma eval_moves g : ∀ x, moves (negb (nullable g)) x (eval sub g x).
Proof.
  induction g as [s|t|f k|f g IH|gs IH|gs IH|g IH|g IH|g IH] using gexp_ind2; intros x; cbn [eval].
  - apply next_is_moves.
  - apply next_is_moves.
  - specialize (Hsub k (todo x)). destruct (sub k (todo x)); cbn in *; try done.
    + destruct Hsub as (us & -> & H). exists us. split; [done|]. split; [done|]. by intros _.
    + by apply moves_none.
  - specialize (IH x). cbn [nullable]. destruct (eval sub g x) as [[l|] y|y| |]; cbn in *; try done.
    destruct IH as (us & ? & ? & H). exists us. split; [done|]. split; [done|]. intros _. by apply H.
  - cbn [nullable].
    enough (∀ acc first x, match run_seq (eval sub) first gs acc x with
      | Ret o y => ∃ us, todo x = us ++ todo y ∧ (default [] o = [] → us = []) ∧
           (is_Some o → negb (forallb nullable gs) = true → us ≠ [])
      | Err y => ∃ us, todo x = us ++ todo y
      | _ => True end) as H by exact (H [] true x).
    clear x. induction IH as [|g gs Hg _ IH]; intros acc first x; cbn [run_seq].
    { exists []. split; [done|]. split; [done|]. by intros _. }
    specialize (Hg x). destruct (eval sub g x) as [[l|] y|y| |]; cbn in Hg; try done.
    + destruct Hg as (us & Hus & Hl & Hs). specialize (IH (acc ++ l) false y).
      destruct (run_seq _ _ _ _ _) as [o z|z| |] eqn:E; try done.
      * destruct IH as (vs & Hvs & Hl' & Hs'). exists (us ++ vs). rewrite <- (assoc_L _), <- Hvs.
        split; [done|]. split.
        -- intros Ho. pose proof (run_seq_texts _ _ _ _ _ E Ho) as E'. rewrite (Hl' Ho), app_nil_r. apply Hl.
           apply app_eq_nil in E'. tauto.
        -- intros Ho. cbn. rewrite negb_andb. intros [H|H]%orb_true_iff.
           ++ destruct us; [by destruct (Hs ltac:(eauto) H)|done].
           ++ destruct vs; [by destruct (Hs' Ho H)|]. by destruct us.
      * destruct IH as (vs & Hvs). exists (us ++ vs). rewrite <- (assoc_L _), <- Hvs. done.
    + destruct Hg as (us & Hus & Hl & Hs). rewrite Hl in Hus by done. destruct first.
      * by apply moves_none.
      * by exists [].
  - cbn [nullable]. enough (∀ failed x y, todo x = todo y → moves (negb (existsb nullable gs)) x
      (run_alt (eval sub) failed gs y)) as H by by apply H.
    clear x. induction IH as [|g gs Hg _ IH]; intros failed x x' Hx; cbn [run_alt].
    { destruct failed; [by exists []|by apply moves_none]. }
    specialize (Hg (branch x')). destruct (eval sub g (branch x')) as [[l|] y|y| |]; cbn in Hg; try done.
    + destruct Hg as (us & Hus & Hl & Hs). cbn. rewrite Hx, Hus. exists us. split; [done|]. split; [done|].
      intros _. rewrite negb_orb. intros [? _]%andb_true_iff. by apply Hs.
    + specialize (IH failed x (drop_branch x' y) Hx). cbn [existsb].
      destruct (run_alt _ _ _ _) as [o z|z| |]; cbn in *; try done.
      destruct IH as (us & ? & ? & H). exists us. split; [done|]. split; [done|]. intros Ho.
      rewrite negb_orb. intros [_ ?]%andb_true_iff. by apply H.
    + destruct Hg as (us & Hus). destruct (stop x' y); [cbn; rewrite Hx, Hus; by exists us|].
      specialize (IH true x (drop_branch x' y) Hx). cbn [existsb].
      destruct (run_alt _ _ _ _) as [o z|z| |]; cbn in *; try done.
      destruct IH as (vs & ? & ? & H). exists vs. split; [done|]. split; [done|]. intros Ho.
      rewrite negb_orb. intros [_ ?]%andb_true_iff. by apply H.
  - cbn [nullable]. specialize (IH (branch x)). unfold run_opt.
    destruct (eval sub g (branch x)) as [o y|y| |]; cbn in IH; try done.
    + destruct IH as (us & ? & H & _). exists us. split; [done|]. split; [|done].
      intros Hd. apply H. by destruct o.
    + destruct IH as (us & Hus). destruct (stop x y); [by exists us|]. exists []. done.
  - cbn [nullable negb]. pose proof (run_many_moves g false (S (length (todo x))) [] x IH) as H.
    destruct (run_many _ _ _ _ _) as [o y|y| |]; try done. destruct H as (us & l & -> & ? & ? & _).
    exists us. split; [done|]. split; [done|]. done.
  - cbn [nullable]. pose proof (run_many_moves g true (S (length (todo x))) [] x IH) as H.
    destruct (run_many _ _ _ _ _) as [o y|y| |]; try done. destruct H as (us & l & -> & ? & ? & H).
    exists us. split; [done|]. split; [done|]. intros _. by apply H.
Qed.
End struct_moves.
End progress.

Lemma parse_struct_moves eof n k ts : moves_struct (negb (empty_struct k)) ts (parse_struct eof n k ts).
Proof.
  revert k ts. induction n as [|n IH]; intros k ts; [done|]. cbn [parse_struct].
  pose proof (eval_moves (parse_struct eof n) IH (grammar k) (Ctx ts [] [])) as H.
  assert (negb (empty_struct k) = true → negb (nullable (grammar k)) = true) as Hk.
  { pose proof (kinds_ok k) as Hk. unfold kind_ok in Hk. intros E.
    destruct (nullable (grammar k)); [|done]. destruct (empty_struct k); [done|]. cbn in Hk.
    rewrite andb_false_r in Hk. done. }
  destruct (eval _ _ _) as [[l|] y|y| |]; cbn in *; try done.
  destruct H as (us & Hus & _ & Hs). destruct (store_all _ _ _); cbn; try done.
  - exists us. split; [done|]. intros E. apply Hs; [eauto|by apply Hk].
  - by exists us.
Qed.

(** ** Enough fuel *)
Section fuel.
Context (sub : kind → list token → parsed).
Context (Hmoves : ∀ k ts, moves_struct (negb (empty_struct k)) ts (sub k ts)).
Context (len r : nat).
Context (Hsub : ∀ k ts, length ts < len ∨ length ts = len ∧ rank k < r → sub k ts ≠ PNoFuel).
Definition within (g : gexp) (x : ctx) : Prop :=
  length (todo x) < len ∨ length (todo x) = len ∧ Forall (λ k, rank k < r) (heads g).
Lemma run_many_fuel g some n acc x :
  (∀ x, within g x → eval sub g x ≠ NoFuel) → nullable g = false → within g x →
  length (todo x) < n → run_many (eval sub g) some n acc x ≠ NoFuel.
Proof.
  intros Hg Hn. revert some acc x. induction n as [|n IH]; intros some acc x Hw Hx; [lia|]. cbn [run_many].
  pose proof (eval_moves sub Hmoves g (branch x)) as Hm. specialize (Hg (branch x) Hw). rewrite Hn in Hm.
  destruct (eval sub g (branch x)) as [[l|] y|y| |]; try done.
  - destruct Hm as (us & Hus & _ & Hs). cbn in Hus. specialize (Hs ltac:(eauto) eq_refl).
    assert (length (todo y) < length (todo x)).
    { rewrite Hus, app_length. destruct us; [done|]. cbn. lia. }
    apply IH; [|cbn; lia]. left. cbn. destruct Hw as [|[? _]]; lia.
  - by destruct some.
  - destruct (stop x y); [done|]. by destruct some.
Qed.
Lemma eval_fuel g : loops_ok g = true → ∀ x, within g x → eval sub g x ≠ NoFuel.
Proof.
  induction g as [s|t|f k|f g IH|gs IH|gs IH|g IH|g IH|g IH] using gexp_ind2; intros Hl x Hx; cbn [eval].
  - unfold next_is. repeat case_match; done.
  - unfold next_is. repeat case_match; done.
  - assert (sub k (todo x) ≠ PNoFuel); [|by case_match].
    apply Hsub. destruct Hx as [|[? Hx]]; [by left|right]. by inversion Hx.
  - specialize (IH Hl x Hx). repeat case_match; done.
  - cbn [loops_ok] in Hl. revert Hx. generalize true, (@nil text). revert x.
    induction IH as [|g gs Hg _ IH]; intros x first acc Hx; cbn [run_seq]; [done|].
    cbn [forallb] in Hl. apply andb_true_iff in Hl as [Hl1 Hl2].
    assert (Hx1 : within g x).
    { destruct Hx as [|[? Hx]]; [by left|right]. split; [done|]. cbn in Hx. by apply Forall_app in Hx as [? _]. }
    specialize (Hg Hl1 x Hx1). pose proof (eval_moves sub Hmoves g x) as Hm.
    destruct (eval sub g x) as [[l|] y|y| |]; try done; [|by destruct first].
    apply IH; [done|]. destruct Hm as (us & Hus & _ & Hs).
    destruct us as [|u us].
    + cbn in Hus. unfold within. rewrite <- Hus. destruct Hx as [|[? Hx]]; [by left|right]. split; [done|].
      cbn in Hx. apply Forall_app in Hx as [_ Hx]. destruct (nullable g); [done|]. by destruct Hs; [eauto|..].
    + left. unfold within in Hx. rewrite Hus in Hx. destruct Hx as [Hx|[Hx _]]; rewrite app_length in Hx; cbn in Hx; lia.
  - cbn [loops_ok] in Hl. revert Hx. generalize false. revert x.
    induction IH as [|g gs Hg _ IH]; intros x failed Hx; cbn [run_alt]; [by destruct failed|].
    cbn [forallb] in Hl. apply andb_true_iff in Hl as [Hl1 Hl2].
    assert (Hx1 : within g (branch x)).
    { destruct Hx as [|[? Hx]]; [by left|right]. split; [done|]. cbn in Hx. by apply Forall_app in Hx as [? _]. }
    assert (Hx2 : ∀ y, within (GAlt gs) (drop_branch x y)).
    { intros y. destruct Hx as [|[? Hx]]; [by left|right]. split; [done|]. cbn in Hx. by apply Forall_app in Hx as [_ ?]. }
    specialize (Hg Hl1 (branch x) Hx1). destruct (eval sub g (branch x)) as [[l|] y|y| |]; try done.
    + by apply IH.
    + destruct (stop x y); [done|]. by apply IH.
  - specialize (IH Hl (branch x) Hx). unfold run_opt. destruct (eval sub g (branch x)); try done. by destruct (stop _ _).
  - cbn [loops_ok] in Hl. apply andb_true_iff in Hl as [Hn Hl].
    apply run_many_fuel; [by apply IH|by apply negb_true_iff|done|lia].
  - cbn [loops_ok] in Hl. apply andb_true_iff in Hl as [Hn Hl].
    apply run_many_fuel; [by apply IH|by apply negb_true_iff|done|lia].
Qed.
End fuel.

Definition enough (k : kind) (ts : list token) : nat := 60 * length ts + rank k + 1.
Lemma kind_facts k :
  loops_ok (grammar k) = true ∧ Forall (λ k', rank k' < rank k) (heads (grammar k)) ∧ rank k < 60.
Proof.
  pose proof (kinds_ok k) as H. unfold kind_ok in H. rewrite !andb_true_iff in H.
  destruct H as (((H1 & H2) & _) & H3). split; [done|]. split; [|by apply Nat.ltb_lt].
  apply Forall_forall. intros k' Hk'. rewrite forallb_forall in H2.
  apply Nat.ltb_lt, H2. by apply elem_of_list_In.
Qed.
Lemma enough_fuel eof n k ts : enough k ts ≤ n → parse_struct eof n k ts ≠ PNoFuel.
Proof.
  revert k ts. induction n as [|n IH]; intros k ts Hn; unfold enough in Hn; [lia|]. cbn [parse_struct].
  destruct (kind_facts k) as (Hl & Hh & Hr).
  assert (eval (parse_struct eof n) (grammar k) (Ctx ts [] []) ≠ NoFuel).
  { apply (eval_fuel _ (parse_struct_moves eof n) (length ts) (rank k)); [|done|by right].
    intros k' ts' H. apply IH. unfold enough. destruct (kind_facts k') as (_ & _ & ?). lia. }
  repeat case_match; done.
Qed.
Lemma enough_struct_fuel k ts : enough k ts ≤ struct_fuel ts.
Proof. unfold enough, struct_fuel. destruct (kind_facts k) as (_ & _ & ?). lia. Qed.

(** The parser of a struct, without fuel. *)
Definition parser (eof : pos) (k : kind) (ts : list token) : parsed := parse_struct eof (enough k ts) k ts.
Lemma parser_fuel eof n k ts : parse_struct eof n k ts ≠ PNoFuel → parse_struct eof n k ts = parser eof k ts.
Proof.
  intros H. unfold parser. destruct (decide (n ≤ enough k ts)).
  - symmetry. by apply parse_struct_monotone.
  - apply parse_struct_monotone; [lia|]. by apply enough_fuel.
Qed.
Lemma parser_enough eof n k ts : enough k ts ≤ n → parse_struct eof n k ts = parser eof k ts.
Proof. intros H. by apply parser_fuel, enough_fuel. Qed.
Lemma parser_not_out_of_fuel eof k ts : parser eof k ts ≠ PNoFuel.
Proof. by apply enough_fuel. Qed.
Lemma parser_moves eof k ts : moves_struct (negb (empty_struct k)) ts (parser eof k ts).
Proof. apply parse_struct_moves. Qed.

(** What strct.Parse makes of the result of the grammar. *)
Definition finish_struct (eof : pos) (k : kind) (ts : list token) (r : result) : parsed :=
  match r with
  | Ret (Some _) y =>
      match store_all k (fields (zero no_pos k)) (assigned y ++ waiting y) with
      | Stored fs => PNode (T (position eof k ts) k fs) (todo y)
      | Refused => PErr (todo y)
      | Crashed => PCrash
      end
  | Ret None _ => PNone
  | Err y => PErr (todo y)
  | Crash => PCrash
  | NoFuel => PNoFuel
  end.
Lemma parser_unfold eof k ts :
  parser eof k ts = finish_struct eof k ts (eval (parser eof) (grammar k) (Ctx ts [] [])).
Proof.
  rewrite <- (parser_enough eof (S (enough k ts))) by lia. cbn [parse_struct]. unfold finish_struct.
  replace (eval (parse_struct eof (enough k ts)) (grammar k) (Ctx ts [] []))
    with (eval (parser eof) (grammar k) (Ctx ts [] [])); [done|].
  apply eval_monotone.
  - intros k' ts' H. symmetry. by apply parser_fuel.
  - pose proof (enough_fuel eof (S (enough k ts)) k ts) as H. cbn [parse_struct] in H.
    intros E. rewrite E in H. apply H; [lia|done].
Qed.
Lemma parse_tokens_parser eof ts :
  parse_tokens eof ts = match parser eof KAST ts with
                        | PNode t [] => Ok (Some t)
                        | PCrash => Panic
                        | _ => Ok None
                        end.
Proof.
  unfold parse_tokens. rewrite parser_enough by apply enough_struct_fuel.
  pose proof (parser_not_out_of_fuel eof KAST ts). by destruct (parser eof KAST ts).
Qed.

(** Induction over the structs that are parsed. *)
Lemma parser_ind eof (Φ : kind → list token → parsed → Prop) :
  (∀ k ts, Φ k ts PNoFuel) →
  (∀ sub, (∀ k ts, sub k ts ≠ PNoFuel → sub k ts = parser eof k ts) →
     (∀ k ts, moves_struct (negb (empty_struct k)) ts (sub k ts)) →
     (∀ k ts, Φ k ts (sub k ts)) →
     ∀ k ts, Φ k ts (finish_struct eof k ts (eval sub (grammar k) (Ctx ts [] [])))) →
  ∀ k ts, Φ k ts (parser eof k ts).
Proof.
  intros H0 HS k ts. unfold parser. generalize (enough k ts). intros n. revert k ts.
  induction n as [|n IH]; intros k ts; [apply H0|].
  apply (HS (parse_struct eof n)); [|apply parse_struct_moves|exact IH].
  intros k' ts'. apply parser_fuel.
Qed.
