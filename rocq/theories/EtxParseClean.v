(** * Successful parses are derivations

    A branch that fails can leave captures behind (see EtxParse.v).  This file shows that
    the tree of a successful parse has none of these. *)
From stdpp Require Import base list option strings.
From Coq Require Import Ascii Lia.
From Verif Require Import GoBase EtxAst EtxHeap EtxHeapSpec EtxText EtxLex EtxUtil EtxGram EtxParse EtxParseBase
  EtxParseSpec EtxParseStore EtxParseFirst.

(** ** Expressions that commit no capture *)
Fixpoint has_capture (g : gexp) : bool :=
  match g with
  | GLit _ | GTok _ => false
  | GSub _ _ | GCap _ _ => true
  | GSeq gs | GAlt gs => existsb has_capture gs
  | GOpt g | GMany g | GSome g => has_capture g
  end.
(** [w]: captures may be waiting before. *)
Fixpoint no_commit (w : bool) (g : gexp) : bool :=
  match g with
  | GLit _ | GTok _ => true
  | GSub _ _ => negb w
  | GCap _ g => no_commit w g
  | GSeq gs =>
      (fix go (w : bool) gs :=
         match gs with [] => true | g :: gs => no_commit w g && go (w || has_capture g) gs end) w gs
  | GAlt gs => forallb (no_commit false) gs
  | GOpt g | GMany g | GSome g => no_commit false g
  end.
Section no_commit.
Context (sub : kind → list token → parsed).
Definition commits_none (g : gexp) (x : ctx) (r : result) : Prop :=
  match r with
  | Ret _ y => assigned y = assigned x ∧ (has_capture g = false → waiting y = waiting x)
  | Err y => assigned y = assigned x
  | _ => True
  end.
Lemma no_commit_many g some n acc x :
  (∀ x, waiting x = [] → commits_none g x (eval sub g x)) →
  commits_none (GMany g) x (run_many (eval sub g) some n acc x).
Proof.
  intros Hg. revert some acc x. induction n as [|n IH]; intros some acc x; [done|]. cbn [run_many].
  specialize (Hg (branch x) eq_refl). destruct (eval sub g (branch x)) as [[l|] y|y| |]; try done; cbn in Hg.
  - destruct Hg as [Ha Hw]. specialize (IH false (acc ++ l) (accept x y)).
    destruct (run_many _ _ _ _ _) as [o z|z| |]; cbn in *; try done.
    + destruct IH as [IH1 IH2]. split; [congruence|]. intros Hc. rewrite IH2, Hw, app_nil_r by done. done.
    + congruence.
  - destruct Hg as [Ha Hw]. destruct some; cbn; [done|]. split; [done|]. intros Hc. by rewrite Hw, app_nil_r.
  - destruct (stop x y); [done|]. by destruct some.
Qed.
Lemma no_commit_sound g : ∀ w x,
  no_commit w g = true → (w = false → waiting x = []) → commits_none g x (eval sub g x).
Proof.
  induction g as [s|t|f k|f g IH|gs IH|gs IH|g IH|g IH|g IH] using gexp_ind2; intros w x Hn Hw; cbn [eval].
  - unfold next_is. repeat case_match; done.
  - unfold next_is. repeat case_match; done.
  - cbn in Hn. destruct w; [done|]. rewrite (Hw eq_refl). destruct (sub k (todo x)); cbn; try done.
    + by rewrite app_nil_r.
    + by rewrite app_nil_r.
  - specialize (IH w x Hn Hw). destruct (eval sub g x) as [[l|] y|y| |]; cbn in *; try done.
    + split; [tauto|done].
    + split; [tauto|done].
  - enough (H : ∀ first acc, commits_none (GSeq gs) x (run_seq (eval sub) first gs acc x)) by apply H.
    cbn [no_commit] in Hn. revert w x Hn Hw.
    induction IH as [|g gs Hg _ IH]; intros w x Hn Hw first acc; cbn [run_seq]; [done|].
    apply andb_true_iff in Hn as [Hn1 Hn2]. specialize (Hg w x Hn1 Hw).
    destruct (eval sub g x) as [[l|] y|y| |]; cbn in Hg; try done.
    + destruct Hg as [Ha Hc]. specialize (IH _ y Hn2).
      assert (w || has_capture g = false → waiting y = []) as Hw'.
      { intros [-> ?]%orb_false_iff. rewrite Hc, Hw; done. }
      specialize (IH Hw' false (acc ++ l)). destruct (run_seq _ _ _ _ _) as [o z|z| |]; cbn in *; try done.
      * destruct IH as [IH1 IH2]. split; [congruence|]. intros [? ?]%orb_false_iff. rewrite IH2, Hc; done.
      * congruence.
    + destruct first; cbn; [|tauto]. split; [tauto|]. intros [? ?]%orb_false_iff. tauto.
  - cbn [no_commit] in Hn. assert (∀ failed x, commits_none (GAlt gs) x (run_alt (eval sub) failed gs x)) as H; [|apply H].
    clear x Hw. induction IH as [|g gs Hg _ IH]; intros failed x; cbn [run_alt]; [by destruct failed|].
    cbn in Hn. apply andb_true_iff in Hn as [Hn1 Hn2]. specialize (Hg false (branch x) Hn1 (λ _, eq_refl)).
    destruct (eval sub g (branch x)) as [[l|] y|y| |]; cbn in Hg; try done.
    + destruct Hg as [Ha Hc]. cbn. split; [done|]. intros [? ?]%orb_false_iff. by rewrite Hc, app_nil_r.
    + destruct Hg as [Ha Hc]. specialize (IH Hn2 failed (drop_branch x y)).
      destruct (run_alt _ _ _ _) as [o z|z| |]; cbn in *; try done.
      * destruct IH as [IH1 IH2]. split; [congruence|]. intros [? ?]%orb_false_iff. by apply IH2.
      * congruence.
    + destruct (stop x y); [done|]. specialize (IH Hn2 true (drop_branch x y)).
      destruct (run_alt _ _ _ _) as [o z|z| |]; cbn in *; try done.
      * destruct IH as [IH1 IH2]. split; [congruence|]. intros [? ?]%orb_false_iff. by apply IH2.
      * congruence.
  - specialize (IH false (branch x) Hn (λ _, eq_refl)). unfold run_opt.
    destruct (eval sub g (branch x)) as [o y|y| |]; cbn in IH; try done.
    + destruct IH as [Ha Hc]. split; [done|]. intros H. cbn. by rewrite (Hc H), app_nil_r.
    + destruct (stop x y); [done|]. by split.
  - apply no_commit_many. intros x' Hx'. by apply (IH false).
  - apply (no_commit_many g true). intros x' Hx'. by apply (IH false).
Qed.
End no_commit.
(** No branch commits. *)
Fixpoint tidy (g : gexp) : bool :=
  match g with
  | GLit _ | GTok _ | GSub _ _ => true
  | GCap _ g => tidy g
  | GSeq gs => forallb tidy gs
  | GAlt gs => forallb (λ g, no_commit false g && tidy g) gs
  | GOpt g | GMany g | GSome g => no_commit false g && tidy g
  end.

(** ** Tokens at which nothing can go on *)
(** The operators of a level and those that bind tighter; for anything else, all. *)
Definition ops_mul : list tname := [TOpDivision; TOpMultiplication; TOpModulo].
Definition ops_add : list tname := [TOpMinus; TOpPlus] ++ ops_mul.
Definition ops_shift : list tname := [TOpBitwiseShiftLeft; TOpBitwiseShiftRight] ++ ops_add.
Definition ops_rel : list tname := [TOpMore; TOpMoreOrEqual; TOpLess; TOpLessOrEqual] ++ ops_shift.
Definition ops_eq : list tname := [TOpNotEqual; TOpEqual] ++ ops_rel.
Definition ops_and : list tname := TOpBitwiseAnd :: ops_eq.
Definition ops_xor : list tname := TOpBitwiseXOr :: ops_and.
Definition ops_or : list tname := TOpBitwiseOr :: ops_xor.
Definition ops_land : list tname := TOpLogicalAnd :: ops_or.
Definition ops_lor : list tname := TOpLogicalOr :: ops_land.
Definition ops_of (k : kind) : list tname :=
  match k with
  | KExprMultiplicative => ops_mul | KExprAdditive => ops_add | KExprShift => ops_shift
  | KExprRelational => ops_rel | KExprEquality => ops_eq | KExprBitwiseAnd => ops_and
  | KExprBitwiseXor => ops_xor | KExprBitwiseOr => ops_or | KExprLogicalAnd => ops_land
  | KExprUnary => []
  | _ => ops_lor
  end.
Definition op_text (t : tname) : string :=
  match t with
  | TOpLogicalOr => "||" | TOpLogicalAnd => "&&" | TOpBitwiseOr => "|" | TOpBitwiseXOr => "^"
  | TOpBitwiseAnd => "&" | TOpNotEqual => "!=" | TOpEqual => "==" | TOpMore => ">"
  | TOpMoreOrEqual => ">=" | TOpLess => "<" | TOpLessOrEqual => "<=" | TOpBitwiseShiftLeft => "<<"
  | TOpBitwiseShiftRight => ">>" | TOpMinus => "-" | TOpPlus => "+" | TOpDivision => "/"
  | TOpMultiplication => "*" | TOpModulo => "%" | TOpBitwiseNot => "~" | TOpLogicalNot => "!" | _ => ""
  end.
Definition signs : list tname := [TOpBitwiseNot; TOpLogicalNot; TOpMinus; TOpPlus].
(** The tokens that may read "?". *)
Definition question_kinds : list tname := [TOpCondition; TChar; TBody; TStringEnd; THeredocEnd].
Definition regular (u : token) : Prop :=
  (kind_of_token u ∈ signs ++ ops_lor → value u = chars (op_text (kind_of_token u))) ∧
  (value u = chars "?" → kind_of_token u ∈ question_kinds).
(** Levels that end before a question mark. *)
Definition asks (k : kind) : bool :=
  match k with
  | KExprMultiplicative | KExprAdditive | KExprShift | KExprRelational | KExprEquality | KExprBitwiseAnd
  | KExprBitwiseXor | KExprBitwiseOr | KExprLogicalAnd | KExprLogicalOr | KExprUnary => false
  | _ => true
  end.

Section clean.
Context (eof : pos).
Definition blocked (k : kind) (ts : list token) : Prop :=
  ∃ u us, ts = u :: us ∧
    (kind_of_token u ∈ ops_of k ∧ value u = chars (op_text (kind_of_token u)) ∨
     asks k = true ∧ value u = chars "?" ∧ kind_of_token u ∈ question_kinds) ∧
    ∀ t ts', parser eof KExprUnary ts ≠ PNode t ts'.
(** KExpr stands for the structs that are no level. *)
Definition stuck_at (ts : list token) : Prop := blocked KExpr ts.
Lemma blocked_stuck k ts : blocked k ts → stuck_at ts.
Proof.
  intros (u & us & -> & H & Hu). exists u, us. split; [done|]. split; [|done].
  destruct H as [[H1 H2]|(_ & H1 & H2)]; [left|right; done]. split; [|done].
  assert (ops_of k ⊆ ops_lor) as Hk; [|by apply Hk].
  assert (forallb (λ k, forallb (λ t, bool_decide (t ∈ ops_lor)) (ops_of k)) all_kinds = true) as Hc by (vm_compute; reflexivity).
  pose proof (for_all_kinds _ Hc k) as Hc'. cbn beta in Hc'. rewrite forallb_forall in Hc'.
  intros t Ht. by apply elem_of_list_In, Hc', bool_decide_eq_true in Ht.
Qed.

Definition safe_atom (a : atom) : bool :=
  match a with
  | ALit s => bool_decide (s ∉ "?" :: map op_text ops_lor)
  | ATok t => bool_decide (t ∉ ops_lor ++ question_kinds)
  end.
Definition stuck (g : gexp) : bool := forallb safe_atom (firsts (first_of unary_dead) g).
Lemma chars_inj a b : chars a = chars b → a = b.
Proof.
  revert b. induction a as [|c a IH]; intros [|d b]; try done. intros [= -> H]. f_equal. by apply IH.
Qed.
Lemma safe_not_stuck l ts : forallb safe_atom l = true → starts l ts → ¬ stuck_at ts.
Proof.
  intros Hl (u & us & -> & Hu) (u' & us' & [= <- <-] & Hb & _).
  apply existsb_exists in Hu as (a & Ha & Hu). rewrite forallb_forall in Hl. apply Hl in Ha.
  destruct a as [s|t]; cbn [safe_atom atom_is] in Ha, Hu; apply bool_decide_eq_true in Ha, Hu.
  - change (s ∉ "?" :: map op_text ops_lor) in Ha. apply Ha. destruct Hb as [[H1 H2]|(_ & H1 & H2)].
    + apply elem_of_cons. right. apply elem_of_list_fmap. exists (kind_of_token u). split; [|done]. apply chars_inj. congruence.
    + apply elem_of_cons. left. apply chars_inj. congruence.
  - apply Ha. subst t. apply elem_of_app. destruct Hb as [[H1 H2]|(_ & H1 & H2)]; [by left|by right].
Qed.

Section eval.
Context (sub : kind → list token → parsed).
Context (Hparser : ∀ k ts, sub k ts ≠ PNoFuel → sub k ts = parser eof k ts).
Context (Hmoves : ∀ k ts, moves_struct (negb (empty_struct k)) ts (sub k ts)).
Lemma stuck_eval g x o y :
  stuck g = true → stuck_at (todo x) → eval sub g x = Ret o y → todo y = todo x.
Proof.
  intros Hg Hx E. pose proof (eval_starts sub (first_of unary_dead) (todo x) Hmoves) as H.
  specialize (H ltac:(intros k t ts' Ek; apply (parser_starts eof unary_dead (todo x) first_closed_unary) with t;
    [intros k' t' ts'' Hk; destruct k'; try done; by destruct Hx as (? & ? & -> & _ & ?)|rewrite <- Hparser; congruence])
    g x eq_refl). rewrite E in H. destruct H as [H|H]; [done|].
  exfalso. by apply (safe_not_stuck _ _ Hg H).
Qed.
(** What can be unclean at the end. *)
Definition dirtyable (k : kind) : bool :=
  match k with
  | KAST | KRootItem | KDecl | KFuncStatement | KFuncDecl | KLambda | KTypeEnum | KTypeEnumItem | KBlockItem
  | KAttribute | KListItem | KMapItem | KExpr | KExprConditional | KExprLogicalOr | KExprLogicalAnd
  | KExprBitwiseOr | KExprBitwiseXor | KExprBitwiseAnd | KExprEquality | KExprRelational | KExprShift
  | KExprAdditive | KExprMultiplicative | KExprInvocationParams => true
  | _ => false
  end.
Fixpoint dirty_end (g : gexp) : bool :=
  match g with
  | GLit _ | GTok _ => false
  | GSub _ k => dirtyable k
  | GCap _ g | GOpt g | GMany g | GSome g => dirty_end g
  | GSeq gs =>
      (fix go gs := match gs with [] => false | g :: gs => dirty_end g && forallb nullable gs || go gs end) gs
  | GAlt gs => existsb dirty_end gs
  end.
(** What follows something unclean does not consume the token at which it stopped. *)
Fixpoint follow_ok (g : gexp) : bool :=
  match g with
  | GLit _ | GTok _ | GSub _ _ => true
  | GCap _ g | GOpt g => follow_ok g
  | GMany g | GSome g => follow_ok g && (negb (dirty_end g) || stuck g) && negb (nullable g)
  | GSeq gs =>
      (fix go gs :=
         match gs with
         | [] => true
         | g :: gs => follow_ok g && (negb (dirty_end g) || forallb stuck gs) && go gs
         end) gs
  | GAlt gs => forallb follow_ok gs
  end.

Definition clean (g : gexp) (x : ctx) (o : option (list text)) (y : ctx) : Prop :=
  ∃ us cs, todo x = us ++ todo y ∧ assigned y ++ waiting y = assigned x ++ waiting x ++ cs ∧
    match o with
    | Some l => derives (first_pos eof (todo y)) g us cs l
    | None => us = [] ∧ cs = []
    end.
Definition clean_or_dirty (g : gexp) (x : ctx) (r : result) : Prop :=
  match r with
  | Ret o y => clean g x o y ∨ default [] o ≠ [] ∧ dirty_end g = true ∧ stuck_at (todo y)
  | _ => True
  end.
Definition built (k : kind) (ts : list token) (r : parsed) : Prop :=
  match r with
  | PNode t ts' =>
      (∃ us, ts = us ++ ts' ∧ builds (first_pos eof ts') k us t) ∨ dirtyable k = true ∧ blocked k ts'
  | _ => True
  end.

Lemma derives_no_text p g us cs l : derives p g us cs l → l = [] → us = [] ∧ cs = [].
Proof.
  intros H. revert p g us cs l H.
  apply (derives_ind2 (λ p g us cs l, l = [] → us = [] ∧ cs = []) (λ _ _ _ _, True)); try done.
  - intros p g gs us vs cs ds l m _ H1 _ H2 [-> ->]%app_nil.
    destruct (H1 eq_refl) as [-> ->]. by destruct (H2 eq_refl) as [-> ->].
  - intros p g us vs cs ds l m _ H1 _ H2 [-> ->]%app_nil.
    destruct (H1 eq_refl) as [-> ->]. by destruct (H2 eq_refl) as [-> ->].
  - intros p g us vs cs ds l m _ H1 _ H2 [-> ->]%app_nil.
    destruct (H1 eq_refl) as [-> ->]. by destruct (H2 eq_refl) as [-> ->].
Qed.
Lemma first_pos_app p us vs : first_pos p (us ++ vs) = first_pos (first_pos p vs) us.
Proof. by destruct us. Qed.

Context (Hsub : ∀ k ts, Forall regular ts → built k ts (sub k ts)).

Lemma regular_moves g x o y : Forall regular (todo x) → eval sub g x = Ret o y → Forall regular (todo y).
Proof.
  intros Hx E. pose proof (eval_moves sub Hmoves g x) as H. rewrite E in H. destruct H as (us & Hus & _).
  rewrite Hus in Hx. by apply Forall_app in Hx as [_ Hx].
Qed.
(** What follows something unclean. *)
Lemma stuck_seq gs acc x o y :
  forallb stuck gs = true → stuck_at (todo x) → run_seq (eval sub) false gs acc x = Ret o y →
  todo y = todo x ∧ forallb nullable gs = true.
Proof.
  revert acc x. induction gs as [|g gs IH]; intros acc x Hg Hx; cbn [run_seq].
  - by intros [= <- <-].
  - cbn in Hg. apply andb_true_iff in Hg as [Hg1 Hg2].
    destruct (eval sub g x) as [[l|] z|z| |] eqn:E; try done. intros H.
    pose proof (stuck_eval _ _ _ _ Hg1 Hx E) as Ez. rewrite <- Ez in Hx. destruct (IH _ _ Hg2 Hx H) as [-> Hn].
    split; [done|]. cbn. rewrite Hn, andb_true_r. pose proof (eval_moves sub Hmoves g x) as Hm. rewrite E in Hm.
    destruct (nullable g); [done|]. destruct Hm as (us & Hus & _ & Hs). destruct (Hs ltac:(eauto) eq_refl).
    rewrite Ez in Hus. apply (f_equal length) in Hus. rewrite app_length in Hus. destruct us; [done|]. cbn in Hus. lia.
Qed.
Lemma clean_seq gs acc first x :
  Forall (λ g, tidy g = true → follow_ok g = true → ∀ x, Forall regular (todo x) →
    clean_or_dirty g x (eval sub g x)) gs →
  forallb tidy gs = true → follow_ok (GSeq gs) = true → Forall regular (todo x) →
  match run_seq (eval sub) first gs acc x with
  | Ret o y =>
      (∃ us cs l, todo x = us ++ todo y ∧ assigned y ++ waiting y = assigned x ++ waiting x ++ cs ∧
         derives (first_pos eof (todo y)) (GSeq gs) us cs l ∧
         o = (if bool_decide (acc ++ l = []) then None else Some (acc ++ l))) ∨
      (first = true ∧ o = None ∧ todo x = todo y ∧ assigned y ++ waiting y = assigned x ++ waiting x) ∨
      default [] o ≠ [] ∧ dirty_end (GSeq gs) = true ∧ stuck_at (todo y)
  | _ => True
  end.
Proof.
  intros HF. revert acc first x. induction HF as [|g gs Hg _ IH]; intros acc first x Ht Hf Hr; cbn [run_seq].
  - left. exists [], [], []. split; [done|]. split; [by rewrite app_nil_r|]. split; [constructor|]. by rewrite app_nil_r.
  - change (tidy g && forallb tidy gs = true) in Ht.
    change (follow_ok g && (negb (dirty_end g) || forallb stuck gs) && follow_ok (GSeq gs) = true) in Hf.
    apply andb_true_iff in Ht as [Ht1 Ht2]. apply andb_true_iff in Hf as [[Hf1 Hf2]%andb_true_iff Hf3].
    specialize (Hg Ht1 Hf1 x Hr). destruct (eval sub g x) as [[l|] y|y| |] eqn:E; try done; cbn in Hg.
    + destruct Hg as [(us & cs & Hus & Hcs & Hd)|(Hl & Hd & Hs)].
      * specialize (IH (acc ++ l) false y Ht2 Hf3 (regular_moves _ _ _ _ Hr E)).
        destruct (run_seq _ _ _ _ _) as [o z|z| |]; try done.
        destruct IH as [(vs & ds & m & Hvs & Hds & Hd' & Ho)|[(? & _)|(Hl & Hd' & Hs)]]; [left|done|right; right].
        -- exists (us ++ vs), (cs ++ ds), (l ++ m). split; [by rewrite <- (assoc_L _), <- Hvs|].
           split; [rewrite Hds, (assoc_L _ (assigned y)), Hcs, <- !(assoc_L _); done|]. split; [|by rewrite (assoc_L _)].
           constructor; [|done]. rewrite <- first_pos_app, <- Hvs. done.
        -- split; [done|]. split; [|done].
           change (dirty_end g && forallb nullable gs || dirty_end (GSeq gs) = true). by rewrite Hd', orb_true_r.
      * destruct (run_seq _ _ _ _ _) as [o z|z| |] eqn:E'; try done. right. right.
        rewrite Hd in Hf2. cbn in Hf2. destruct (stuck_seq _ _ _ _ _ Hf2 Hs E') as [-> Hn]. split.
        -- intros Ho. pose proof (run_seq_texts _ _ _ _ _ _ E' Ho) as [_ ?]%app_nil. done.
        -- split; [|done].
           change (dirty_end g && forallb nullable gs || dirty_end (GSeq gs) = true). by rewrite Hd, Hn.
    + destruct first; [|done]. destruct Hg as [(us & cs & Hus & Hcs & -> & ->)|[? _]]; [|done].
      right. left. rewrite app_nil_r in Hcs. done.
Qed.
(** The alternatives and iterations run in branches. *)
Lemma clean_branch g x o y :
  no_commit false g = true → clean g (branch x) o y → eval sub g (branch x) = Ret o y →
  assigned y = assigned x ∧
  ∃ us, todo x = us ++ todo y ∧
    match o with
    | Some l => derives (first_pos eof (todo y)) g us (waiting y) l
    | None => us = [] ∧ waiting y = []
    end.
Proof.
  intros Hn (us & cs & Hus & Hcs & Hd) E.
  pose proof (no_commit_sound sub g false (branch x) Hn (λ _, eq_refl)) as Hc. rewrite E in Hc. destruct Hc as [Ha _].
  cbn in Ha, Hcs. rewrite Ha in Hcs. apply app_inv_head in Hcs. rewrite Hcs. split; [done|]. by exists us.
Qed.
Lemma clean_many g some n acc x :
  (∀ x, Forall regular (todo x) → clean_or_dirty g x (eval sub g x)) →
  no_commit false g = true → negb (dirty_end g) || stuck g = true → nullable g = false → Forall regular (todo x) →
  match run_many (eval sub g) some n acc x with
  | Ret o y =>
      (∃ us cs l, todo x = us ++ todo y ∧ assigned y ++ waiting y = assigned x ++ waiting x ++ cs ∧
         derives (first_pos eof (todo y)) (if some then GSome g else GMany g) us cs l ∧ o = Some (acc ++ l)) ∨
      (∃ l, l ≠ [] ∧ o = Some (acc ++ l)) ∧ dirty_end g = true ∧ stuck_at (todo y)
  | _ => True
  end.
Proof.
  intros Hg Hn Hs Hnull. revert some acc x. induction n as [|n IH]; intros some acc x Hr; [done|]. cbn [run_many].
  assert (∀ y, assigned y = assigned x → todo y = todo x → waiting y = waiting x →
    match (if some : bool then Err y else Ret (Some acc) y) with
    | Ret o y =>
        (∃ us cs l, todo x = us ++ todo y ∧ assigned y ++ waiting y = assigned x ++ waiting x ++ cs ∧
           derives (first_pos eof (todo y)) (if some then GSome g else GMany g) us cs l ∧ o = Some (acc ++ l)) ∨
        (∃ l, l ≠ [] ∧ o = Some (acc ++ l)) ∧ dirty_end g = true ∧ stuck_at (todo y)
    | _ => True
    end) as Hfin.
  { intros y Ha Ht Hw. destruct some; [done|]. left. exists [], [], []. rewrite Ha, Hw, Ht, !app_nil_r.
    split; [done|]. split; [done|]. split; [constructor|done]. }
  pose proof (Hg (branch x) Hr) as Hb. destruct (eval sub g (branch x)) as [[l|] y|y| |] eqn:E; try done; cbn in Hb.
  - assert (Forall regular (todo (accept x y))) as Hr' by exact (regular_moves g (branch x) _ _ Hr E).
    destruct Hb as [Hb|(Hl & Hd & Hb)].
    + destruct (clean_branch _ _ _ _ Hn Hb E) as (Ha & us & Hus & Hder).
      specialize (IH false (acc ++ l) (accept x y) Hr'). destruct (run_many _ _ _ _ _) as [o z|z| |]; try done.
      cbn in IH. destruct IH as [(vs & ds & m & Hvs & Hds & Hd' & ->)|[(m & Hm & ->) Hd]]; [left|right].
      * exists (us ++ vs), (waiting y ++ ds), (l ++ m). split; [by rewrite <- (assoc_L _), <- Hvs|].
        split; [rewrite Hds, Ha, <- !(assoc_L _); done|]. split; [|by rewrite (assoc_L _)].
        rewrite Hvs, first_pos_app in Hder. destruct some; by constructor.
      * split; [|done]. exists (l ++ m). split; [|by rewrite (assoc_L _)]. by intros [_ ?]%app_nil.
    + rewrite Hd in Hs. cbn in Hs. cbn in Hl. clear IH. destruct n as [|n]; [done|]. cbn [run_many].
      destruct (eval sub g (branch (accept x y))) as [[l'|] z|z| |] eqn:E'; try done.
      * pose proof (eval_moves sub Hmoves g (branch (accept x y))) as Hm. rewrite E', Hnull in Hm.
        pose proof (stuck_eval g (branch (accept x y)) _ _ Hs Hb E') as Hz. cbn in Hz.
        destruct Hm as (us & Hus & _ & Hne). destruct (Hne ltac:(eauto) eq_refl). cbn in Hus. rewrite Hz in Hus.
        apply (f_equal length) in Hus. rewrite app_length in Hus. destruct us; [done|]. cbn in Hus. lia.
      * right. split; [by exists l|]. split; [done|].
        change (stuck_at (todo z)). by rewrite (stuck_eval g (branch (accept x y)) _ _ Hs Hb E').
      * destruct (stop (accept x y) z); [done|]. right. split; [by exists l|]. done.
  - destruct Hb as [Hb|[? _]]; [|done]. destruct (clean_branch _ _ _ _ Hn Hb E) as (Ha & us & Hus & -> & Hw).
    apply Hfin; cbn; [done|by rewrite Hus|by rewrite Hw, app_nil_r].
  - pose proof (no_commit_sound sub g false (branch x) Hn (λ _, eq_refl)) as Hc. rewrite E in Hc.
    destruct (stop x y); [done|]. by apply Hfin.
Qed.
Lemma clean_eval g :
  tidy g = true → follow_ok g = true → ∀ x, Forall regular (todo x) → clean_or_dirty g x (eval sub g x).
Proof.
  induction g as [s|t|f k|f g IH|gs IH|gs IH|g IH|g IH|g IH] using gexp_ind2; intros Ht Hf x Hr; cbn [eval].
  - unfold next_is. destruct (todo x) as [|u us] eqn:E.
    + left. exists [], []. rewrite !app_nil_r. done.
    + destruct (bool_decide _) eqn:Hu; left; [|exists [], []; by rewrite !app_nil_r].
      exists [u], []. cbn. rewrite app_nil_r. split; [done|]. split; [done|]. constructor. by apply bool_decide_eq_true in Hu.
  - unfold next_is. destruct (todo x) as [|u us] eqn:E.
    + left. exists [], []. rewrite !app_nil_r. done.
    + destruct (bool_decide _) eqn:Hu; left; [|exists [], []; by rewrite !app_nil_r].
      exists [u], []. cbn. rewrite app_nil_r. split; [done|]. split; [done|]. constructor. by apply bool_decide_eq_true in Hu.
  - pose proof (Hsub k (todo x) Hr) as Hk. destruct (sub k (todo x)) as [t ts'| | | |]; try done.
    + destruct Hk as [(us & Hus & Hb)|[Hd Hb]]; [left|right].
      * exists us, [(f, Struct t)]. split; [done|]. split; [by rewrite (assoc_L _)|]. by constructor.
      * split; [done|]. split; [done|]. by eapply blocked_stuck.
    + left. exists [], []. by rewrite !app_nil_r.
  - specialize (IH Ht Hf x Hr). destruct (eval sub g x) as [[l|] y|y| |]; try done.
    destruct IH as [(us & cs & Hus & Hcs & Hd)|(Hl & Hd)]; [left|by right].
    exists us, (cs ++ [(f, Texts l)]). split; [done|]. split; [|by constructor].
    cbn. by rewrite (assoc_L _), Hcs, <- !(assoc_L _).
  - pose proof (clean_seq gs [] true x IH Ht Hf Hr) as H.
    destruct (run_seq _ _ _ _ _) as [o y|y| |]; try done.
    destruct H as [(us & cs & l & Hus & Hcs & Hd & ->)|[(_ & -> & Hx & Hcs)|H]]; [left|left|by right].
    + exists us, cs. split; [done|]. split; [done|]. cbn. destruct (decide (l = [])) as [->|Hl].
      * rewrite bool_decide_true by done. by eapply derives_no_text.
      * by rewrite bool_decide_false.
    + exists [], []. by rewrite !app_nil_r.
  - assert (∀ failed x', assigned x' = assigned x → todo x' = todo x → waiting x' = waiting x → 
      clean_or_dirty (GAlt gs) x (run_alt (eval sub) failed gs x')) as H; [|by apply H].
    cbn [tidy follow_ok] in Ht, Hf.
    induction IH as [|g gs Hg _ IH]; intros failed x' Ha Htd Hw; cbn [run_alt].
    { destruct failed; [done|]. left. exists [], []. by rewrite Ha, Hw, Htd, !app_nil_r. }
    cbn [forallb] in Ht, Hf. apply andb_true_iff in Ht as [[Hn Ht1]%andb_true_iff Ht2]. apply andb_true_iff in Hf as [Hf1 Hf2].
    assert (∀ y failed', assigned y = assigned x → clean_or_dirty (GAlt (g :: gs)) x
      (run_alt (eval sub) failed' gs (drop_branch x' y))) as IH'.
    { intros y failed' Hy. specialize (IH Ht2 Hf2 failed' (drop_branch x' y) Hy Htd Hw).
      destruct (run_alt _ _ _ _) as [o z|z| |]; try done.
      destruct IH as [(us & cs & Hus & Hcs & Hd)|(Hl & Hd & Hs)]; [left|right].
      - exists us, cs. split; [done|]. split; [done|]. destruct o; [|done].
        apply derives_alt_inv in Hd as (g' & Hg' & Hd). econstructor; [|exact Hd]. by right.
      - split; [done|]. split; [|done]. cbn in *. by rewrite Hd, orb_true_r. }
    assert (Forall regular (todo (branch x'))) as Hr' by (cbn; by rewrite Htd).
    specialize (Hg Ht1 Hf1 (branch x') Hr').
    pose proof (no_commit_sound sub g false (branch x') Hn (λ _, eq_refl)) as Hc.
    destruct (eval sub g (branch x')) as [[l|] y|y| |] eqn:E; try done; cbn in Hg.
    + destruct Hg as [Hg|(Hl & Hd & Hs)]; [left|right; split; [done|]; split; [|done]; cbn; by rewrite Hd].
      destruct (clean_branch _ _ _ _ Hn Hg E) as (Ha' & us & Hus & Hd). exists us, (waiting y).
      split; [cbn; congruence|]. split; [cbn; rewrite Ha', Ha, Hw; done|]. econstructor; [by left|done].
    + apply IH'. cbn in Hc. destruct Hc as [Hc _]. congruence.
    + destruct (stop x' y); [done|]. apply IH'. cbn in Hc. congruence.
  - cbn [tidy follow_ok] in Ht, Hf. apply andb_true_iff in Ht as [Hn Ht]. specialize (IH Ht Hf (branch x) Hr).
    pose proof (no_commit_sound sub g false (branch x) Hn (λ _, eq_refl)) as Hc. unfold run_opt.
    destruct (eval sub g (branch x)) as [o y|y| |] eqn:E; try done; cbn in IH.
    + destruct IH as [Hg|(Hl & Hd & Hs)]; [left|right].
      * destruct (clean_branch _ _ _ _ Hn Hg E) as (Ha' & us & Hus & Hd). exists us, (waiting y).
        split; [done|]. split; [cbn; by rewrite Ha'|]. cbn. destruct o as [l|]; [by apply d_opt|].
        destruct Hd as [-> ->]. apply d_none.
      * by destruct o.
    + destruct (stop x y); [done|]. left. exists [], []. rewrite !app_nil_r. cbn in Hc. split; [done|].
      split; [cbn; by rewrite Hc|]. apply d_none.
  - cbn [tidy follow_ok] in Ht, Hf. apply andb_true_iff in Ht as [Hn Ht]. apply andb_true_iff in Hf as [[Hf Hs]%andb_true_iff Hnull].
    pose proof (clean_many g false (S (length (todo x))) [] x (IH Ht Hf) Hn Hs) as H.
    specialize (H ltac:(by apply negb_true_iff) Hr). destruct (run_many _ _ _ _ _) as [o y|y| |]; try done.
    destruct H as [(us & cs & l & Hus & Hcs & Hd & ->)|[(l & Hl & ->) Hd]]; [left; by exists us, cs|by right].
  - cbn [tidy follow_ok] in Ht, Hf. apply andb_true_iff in Ht as [Hn Ht]. apply andb_true_iff in Hf as [[Hf Hs]%andb_true_iff Hnull].
    pose proof (clean_many g true (S (length (todo x))) [] x (IH Ht Hf) Hn Hs) as H.
    specialize (H ltac:(by apply negb_true_iff) Hr). destruct (run_many _ _ _ _ _) as [o y|y| |]; try done.
    destruct H as [(us & cs & l & Hus & Hcs & Hd & ->)|[(l & Hl & ->) Hd]]; [left; by exists us, cs|by right].
Qed.

(** ** Structs whose branches commit nothing *)
Definition kind_tidy (k : kind) : bool :=
  negb (tidy (grammar k)) ||
  follow_ok (grammar k) && (negb (dirty_end (grammar k)) || dirtyable k && asks k && bool_decide (ops_of k = ops_lor)).
Lemma kinds_tidy k : kind_tidy k = true.
Proof. revert k. apply for_all_kinds. vm_compute. reflexivity. Qed.
Lemma stuck_blocked k ts : asks k = true → ops_of k = ops_lor → stuck_at ts → blocked k ts.
Proof.
  intros Ha Ho (u & us & -> & H & Hu). exists u, us. rewrite Ha, Ho. done.
Qed.
Lemma position_first k us ts' :
  position eof k (us ++ ts') = match k with KAST => no_pos | _ => first_pos (first_pos eof ts') us end.
Proof. rewrite <- first_pos_app. unfold position, first_pos. by destruct k. Qed.
Lemma built_clean k ts l y :
  clean (grammar k) (Ctx ts [] []) (Some l) y → built k ts (finish_struct eof k ts (Ret (Some l) y)).
Proof.
  intros (us & cs & Hus & Hcs & Hd). cbn in Hus, Hcs. cbn [finish_struct]. rewrite Hcs.
  destruct (store_all _ _ _) as [fs| |] eqn:Es; try done. left. exists us. split; [done|].
  rewrite Hus, position_first. econstructor; [exact Hd|]. by eapply filled_stored.
Qed.
Lemma built_tidy k ts :
  tidy (grammar k) = true → Forall regular ts →
  built k ts (finish_struct eof k ts (eval sub (grammar k) (Ctx ts [] []))).
Proof.
  intros Ht Hr. pose proof (kinds_tidy k) as Hk. unfold kind_tidy in Hk. rewrite Ht in Hk.
  apply andb_true_iff in Hk as [Hf Hk]. pose proof (clean_eval (grammar k) Ht Hf (Ctx ts [] []) Hr) as H.
  destruct (eval sub (grammar k) (Ctx ts [] [])) as [[l|] y|y| |]; try done.
  destruct H as [H|(_ & Hd & Hs)]; [by apply built_clean|].
  cbn [finish_struct]. destruct (store_all _ _ _) as [fs| |]; try done. right.
  rewrite Hd in Hk. apply andb_true_iff in Hk as [[Hk1 Hk2]%andb_true_iff Hk3]. apply bool_decide_eq_true in Hk3.
  split; [done|]. by apply stuck_blocked.
Qed.
(** An alternative at the end may commit. *)
Definition clean_or_dirty_some (g : gexp) (x : ctx) (r : result) : Prop :=
  match r with Ret (Some l) y => clean_or_dirty g x r | _ => True end.
Lemma clean_alt_last gs g failed x :
  tidy (GAlt gs) = true → follow_ok (GAlt gs) = true → tidy g = true → follow_ok g = true →
  waiting x = [] → Forall regular (todo x) →
  clean_or_dirty_some (GAlt (gs ++ [g])) x (run_alt (eval sub) failed (gs ++ [g]) x).
Proof.
  intros Ht Hf Htg Hfg. revert failed x. induction gs as [|h gs IH]; intros failed x Hw Hr; cbn [app run_alt].
  - pose proof (clean_eval g Htg Hfg (branch x) Hr) as H. destruct (eval sub g (branch x)) as [[l|] y|y| |]; try done.
    + destruct H as [(us & cs & Hus & Hcs & Hd)|(Hl & Hd & Hs)]; [left|right].
      * exists us, cs. cbn in *. rewrite Hw. split; [done|]. split; [done|]. econstructor; [by left|done].
      * split; [done|]. split; [|done]. cbn. by rewrite Hd.
    + by destruct failed.
    + by destruct (stop x y).
  - cbn [tidy follow_ok forallb] in Ht, Hf. apply andb_true_iff in Ht as [[Hn Ht1]%andb_true_iff Ht2].
    apply andb_true_iff in Hf as [Hf1 Hf2]. pose proof (clean_eval h Ht1 Hf1 (branch x) Hr) as H.
    assert (∀ y failed', assigned y = assigned x → clean_or_dirty_some (GAlt (h :: gs ++ [g])) x
      (run_alt (eval sub) failed' (gs ++ [g]) (drop_branch x y))) as IH'.
    { intros y failed' Hy. specialize (IH Ht2 Hf2 failed' (drop_branch x y) Hw Hr).
      destruct (run_alt _ _ _ _) as [[l|] z|z| |]; try done.
      destruct IH as [(us & cs & Hus & Hcs & Hd)|(Hl & Hd & Hs)]; [left|right].
      - exists us, cs. split; [done|]. split; [cbn in Hcs; by rewrite <- Hy|].
        apply derives_alt_inv in Hd as (g' & Hg' & Hd). econstructor; [|exact Hd]. by right.
      - split; [done|]. split; [|done]. cbn in *. by rewrite Hd, orb_true_r. }
    pose proof (no_commit_sound sub h false (branch x) Hn (λ _, eq_refl)) as Hc.
    destruct (eval sub h (branch x)) as [[l|] y|y| |] eqn:E; try done.
    + destruct H as [H|(Hl & Hd & Hs)]; [left|right; split; [done|]; split; [|done]; cbn; by rewrite Hd].
      destruct (clean_branch _ _ _ _ Hn H E) as (Ha' & us & Hus & Hd). exists us, (waiting y).
      split; [done|]. split; [cbn; rewrite Ha', Hw; done|]. econstructor; [by left|done].
    + apply IH'. cbn in Hc. tauto.
    + destruct (stop x y); [done|]. by apply IH'.
Qed.
Lemma built_alt_last gs g k ts :
  grammar k = GAlt (gs ++ [g]) → tidy (GAlt gs) = true → follow_ok (GAlt gs) = true → tidy g = true → follow_ok g = true →
  dirty_end (grammar k) = false ∨ dirtyable k = true ∧ asks k = true ∧ ops_of k = ops_lor → Forall regular ts →
  built k ts (finish_struct eof k ts (eval sub (grammar k) (Ctx ts [] []))).
Proof.
  intros Hk H1 H2 H3 H4 Hd Hr.
  pose proof (clean_alt_last gs g false (Ctx ts [] []) H1 H2 H3 H4 eq_refl Hr) as H.
  change (run_alt (eval sub) false (gs ++ [g])) with (eval sub (GAlt (gs ++ [g]))) in H. rewrite <- Hk in H.
  destruct (eval sub (grammar k) (Ctx ts [] [])) as [[l|] y|y| |]; try done.
  destruct H as [H|(_ & Hd' & Hs)]; [by apply built_clean|].
  cbn [finish_struct]. destruct (store_all _ _ _) as [fs| |]; try done. right.
  destruct Hd as [Hd|(? & ? & ?)]; [congruence|]. split; [done|]. by apply stuck_blocked.
Qed.
Lemma built_enum_item ts :
  Forall regular ts →
  built KTypeEnumItem ts (finish_struct eof KTypeEnumItem ts (eval sub (grammar KTypeEnumItem) (Ctx ts [] []))).
Proof. 
  eapply (built_alt_last [_; _]); [reflexivity|..]; try (vm_compute; reflexivity).
  vm_compute. auto.
Qed.
Lemma built_object_item ts :
  Forall regular ts →
  built KTypeObjectItem ts (finish_struct eof KTypeObjectItem ts (eval sub (grammar KTypeObjectItem) (Ctx ts [] []))).
Proof. 
  eapply (built_alt_last [_; _]); [reflexivity|..]; try (vm_compute; reflexivity).
  vm_compute. auto.
Qed.
End eval.
End clean.
