(** * Proofs about BuildTestExprTree *)
From stdpp Require Import base list option strings.
From Verif Require Import GoBase EtxAst EtxHeap EtxHeapSpec EtxText EtxFormat EtxFormatTotal EtxBuild EtxBuildSpec.

Section up.
Context {A B : Type}.
Notation tree := (tree A B).
(** The next level. *)
Definition up (t : tree) : option tree :=
  let lit k f x := Some (node (ann t) k [(f, x)]) in
  match kind_of t with
  | KExprConditional => lit KExpr FLeft (VPtr (Some t))
  | KExprLogicalOr => lit KExprConditional FCondition (VEmb t)
  | KExprLogicalAnd => lit KExprLogicalOr FLeft (VEmb t)
  | KExprBitwiseOr => lit KExprLogicalAnd FLeft (VEmb t)
  | KExprBitwiseXor => lit KExprBitwiseOr FLeft (VEmb t)
  | KExprBitwiseAnd => lit KExprBitwiseXor FLeft (VEmb t)
  | KExprEquality => lit KExprBitwiseAnd FLeft (VEmb t)
  | KExprRelational => lit KExprEquality FLeft (VEmb t)
  | KExprShift => lit KExprRelational FLeft (VEmb t)
  | KExprAdditive => lit KExprShift FLeft (VEmb t)
  | KExprMultiplicative => lit KExprAdditive FLeft (VEmb t)
  | KExprUnary => lit KExprMultiplicative FLeft (VEmb t)
  | KExprPostfix => lit KExprUnary FRight (VEmb t)
  | KExprPrimary => lit KExprPostfix FValue (VEmb t)
  | KIdent => lit KExprPrimary FIdent (VPtr (Some t))
  | KValue => lit KExprPrimary FValue (VPtr (Some t))
  | _ => None
  end.
(** How many levels are above. *)
Definition height (k : kind) : nat :=
  match k with
  | KExpr => 0 | KExprConditional => 1 | KExprLogicalOr => 2 | KExprLogicalAnd => 3 | KExprBitwiseOr => 4
  | KExprBitwiseXor => 5 | KExprBitwiseAnd => 6 | KExprEquality => 7 | KExprRelational => 8 | KExprShift => 9
  | KExprAdditive => 10 | KExprMultiplicative => 11 | KExprUnary => 12 | KExprPostfix => 13 | KExprPrimary => 14
  | KIdent | KValue => 15
  | _ => 0
  end.
Lemma up_height t u : up t = Some u → height (kind_of t) = S (height (kind_of u)).
Proof. destruct t as [a k fs]. destruct k; intros [= <-]; reflexivity. Qed.
Fixpoint typed_fields (sc : list (fld * ftype)) (fs : list (fld * val A B)) : bool :=
  match sc, fs with
  | [], [] => true
  | (f, ty) :: sc, (f', v) :: fs => bool_decide (f = f') && typed_val ty v && typed_fields sc fs
  | _, _ => false
  end.
Lemma typed_alt (t : tree) : typed t = typed_fields (schema (kind_of t)) (fields t).
Proof.
  destruct t as [a k fs]. cbn [kind_of fields]. change (typed (T a k fs)) with
    ((fix go (sc : list (fld * ftype)) (fs : list (fld * val A B)) {struct fs} : bool :=
         match sc, fs with
         | [], [] => true
         | (f, ty) :: sc, (f', v) :: fs => bool_decide (f = f') && typed_val ty v && go sc fs
         | _, _ => false
         end) (schema k) fs).
  generalize (schema k). clear. induction fs as [|[f v] fs IH]; intros [|[f' ty] sc]; try done.
  cbn [typed_fields]. by rewrite <-IH.
Qed.
Lemma typed_ptr k (t : tree) : typed_val (TPtr k) (VPtr (Some t)) = bool_decide (kind_of t = k) && typed t.
Proof. reflexivity. Qed.
Lemma typed_emb k (t : tree) : typed_val (TEmb k) (VEmb t) = bool_decide (kind_of t = k) && typed t.
Proof. reflexivity. Qed.
Lemma up_typed t u : typed t = true → up t = Some u → typed u = true.
Proof.
  intros Ht. unfold up. destruct (kind_of t) eqn:Hk; try discriminate; intros [= <-]; rewrite typed_alt; unfold node;
    match goal with |- context [T ?a ?k ?fs] => let fs' := eval lazy -[ann] in fs in change fs with fs' end;
    cbn [kind_of fields]; cbn -[typed typed_val bool_decide]; rewrite ?typed_ptr, ?typed_emb, Hk, Ht; reflexivity.
Qed.
Lemma up_consists t u : up t = Some u → consists_of u t.
Proof.
  unfold up, consists_of.
  destruct (kind_of t) eqn:Hk; try discriminate; intros [= <-]; (split; [reflexivity|]).
  all: cbn [kind_of node].
  all: first [exists FIdent; split; [reflexivity|]; split; [first [left; reflexivity|right; reflexivity]|]
             |exists FLeft; split; [reflexivity|]; split; [first [left; reflexivity|right; reflexivity]|]
             |exists FCondition; split; [reflexivity|]; split; [first [left; reflexivity|right; reflexivity]|]
             |exists FRight; split; [reflexivity|]; split; [first [left; reflexivity|right; reflexivity]|]
             |exists FValue; split; [reflexivity|]; split; [first [left; reflexivity|right; reflexivity]|]].
  all: intros f' x Hf; destruct f'; try (by contradiction Hf); intros [= <-]; constructor.
Qed.
Lemma typed_names (t : tree) : typed t = true → map fst (fields t) = map fst (schema (kind_of t)).
Proof.
  rewrite typed_alt. destruct t as [a k fs]. cbn [fields kind_of]. generalize (schema k). clear.
  induction fs as [|[f v] fs IH]; intros [|[f' ty] sc]; try done.
  intros [[H%bool_decide_eq_true _]%andb_true_iff H']%andb_true_iff. cbn. f_equal; [done|]. by apply IH.
Qed.
Lemma consists_up t u : typed u = true → consists_of u t → up t = Some u.
Proof.
  intros Hu (Ha & f & Hf & Hg & Ho). pose proof (typed_names u Hu) as Hn.
  destruct u as [a k fs]. cbn [kind_of fields ann] in *. subst a.
  destruct k; cbn [operand_field] in Hf; try discriminate Hf.
  all: cbn in Hn.
  all: repeat match goal with H : map fst ?fs = _ :: _ |- _ =>
    destruct fs as [|[? ?] ?]; cbn in H; [discriminate H|]; injection H as ? H; subst end.
  all: match goal with H : map fst ?fs = [] |- _ => destruct fs; [clear H|discriminate H] end.
  all: try (apply orb_true_iff in Hf as [Hf|Hf]); apply bool_decide_eq_true in Hf; subst f.
  all: cbn -[typed] in Hg.
  all: destruct Hg as [[= ->]|[= ->]].
  all: rewrite typed_alt in Hu; cbn -[typed typed_val bool_decide] in Hu.
  all: rewrite ?typed_ptr, ?typed_emb in Hu.
  all: repeat match goal with H : (_ && _) = true |- _ => apply andb_true_iff in H as [? ?] end; try discriminate.
  all: repeat match goal with
    | H : bool_decide (_ = _) = true |- _ => apply bool_decide_eq_true in H
    end.
  all: unfold up; match goal with H : kind_of ?t = _ |- _ => rewrite H end.
  all: match goal with |- Some (node ?a ?k ?l) = _ => let x := eval lazy -[ann] in (node a k l) in change (node a k l) with x end.
  all: repeat match goal with Ho' : ∀ f' x, f' ≠ _ → _ |- context [(?g, ?x)] =>
    is_var x; let Hx := fresh in assert (unset x) as Hx by (apply (Ho' g); [discriminate|reflexivity]);
    destruct Hx; try discriminate end.
  all: reflexivity.
Qed.
Lemma wraps_up (v t : tree) : typed v = true → wraps v t ↔ t = v ∨ ∃ u, up v = Some u ∧ wraps u t.
Proof.
  intros Hv. split.
  - induction 1 as [|t t' _ IH Ht Hc]; [by left|]. right. destruct IH as [->|(u & Hu & Hw)].
    + exists t'. split; [by apply consists_up|constructor].
    + exists u. split; [done|]. by eapply wraps_level.
  - intros [->|(u & Hu & Hw)]; [constructor|].
    induction Hw as [|t t' _ IH Ht Hc]; [|by eapply wraps_level].
    eapply wraps_level; [constructor|by eapply up_typed|by apply up_consists].
Qed.
Lemma build_up n s (t : tree) :
  build (S (S n)) s (kind_of t, Some t) =
  if stops s (kind_of t) then Ok (kind_of t, Some t)
  else match up t with Some u => build (S n) s (kind_of u, Some u) | None => Panic end.
Proof.
  cbn [build]. destruct (stops s (kind_of t)) eqn:Hs; [done|]. unfold up.
  destruct (kind_of t); try done. cbn [kind_of node]. cbn [build].
  replace (stops s KExpr) with true; [done|]. unfold stops. by rewrite (bool_decide_eq_true_2 (KExpr = KExpr)), orb_true_r.
Qed.
Definition reached n s (t : tree) : res (ptr (A:=A) (B:=B)) := build n s (kind_of t, Some t).
Lemma build_at n k' (t : tree) :
  typed t = true → (height (kind_of t) < n)%nat →
  (∃ t', wraps t t' ∧ kind_of t' = k' ∧ (∀ t'', wraps t t'' → kind_of t'' = k' → t'' = t') ∧
     reached (S n) (StopAt k') t = Ok (k', Some t')) ∨
  ((∀ t', wraps t t' → kind_of t' ≠ k') ∧
   (reached (S n) (StopAt k') t = Panic ∨ k' ≠ KExpr ∧ ∃ t', reached (S n) (StopAt k') t = Ok (KExpr, Some t'))).
Proof.
  revert t. induction n as [|n IH]; intros t Ht Hn; [lia|].
  unfold reached. rewrite build_up.
  assert (∀ t', wraps t t' → t' = t ∨ height (kind_of t') < height (kind_of t))%nat as Hlow.
  { intros t'. induction 1 as [|t1 t2 _ IH1 H2 Hc]; [by left|]. right.
    apply consists_up in Hc; [|done]. apply up_height in Hc. destruct IH1 as [->|?]; lia. }
  unfold stops. destruct (decide (kind_of t = k')) as [Hk|Hk].
  { rewrite bool_decide_true by done. cbn. left. exists t. split; [constructor|]. split; [done|]. split; [|by rewrite Hk].
    intros t'' Hw Hk''. destruct (Hlow _ Hw) as [|Hl]; [done|]. rewrite Hk'', Hk in Hl. lia. }
  rewrite bool_decide_false by done. cbn [orb].
  destruct (decide (kind_of t = KExpr)) as [He|He].
  { rewrite bool_decide_true by done. right. split.
    - intros t' Hw%wraps_up; [|done]. destruct Hw as [->|(u & Hu & _)]; [done|]. unfold up in Hu. by rewrite He in Hu.
    - right. split; [congruence|]. exists t. by rewrite He. }
  rewrite bool_decide_false by done. cbn [orb].
  destruct (up t) as [u|] eqn:Hu.
  - pose proof (up_typed _ _ Ht Hu) as Htu. pose proof (up_height _ _ Hu).
    destruct (IH u Htu ltac:(lia)) as [(t' & Hw & Hk' & Huniq & Hb)|[Hno Hb]].
    + left. exists t'. split; [apply wraps_up; [done|]; right; by exists u|]. split; [done|]. split; [|done].
      intros t'' [->|(u' & Hu' & Hw')]%wraps_up; [done| |done]. apply Huniq. congruence.
    + right. split; [|done]. intros t'' [->|(u' & Hu' & Hw')]%wraps_up; [done| |done]. apply Hno. congruence.
  - right. split; [|by left]. intros t'' [->|(u' & Hu' & Hw')]%wraps_up; [done| |done]. congruence.
Qed.
Lemma height_bound k : (height k < 16)%nat.
Proof. destruct k; cbn; lia. Qed.
End up.

(*P C86_the_level_asked_for *)
(** The tree that consists of the value at the level that is asked for is the result; if there
    is none the call panics. *)
Lemma p86 A B k' (v : tree A B) :
  typed v = true →
  (∃ t, wraps v t ∧ kind_of t = k' ∧ (∀ t', wraps v t' → kind_of t' = k' → t' = t) ∧
     BuildTestExprTree (ToNode k') (kind_of v, Some v) = Ok (k', Some t)) ∨
  ((∀ t, wraps v t → kind_of t ≠ k') ∧ BuildTestExprTree (ToNode k') (kind_of v, Some v) = Panic).
Proof.
  intros Hv. unfold BuildTestExprTree.
  destruct (build_at 16 k' v Hv (height_bound _)) as [(t & Hw & Hk & Hu & Hb)|[Hno [Hb|(Hk & t & Hb)]]]; unfold reached in Hb; rewrite Hb.
  - left. exists t. rewrite decide_True by done. done.
  - by right.
  - right. rewrite decide_False by done. done.
Qed.
Section rest.
Context {A B : Type}.
Lemma build_ends n s (v : ptr (A:=A) (B:=B)) : (height v.1 < n)%nat → build n s v ≠ OutOfFuel.
Proof.
  revert v. induction n as [|n IH]; intros [k o] Hn; [lia|]. cbn [build].
  destruct (stops s k); [done|]. destruct o as [t|]; [|done].
  destruct k; try done; apply IH; cbn in *; lia.
Qed.
Lemma build_no_stop n (v : ptr (A:=A) (B:=B)) : build n NoStop v = build n (StopAt KExpr) v.
Proof.
  revert v. induction n as [|n IH]; intros [k o]; [done|]. cbn [build].
  replace (stops NoStop k) with (stops (StopAt KExpr) k) by (unfold stops; by destruct (bool_decide _)).
  destruct (stops _ k); [done|]. destruct o as [t|]; [|done]. destruct k; try done; apply IH.
Qed.
Lemma build_expr n (v : ptr (A:=A) (B:=B)) k o : build n (StopAt KExpr) v = Ok (k, o) → k = KExpr.
Proof.
  revert v. induction n as [|n IH]; intros [k' o']; [done|]. cbn [build].
  destruct (stops _ k') eqn:Hs.
  { intros [= <- _]. unfold stops in Hs. apply orb_true_iff in Hs as [H|H]; by apply bool_decide_eq_true in H. }
  destruct o' as [t|]; [|done]. destruct k'; try done; try apply IH. by intros [= <- _].
Qed.
End rest.

(*P C86_interface *)
(** For an interface the result is an Expr. *)
Lemma p86_interface A B (v : ptr (A:=A) (B:=B)) :
  BuildTestExprTree ToInterface v = BuildTestExprTree (ToNode KExpr) v.
Proof.
  unfold BuildTestExprTree. rewrite build_no_stop. destruct (build _ _ v) as [[k o]| |] eqn:Hb; [|done..].
  apply build_expr in Hb as ->. by rewrite decide_True.
Qed.

(*P C86_other_types *)
(** A type that no result can have. *)
Lemma p86_other A B (v : ptr (A:=A) (B:=B)) :
  BuildTestExprTree ToOther v = Panic.
Proof.
  unfold BuildTestExprTree. destruct (build _ _ v) as [[k o]| |] eqn:Hb; [done..|].
  apply build_ends in Hb; [done|]. destruct v as [[] o]; cbn; lia.
Qed.

(*P C86_nil *)
(** A nil pointer is returned if it has the type that is asked for. *)
Lemma p86_nil A B k k' :
  BuildTestExprTree (A:=A) (B:=B) (ToNode k') (k, None) = if decide (k = k') then Ok (k, None) else Panic.
Proof.
  unfold BuildTestExprTree. cbn [build]. unfold stops.
  destruct (decide (k = k')) as [->|Hk]; [rewrite bool_decide_true by done; cbn; by rewrite decide_True|].
  rewrite bool_decide_false by done. cbn [orb]. destruct (bool_decide (k = KExpr)); [|done]. by rewrite decide_False.
Qed.

Lemma bind_ok (r : res text) : (s ← r; Ok s) = r.
Proof. by destruct r. Qed.
Lemma up_text (t u : ast) : up t = Some u → format u = format t.
Proof.
  intros Hu. rewrite format_unfold. unfold up in Hu.
  destruct (kind_of t); try discriminate; injection Hu as <-.
  all: match goal with |- context [node ?a ?k ?l] =>
    let x := eval lazy -[ann] in (node a k l) in change (node a k l) with x end.
  all: match goal with |- ?l = ?r => let x := eval lazy -[format ann app] in l in change (x = r) end.
  all: destruct (format t) as [s| |]; cbn; rewrite ?app_nil_r; done.
Qed.

(*P C86_text *)
(** The text of the result is the text of the value. *)
Lemma p86_text (v t : ast) :
  typed v = true → wraps v t → format t = format v.
Proof.
  intros Hv. induction 1 as [|t t' _ IH Ht Hc]; [done|]. rewrite <-IH. apply up_text. by apply consists_up.
Qed.
