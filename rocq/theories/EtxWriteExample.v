(** * A test for trees that can be written down: sound, not complete *)
From stdpp Require Import base list option strings.
From Coq Require Import Ascii Lia.
From Verif Require Import GoBase EtxAst EtxHeap EtxHeapSpec EtxText EtxLex EtxLexSpec EtxUtil EtxNumProofs EtxGram EtxParse EtxFormat EtxReprintSpec EtxClone
  EtxWriteSpec EtxWriteLeaf.

Definition just_one_b (fs : list fld) (t : ast) : bool := bool_decide (length (set_in fs t) = 1).
Definition none_of_b (fs : list fld) (t : ast) : bool := match set_in fs t with [] => true | _ => false end.
Definition is_empty (v : text) : bool := match v with [] => true | _ => false end.
Definition feeds_b (v : text) : bool := negb (is_empty v) && forallb (Ascii.eqb lf) v.
Definition item_b (fs : list fld) (t : ast) : bool :=
  is_empty (str_of FEmptyLine t) && just_one_b fs t || feeds_b (str_of FEmptyLine t) && none_of_b fs t.
Definition run_b (v : text) : bool := negb (is_empty v) && forallb no_special v.
Definition piece_b (v : text) : bool := run_b v || bool_decide (v = chars "'") || bool_decide (v = chars "$${") || bool_decide (v = chars "%%{").
Fixpoint no_runs_b (l : list text) : bool :=
  match l with
  | a :: (b :: _) as l' => negb (run_b a && run_b b) && no_runs_b l'
  | _ => true
  end.
Definition remark_b (v : text) : bool :=
  match v with
  | c :: w => (Ascii.eqb c "#" || Ascii.eqb c "/" && match w with d :: _ => Ascii.eqb d "/" | [] => false end)
  | [] => false
  end && negb (existsb (Ascii.eqb lf) v).
Definition whole_number_b (m : ast) : bool :=
  let v := str_of FSource m in
  negb (is_empty v) && forallb is_digit v && match capture_number v with Some (v', _) => bool_decide (v' = v) | None => false end &&
  match get FValue m with Some (VFloat (Some (_, s))) => String.eqb s (str v) | _ => false end.
Definition no_nil_b (m : ast) : bool :=
  forallb (λ p : fld * aval, match p.2 with VList (Some (_, l)) => forallb (λ o, negb (is_nil o)) l | _ => true end) (fields m).
Definition post_b (P : ast → bool) (m : ast) : bool := match ptr_of FPost m with Some c => P c | None => true end.

Definition writable_node_b (m : ast) : bool :=
  no_nil_b m &&
  match kind_of m with
  | KAST | KFuncSignature | KTypeEnum | KTypeObject | KValueList | KExprInvocationParams | KValueBool | KExprSwitch => true
  | KRootItem => item_b [FDecl; FFunc; FType; FComment] m && none_of_b [FBlock; FAttribute] m
  | KParameterType => just_one_b [FIdent; FFunc] m
  | KDecl => bool_decide (str_of FDeclType m ∈ map chars ["input"; "output"; "const"; "val"]) && plain_word (str_of FLabel m)
  | KFuncDecl => bool_decide (str_of FDeclType m ∈ map chars ["const"; "val"]) && plain_word (str_of FLabel m)
  | KFunc => plain_word (str_of FLabel m) && match list_of FReturn m with [Some r] => has FIdent r | _ => true end
  | KFuncParameter => plain_word (str_of FLabel m)
  | KFuncStatement => item_b [FComment; FDecl; FExpr] m
  | KType => plain_word (str_of FLabel m) && just_one_b [FEnum; FObject] m
  | KTypeEnumItem | KTypeObjectItem => plain_word (str_of FLabel m) && none_of_b [FComment] m && is_empty (str_of FEmptyLine m)
  | KComment => is_empty (str_of FMultiline m) && negb (bool_decide (strs_of FSingleLine m = [])) && forallb remark_b (strs_of FSingleLine m)
  | KIdent =>
      forallb plain_word (strs_of FParts m) && match strs_of FParts m with v :: _ => negb (bool_decide (v ∈ map chars reserved)) | [] => false end
  | KValue =>
      none_of_b [FHeredoc; FMap] m &&
      if bool_of FNull m then none_of_b [FBool; FNumber; FStr; FList] m else just_one_b [FBool; FNumber; FStr; FList] m
  | KValueNumber => whole_number_b m
  | KStringFragment => is_empty (str_of FEscaped m) && is_empty (str_of FUnicode m) && none_of_b [FExpr; FDirective] m && piece_b (str_of FText m)
  | KValueString => no_runs_b (map (λ o, match o with Some c => str_of FText c | None => [] end) (list_of FFragment m))
  | KListItem => item_b [FValue] m && none_of_b [FComment] m
  | KExpr => just_one_b [FLeft; FIf; FSwitch] m
  | KExprIf => has FLeft m || negb (has FRight m)
  | KExprCase => has FExpr m && if bool_of FDefault m then nil_list FConditions m else match list_of FConditions m with [] => false | _ => true end
  | KExprConditional => Bool.eqb (has FTrueExpr m) (bool_of FConditionOp m) && Bool.eqb (has FFalseExpr m) (bool_of FConditionOp m)
  | KExprUnary => bool_decide (str_of FOp m ∈ [] :: map chars (operators_of KExprUnary))
  | KExprPostfix =>
      post_b (λ c, negb (numeric c) && (has FIndex m || negb (numeric m) && negb (named m))) m &&
      (negb (has FIndex m) || match emb_of FValue m with Some v => negb (has FPost v) | None => true end)
  | KExprPrimary =>
      just_one_b [FValue; FIdent] m && none_of_b [FSubExpression] m &&
      (negb (has FValue m) || match list_of FMonads m with [] => true | _ => false end && negb (has FPost m)) &&
      post_b (λ c, negb (numeric c) && match list_of FMonads m with [] => false | _ => true end) m
  | KExprLogicalOr | KExprLogicalAnd | KExprBitwiseOr | KExprBitwiseXor | KExprBitwiseAnd | KExprEquality
  | KExprRelational | KExprShift | KExprAdditive | KExprMultiplicative =>
      if has FRight m then bool_decide (str_of FOp m ∈ map chars (operators_of (kind_of m))) else is_empty (str_of FOp m)
  | KBlock | KBlockItem | KAttribute | KLambda | KLambdaParameter | KHeredoc | KHeredocFragment | KValueMap | KMapItem | KMapKey => false
  end.
Definition writable_b (t : ast) : bool := typed t && forallb writable_node_b (nodes t).

Lemma is_empty_spec v : is_empty v = true → v = [].
Proof. by destruct v. Qed.
Lemma not_empty_spec v : negb (is_empty v) = true → v ≠ [].
Proof. by destruct v. Qed.
Lemma none_spec fs t : none_of_b fs t = true → none_of fs t.
Proof. unfold none_of_b, none_of. by destruct (set_in fs t). Qed.
Lemma one_spec fs t : just_one_b fs t = true → just_one fs t.
Proof. apply bool_decide_eq_true. Qed.
Lemma feeds_spec v : feeds_b v = true → feeds v.
Proof.
  intros [H1%not_empty_spec H2]%andb_true_iff. split; [done|]. apply Forall_forall. intros c Hc. rewrite forallb_forall in H2.
  apply elem_of_list_In, H2, Ascii.eqb_eq in Hc. done.
Qed.
Lemma item_spec fs t : item_b fs t = true → item_of fs t.
Proof.
  intros [[H1%is_empty_spec H2%one_spec]%andb_true_iff|[H1%feeds_spec H2%none_spec]%andb_true_iff]%orb_true_iff; [by left|by right].
Qed.
Lemma run_spec v : run_b v = true ↔ run v.
Proof.
  unfold run_b, run. rewrite andb_true_iff, forallb_forall, Forall_forall. split; intros [H1 H2]; (split; [by destruct v|]); intros c Hc; apply H2; by apply elem_of_list_In.
Qed.
Lemma piece_spec v : piece_b v = true → piece v.
Proof. unfold piece_b, piece. rewrite !orb_true_iff, run_spec, !bool_decide_eq_true. tauto. Qed.
Lemma no_runs_spec l : no_runs_b l = true → no_runs l.
Proof.
  induction l as [|a [|b l] IH]; [done|done|]. change (no_runs_b (a :: b :: l)) with (negb (run_b a && run_b b) && no_runs_b (b :: l)).
  intros [H1%negb_true_iff H2]%andb_true_iff. split; [|by apply IH]. intros [Ha%run_spec Hb%run_spec]. by rewrite Ha, Hb in H1.
Qed.
Lemma remark_spec v : remark_b v = true → remark v.
Proof.
  unfold remark_b. intros [H1 H2%negb_true_iff]%andb_true_iff. split.
  - destruct v as [|c w]; [done|]. apply orb_true_iff in H1 as [->%Ascii.eqb_eq|[->%Ascii.eqb_eq H1]%andb_true_iff]; [by exists w; right|].
    destruct w as [|d w]; [done|]. apply Ascii.eqb_eq in H1 as ->. exists w. by left.
  - intros Hl. assert (existsb (Ascii.eqb lf) v = true) as E; [|by rewrite E in H2]. apply existsb_exists. exists lf. split; [by apply elem_of_list_In|apply Ascii.eqb_refl].
Qed.
Lemma whole_number_spec m : whole_number_b m = true → normal_number (str_of FSource m) ∧ get FValue m = Some (VFloat (Some (tt, str (str_of FSource m)))).
Proof.
  unfold whole_number_b. intros [[[H1%not_empty_spec H2]%andb_true_iff H3]%andb_true_iff H4]%andb_true_iff. split.
  - split.
    + rewrite <- (app_nil_r (str_of FSource m)). apply number_whole; [|done|by left]. apply Forall_forall. intros c Hc. rewrite forallb_forall in H2.
      left. by apply H2, elem_of_list_In.
    + destruct (capture_number _) as [[v' n]|]; [|done]. apply bool_decide_eq_true in H3 as ->. by exists n.
  - destruct (get FValue m) as [[| | |[[[] s]|]| | |]|]; try done. apply String.eqb_eq in H4 as ->. done.
Qed.
Lemma no_nil_spec m f : no_nil_b m = true → None ∉ list_of f m.
Proof.
  unfold no_nil_b, list_of, get. rewrite forallb_forall. intros H. destruct (assoc f (fields m)) as [v|] eqn:E; [|apply not_elem_of_nil].
  assert (In (f, v) (fields m)) as Hin.
  { revert E. clear. induction (fields m) as [|[g w] l IH]; [done|]. cbn. case_decide as Ef; [intros [= ->]; left; by rewrite Ef|]. intros Hl. right. by apply IH. }
  specialize (H _ Hin). destruct v as [| | | | | |[[b l]|]]; try apply not_elem_of_nil. cbn in H. rewrite forallb_forall in H.
  intros Hn. apply elem_of_list_In, H in Hn. done.
Qed.
Lemma names_spec l : forallb plain_word l = true → Forall name l.
Proof. rewrite forallb_forall. intros H. apply Forall_forall. intros v Hv. by apply name_word, H, elem_of_list_In. Qed.
Lemma writable_node_spec m : writable_node_b m = true → writable_node m.
Proof.
  unfold writable_node_b, writable_node. intros [H1 H]%andb_true_iff. split; [intros f; by apply no_nil_spec|]. revert H.
  destruct (kind_of m); try done.
  all: repeat match goal with |- context [_ && _ = true] => rewrite andb_true_iff end.
  all: repeat match goal with |- context [bool_decide _ = true] => rewrite bool_decide_eq_true end.
  - by intros [H2%item_spec H3%none_spec].
  - apply one_spec.
  - by intros [H2 H3%name_word].
  - intros [H2%name_word H3]. split; [done|]. intros r Hr. by rewrite Hr in H3.
  - apply name_word.
  - apply item_spec.
  - by intros [H2 H3%name_word].
  - by intros [H2%name_word H3%one_spec].
  - by intros [[H2%name_word H3%none_spec] H4%is_empty_spec].
  - by intros [[H2%name_word H3%none_spec] H4%is_empty_spec].
  - intros [[H2%is_empty_spec H3%negb_true_iff%bool_decide_eq_false] H4]. split; [done|]. split; [done|]. apply Forall_forall.
    intros v Hv. rewrite forallb_forall in H4. by apply remark_spec, H4, elem_of_list_In.
  - intros [H2%names_spec H3]. destruct (strs_of FParts m) as [|v l]; [done|]. split; [done|]. split; [done|]. intros w [= <-].
    by apply negb_true_iff, bool_decide_eq_false in H3.
  - intros [H2%none_spec H3]. split; [done|]. destruct (bool_of FNull m); [by apply none_spec|by apply one_spec].
  - apply whole_number_spec.
  - apply no_runs_spec.
  - intros [[[H2%is_empty_spec H3%is_empty_spec] H4%none_spec] H5%piece_spec]. done.
  - by intros [H2%item_spec H3%none_spec].
  - apply one_spec.
  - intros [H2|H2%negb_true_iff]%orb_true_iff; [|done]. intros H3. by rewrite H3 in H2.
  - intros [H2 H3]. split; [done|]. destruct (bool_of FDefault m); [done|]. by destruct (list_of FConditions m).
  - by intros [H2%Bool.eqb_prop H3%Bool.eqb_prop].
  - destruct (has FRight m); [by rewrite bool_decide_eq_true|apply is_empty_spec].
  - destruct (has FRight m); [by rewrite bool_decide_eq_true|apply is_empty_spec].
  - destruct (has FRight m); [by rewrite bool_decide_eq_true|apply is_empty_spec].
  - destruct (has FRight m); [by rewrite bool_decide_eq_true|apply is_empty_spec].
  - destruct (has FRight m); [by rewrite bool_decide_eq_true|apply is_empty_spec].
  - destruct (has FRight m); [by rewrite bool_decide_eq_true|apply is_empty_spec].
  - destruct (has FRight m); [by rewrite bool_decide_eq_true|apply is_empty_spec].
  - destruct (has FRight m); [by rewrite bool_decide_eq_true|apply is_empty_spec].
  - destruct (has FRight m); [by rewrite bool_decide_eq_true|apply is_empty_spec].
  - destruct (has FRight m); [by rewrite bool_decide_eq_true|apply is_empty_spec].
  - done.
  - unfold post_b. intros [H2 H3]. split.
    + intros c Hc. rewrite Hc in H2. apply andb_true_iff in H2 as [H2%negb_true_iff H4]. split; [done|]. intros Hi. rewrite Hi in H4.
      apply andb_true_iff in H4 as [H4%negb_true_iff H5%negb_true_iff]. done.
    + intros Hi v Hv. rewrite Hi, Hv in H3. by apply negb_true_iff in H3.
  - unfold post_b. intros [[[H2%one_spec H3%none_spec] H4] H5]. split; [done|]. split; [done|]. split.
    + intros Hv. rewrite Hv in H4. apply andb_true_iff in H4 as [H4 H6%negb_true_iff]. split; [|done]. by destruct (list_of FMonads m).
    + intros c Hc. rewrite Hc in H5. apply andb_true_iff in H5 as [H5%negb_true_iff H6]. split; [done|]. by destruct (list_of FMonads m).
Qed.
Lemma writable_spec t : writable_b t = true → writable t.
Proof.
  intros [H1 H2]%andb_true_iff. split; [done|]. intros m Hm. apply writable_node_spec. rewrite forallb_forall in H2. by apply H2, elem_of_list_In.
Qed.
