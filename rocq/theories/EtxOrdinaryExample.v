(** * A test for ordinary files *)
From stdpp Require Import base list option strings.
From Coq Require Import Ascii Lia.
From Verif Require Import GoBase EtxAst EtxHeap EtxHeapSpec EtxText EtxLex EtxUtil EtxGram EtxParse EtxFormat
  EtxReprintSpec EtxWriteSpec EtxWriteExample EtxOrdinarySpec.

Definition ordinary_node_b (m : ast) : bool :=
  negb (bool_decide (cr ∈ str_of FEmptyLine m)) &&
  match kind_of m with
  | KBlock | KBlockItem | KAttribute | KLambda | KLambdaParameter
  | KHeredoc | KHeredocFragment | KValueMap | KMapItem | KMapKey => false
  | KFunc => match list_of FReturn m with [Some r] => has FIdent r | _ => true end
  | KTypeEnumItem | KTypeObjectItem => negb (is_empty (str_of FLabel m))
  | KComment => is_empty (str_of FMultiline m)
  | KIdent => match head (strs_of FParts m) with Some v => negb (bool_decide (v ∈ map chars reserved)) | None => true end
  | KStringFragment =>
      negb (is_empty (str_of FText m)) && negb (bool_decide (quote ∈ str_of FText m)) && negb (bool_decide (lf ∈ str_of FText m))
  | KListItem => negb (has FComment m)
  | KExprIf => has FLeft m || negb (has FRight m)
  | KExprPostfix =>
      post_b (λ c, negb (numeric c) && (has FIndex m || negb (numeric m) && negb (named m))) m &&
      (negb (has FIndex m) || match emb_of FValue m with Some v => negb (has FPost v) | None => true end)
  | KExprPrimary =>
      negb (has FSubExpression m) && post_b (λ c, negb (numeric c) && match list_of FMonads m with [] => false | _ => true end) m
  | _ => true
  end.
Definition ordinary_b (t : ast) : bool := forallb ordinary_node_b (nodes t).

Lemma ordinary_node_spec m : ordinary_node_b m = true → ordinary_node m.
Proof.
  unfold ordinary_node_b, ordinary_node. intros [Hc%negb_true_iff%bool_decide_eq_false H]%andb_true_iff. split; [done|].
  destruct (kind_of m); try done.
  - intros r Hr. by rewrite Hr in H.
  - by apply not_empty_spec.
  - by apply not_empty_spec.
  - by apply is_empty_spec.
  - intros v Hv. rewrite Hv in H. by apply negb_true_iff, bool_decide_eq_false in H.
  - apply andb_true_iff in H as [H H3%negb_true_iff%bool_decide_eq_false]. apply andb_true_iff in H as [H1 H2%negb_true_iff%bool_decide_eq_false].
    split_and!; [by apply not_empty_spec|done|done].
  - by apply negb_true_iff in H.
  - apply orb_true_iff in H as [H|H%negb_true_iff]; [by left|by right].
  - apply andb_true_iff in H as [H1 H2]. split.
    + intros c Hp. unfold post_b in H1. rewrite Hp in H1. apply andb_true_iff in H1 as [N%negb_true_iff H1]. split; [done|]. intros Hi. rewrite Hi in H1.
      cbn in H1. by apply andb_true_iff in H1 as [?%negb_true_iff ?%negb_true_iff].
    + intros Hi v Hv. rewrite Hi, Hv in H2. by apply negb_true_iff in H2.
  - apply andb_true_iff in H as [H1%negb_true_iff H2]. split; [done|]. intros c Hp. unfold post_b in H2. rewrite Hp in H2.
    apply andb_true_iff in H2 as [N%negb_true_iff H2]. split; [done|]. by destruct (list_of FMonads m).
Qed.
Lemma ordinary_spec t : ordinary_b t = true → ordinary t.
Proof. unfold ordinary_b. rewrite forallb_forall. intros H m Hm. apply ordinary_node_spec, H. by apply elem_of_list_In. Qed.
