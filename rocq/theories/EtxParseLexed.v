(** * The tokens of the lexer, as the parser relies on them *)
From stdpp Require Import base list option strings.
From Coq Require Import Ascii Lia.
From Verif Require Import GoBase EtxAst EtxHeap EtxHeapSpec EtxText EtxLex EtxLexSpec EtxLexFacts EtxLexNest EtxLexOps EtxLexIdent EtxLexString EtxUtil EtxUtilProofs EtxGram
  EtxParse EtxParseBase EtxParseSpec EtxParseStore EtxParseFirst EtxParseClean EtxParseLevel.

(** The bytes a match can start with. *)
Fixpoint may_nil (r : re) : bool :=
  match r with
  | RSet _ => false
  | RNot _ | REps | RWordB | RStar _ | RLazy _ => true
  | RCat r1 r2 => may_nil r1 && may_nil r2
  | RAlt r1 r2 => may_nil r1 || may_nil r2
  | RGroup r => may_nil r
  end.
Fixpoint may_start (r : re) (c : ascii) : bool :=
  match r with
  | RSet p => p c
  | RNot _ => true
  | REps | RWordB => false
  | RCat r1 r2 => may_start r1 c || may_nil r1 && may_start r2 c
  | RAlt r1 r2 => may_start r1 c || may_start r2 c
  | RStar r | RLazy r | RGroup r => may_start r c
  end.
Lemma lang_nil r : lang r [] → may_nil r = true.
Proof.
  induction r as [p|p| |r1 IH1 r2 IH2|r1 IH1 r2 IH2|r IH|r IH| |r IH]; cbn; try done.
  - by intros (? & ? & _).
  - intros (v1 & v2 & E & H1 & H2). symmetry in E. apply app_nil in E as [-> ->]. by rewrite IH1, IH2.
  - intros [H|H]; [by rewrite IH1|by rewrite IH2, orb_true_r].
Qed.
Lemma lang_start r c v : lang r (c :: v) → may_start r c = true.
Proof.
  revert v. induction r as [p|p| |r1 IH1 r2 IH2|r1 IH1 r2 IH2|r IH|r IH| |r IH]; intros v; cbn; try done.
  - by intros (? & [= <- ->] & _ & ?).
  - intros (v1 & v2 & E & H1 & H2). destruct v1 as [|c' v1].
    + cbn in E. subst v2. rewrite (lang_nil _ H1), (IH2 _ H2). by rewrite orb_true_r.
    + injection E as <- _. by rewrite (IH1 _ H1).
  - intros [H|H]; [by rewrite (IH1 _ H)|by rewrite (IH2 _ H), orb_true_r].
  - intros (vs & E & H). induction H as [|u vs Hu H IHvs]; [done|]. destruct u as [|c' u]; [by apply IHvs|].
    injection E as <- _. by eapply IH.
  - intros (vs & E & H). induction H as [|u vs Hu H IHvs]; [done|]. destruct u as [|c' u]; [by apply IHvs|].
    injection E as <- _. by eapply IH.
  - apply IH.
Qed.

Definition question : ascii := "?".
Definition regular_rule (r : rule) : Prop :=
  (rname r ∈ signs ++ ops_lor → pattern r = RLit (op_text (rname r))) ∧
  (rname r ∈ question_kinds ∨ may_start (pattern r) question = false).
Lemma rules_regular m g r : r ∈ rules (m, g) → regular_rule r.
Proof.
  assert (Hdec : ∀ n p a, bool_decide (n ∈ signs ++ ops_lor) = false →
    bool_decide (n ∈ question_kinds) || negb (may_start p question) = true → regular_rule (Rule n p a)).
  { intros n p a H1%bool_decide_eq_false H2. split; [done|]. cbn.
    apply orb_true_iff in H2 as [H2%bool_decide_eq_true|H2%negb_true_iff]; [by left|by right]. }
  assert (Hop : ∀ n s, op_text n = s → may_start (RLit s) question = false → regular_rule (op n s)).
  { intros n s <- H. split; [done|]. by right. }
  assert (Hc : Forall regular_rule core).
  { unfold core. repeat (apply Forall_cons; split;
      [first [apply Hop; reflexivity|apply Hdec; vm_compute; reflexivity]|]). constructor. }
  intros Hr. destruct m.
  - rewrite Forall_forall in Hc. by apply Hc.
  - simpl in Hr. repeat (apply elem_of_cons in Hr as [->|Hr]; [by apply Hdec|]). by apply elem_of_nil in Hr.
  - simpl in Hr. apply elem_of_cons in Hr as [->|Hr]; [by apply Hdec|]. rewrite Forall_forall in Hc. by apply Hc.
  - simpl in Hr. repeat (apply elem_of_cons in Hr as [->|Hr]; [by apply Hdec|]). by apply elem_of_nil in Hr.
  - simpl in Hr. repeat (apply elem_of_cons in Hr as [->|Hr]; [by apply Hdec|]). by apply elem_of_nil in Hr.
Qed.
Lemma lexed_regular file s l : lex file s = Ok l → Forall regular (tokens_of l).
Proof.
  intros H. apply Forall_forall. intros t Ht.
  destruct (token_step _ _ _ _ _ _ H Ht) as (st1 & p1 & s1 & s2 & st2 & Hs).
  apply lex_step_first in Hs as ([m g] & st0 & r & y & -> & Hf & Hv & _ & Hp & Hr & ->).
  pose proof (first_match_elem _ _ _ _ Hf) as [Hin Hy]. apply find_elem in Hy. apply matches_lang in Hy as (v & E & Hl).
  cbn in E. assert (v = value t) as -> by (rewrite Hv in E; by apply app_inv_tail in E).
  destruct (rules_regular _ _ _ Hin) as [H1 H2]. split; rewrite Hr.
  - intros Hk. rewrite H1 in Hl by done. by apply lang_text in Hl.
  - intros Hq. destruct H2 as [H2|H2]; [done|]. rewrite Hq in Hl. apply lang_start in Hl. unfold question in *. congruence.
Qed.
Lemma elide_regular ts : Forall regular ts → Forall regular (elide ts).
Proof.
  rewrite !Forall_forall. intros H t [_ Ht]%elem_of_list_filter. by apply H.
Qed.
