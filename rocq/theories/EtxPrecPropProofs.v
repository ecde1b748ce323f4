(** * Proofs of the properties of operators *)
From stdpp Require Import base list option strings sets.
From Coq Require Import Ascii Lia.
From Verif Require Import GoBase EtxAst EtxHeap EtxHeapSpec EtxText EtxLex EtxUtil EtxGram EtxParse EtxParseBase
  EtxParseSpec EtxParseFirst EtxParseClean EtxParseLevel EtxParseLexed EtxParseParts EtxParsePropProofs EtxPrecSpec EtxPrec EtxPrecParse.

Lemma node_reads s t m :
  parse s = Ok (Some t) → m ∈ nodes t → kind_of m ∈ binary_levels →
  ∃ ts st pre us post r, lex "" s = Ok (Lexed ts st) ∧ elide ts = pre ++ us ++ post ∧
    reads m r ∧ spells r us ∧ follows_precedence r ∧ right_to_left r.
Proof.
  intros H Hm Hk. destruct (parse_built _ _ H) as (ts & st & Hl & Hb).
  assert (Hr : Forall regular (elide ts)) by exact (elide_regular _ (lexed_regular _ _ _ Hl)).
  destruct (nodes_within _ _ _ _ _ Hb Hm) as [(pre & us & post & E & Hm')|Hloose].
  - rewrite E in Hr. apply Forall_app in Hr as [_ [Hr _]%Forall_app].
    assert (is_Some (level (kind_of m))) as Hlv.
    { unfold binary_levels in Hk. set_unfold in Hk. destruct_or? Hk; rewrite Hk; by eexists. }
    destruct (level_reads _ _ _ _ (or_intror Hlv) Hr Hm') as (r & H1 & H2 & H3 & H4 & _).
    exists ts, st, pre, us, post, r. done.
  - exfalso. assert (bool_decide (kind_of m ∈ binary_levels)) as Hk' by (by apply bool_decide_pack). revert Hk'.
    destruct Hloose as [Hq|[Hq|[Hq|Hq]]]; rewrite Hq; by vm_compute.
Qed.
(*P C43_parsed_operators_follow_the_table *)
(** In every parsed file, each node of the ten levels of binary expressions has a meaning,
    only one, it is written with the operators and operands of a stretch of the tokens, in
    the same order, and no operator in it binds less tight than one above it. *)
Lemma p43_nodes s t m :
  parse s = Ok (Some t) → m ∈ nodes t → kind_of m ∈ binary_levels →
  ∃ ts st pre us post r, lex "" s = Ok (Lexed ts st) ∧
    filter (λ u, kind_of_token u ≠ TWhitespace) ts = pre ++ us ++ post ∧
    spells r us ∧ follows_precedence r ∧ ∀ r', reads m r' ↔ r' = r.
Proof.
  intros H Hm Hk. destruct (node_reads _ _ _ H Hm Hk) as (ts & st & pre & us & post & r & Hl & E & H1 & H2 & H3 & _).
  exists ts, st, pre, us, post, r. split_and!; try done. intros r'. split; [|by intros ->].
  intros Hr'. by eapply reads_functional.
Qed.
(*P C43_written_expressions_follow_the_table *)
(** Every expression written with operators and operands is parsed, whatever its length,
    and gets a meaning with these operators and operands that follows the table. *)
Lemma p43_written s ts st x eq e :
  lex "" s = Ok (Lexed ts st) → filter (λ u, kind_of_token u ≠ TWhitespace) ts = x :: eq :: tokens_of_written e →
  kind_of_token x = TIdent → value x ∉ map chars ["input"; "output"; "const"; "val"; "def"; "type"] →
  kind_of_token eq = TOpAssign → value eq = chars "=" → correct e →
  ∃ t r, parse s = Ok (Some t) ∧ attribute_reading t r ∧ reading_of e r ∧ follows_precedence r.
Proof.
  intros Hl E Hx1 Hx2 He1 He2 Hc.
  assert (Hr : Forall regular (elide ts)) by exact (elide_regular _ (lexed_regular _ _ _ Hl)).
  unfold elide in Hr. rewrite E in Hr. apply Forall_cons in Hr as [_ [_ Hr]%Forall_cons].
  destruct (attribute_outcome (advance (start_pos "") s) x eq e) as (t & r & H1 & H2 & H3 & H4 & H5); try done.
  exists t, r. split; [|done]. unfold parse. rewrite Hl. unfold elide. by rewrite E.
Qed.
(*P C62_operators_associate_right_to_left *)
(** In every parsed file, the operators of a level are read right to left. *)
Lemma p62_nodes s t m r :
  parse s = Ok (Some t) → m ∈ nodes t → kind_of m ∈ binary_levels → reads m r → right_to_left r.
Proof.
  intros H Hm Hk Hr. destruct (node_reads _ _ _ H Hm Hk) as (ts & st & pre & us & post & r' & _ & _ & H1 & _ & _ & H2).
  by rewrite (reads_functional _ _ _ Hr H1).
Qed.
(*P C62_no_two_operators_left_to_right *)
(** If two operators of one level follow each other, the reading is never the documented one. *)
Lemma p62_never_left s t m r l1 o1 o2 l2 :
  parse s = Ok (Some t) → m ∈ nodes t → kind_of m ∈ binary_levels → reads m r →
  operators_of r = l1 ++ o1 :: o2 :: l2 → strength o1 = strength o2 → ¬ left_to_right r.
Proof. intros H Hm Hk Hr. apply adjacent_not_left_to_right. by eapply p62_nodes. Qed.
(*P C62_table_and_direction_determine_the_reading *)
(** The table and this direction leave one reading of a sequence of operands and operators. *)
Lemma p62_unique a b :
  follows_precedence a → right_to_left a → follows_precedence b → right_to_left b →
  operands_of a = operands_of b → operators_of a = operators_of b → a = b.
Proof. apply reading_unique. Qed.
(*P C44_operators_do_not_associate_left_to_right_refuted *)
(** x = a - b - c is read as a - (b - c). *)
Lemma p44_refuted :
  ∃ t r a b c, parse (chars "x = a - b - c") = Ok (Some t) ∧ attribute_reading t r ∧
    r = Binary (Operand a) "-" (Binary (Operand b) "-" (Operand c)) ∧ ¬ left_to_right r.
Proof.
  destruct (lex "" (chars "x = a - b - c")) as [[ts st|]| |] eqn:El; [|by vm_compute in El..].
  destruct (elide ts) as [|x [|eq [|a [|m1 [|b [|m2 [|c [|? ?]]]]]]]] eqn:E; try (vm_compute in El; injection El as <- <-; by vm_compute in E).
  assert (Hfacts : kind_of_token x = TIdent ∧ value x = chars "x" ∧ kind_of_token eq = TOpAssign ∧ value eq = chars "=" ∧
    kind_of_token a = TIdent ∧ value a = chars "a" ∧ kind_of_token b = TIdent ∧ value b = chars "b" ∧
    kind_of_token c = TIdent ∧ value c = chars "c" ∧ kind_of_token m1 = TOpMinus ∧ value m1 = chars "-" ∧
    kind_of_token m2 = TOpMinus ∧ value m2 = chars "-").
  { vm_compute in El. injection El as <- <-. vm_compute in E. injection E as <- <- <- <- <- <- <-. by vm_compute. }
  destruct Hfacts as (X1 & X2 & Q1 & Q2 & A1 & A2 & B1 & B2 & C1 & C2 & M1 & M2 & N1 & N2).
  set (e := Then (Name a) m1 (Then (Name b) m2 (Last (Name c)))).
  assert (Hc : correct e).
  { cbn. unfold is_operator. rewrite A1, A2, B1, B2, C1, C2, M1, N1. split_and!; try done; apply (bool_decide_unpack _); by vm_compute. }
  assert (Hr : Forall regular (elide ts)) by exact (elide_regular _ (lexed_regular _ _ _ El)).
  rewrite E in Hr. apply Forall_cons in Hr as [_ [_ Hr]%Forall_cons].
  destruct (attribute_outcome (advance (start_pos "") (chars "x = a - b - c")) x eq e) as (t & r & H1 & H2 & [H3 H3'] & H4 & H5); try done.
  { split; [done|]. rewrite X2. apply (bool_decide_unpack _). by vm_compute. }
  assert (Eo : operators_of r = ["-"; "-"]).
  { rewrite H3. cbn. rewrite M2, N2. by vm_compute. }
  assert (Hn : ¬ left_to_right r) by (by eapply (adjacent_not_left_to_right r [] "-" "-" [])).
  assert (∃ ta tb tc, r = Binary (Operand ta) "-" (Binary (Operand tb) "-" (Operand tc))) as (ta & tb & tc & Er).
  { clear -Eo H5. destruct r as [|ra o rb]; [done|]. cbn in Eo, H5. destruct H5 as (R1 & R2 & R3).
    destruct ra as [ta|ra1 o' ra2].
    - cbn in Eo. injection Eo as -> Eo. destruct rb as [|rb1 o' rb2]; [done|]. cbn in Eo.
      destruct rb1 as [tb|]; cbn in Eo; [injection Eo as -> Eo|].
      + destruct rb2 as [tc|]; [by exists ta, tb, tc|]. cbn in Eo. symmetry in Eo. by apply app_cons_not_nil in Eo.
      + apply (f_equal length) in Eo. exfalso. repeat (rewrite app_length in Eo; cbn in Eo). lia.
    - exfalso. assert (strength o ≠ strength o') as Hne.
      { apply R1. cbn. apply elem_of_app. right. by left. }
      assert (o ∈ ["-"; "-"] ∧ o' ∈ ["-"; "-"]) as [Ho Ho'].
      { rewrite <- Eo. set_solver. }
      set_unfold in Ho. set_unfold in Ho'. apply Hne. destruct_or? Ho; destruct_or? Ho'; by subst. }
  exists t, r, ta, tb, tc. split; [|done]. unfold parse. rewrite El, E. done.
Qed.
(*P C44_without_repeated_levels_partial *)
(** The true part: where no two operators are of one level, there is nothing to
    associate.  In full: the same without the hypothesis NoDup; that is refuted above. *)
Lemma p44_partial s t m r :
  parse s = Ok (Some t) → m ∈ nodes t → kind_of m ∈ binary_levels → reads m r →
  NoDup (map strength (operators_of r)) → left_to_right r.
Proof.
  intros _ _ _ _. induction r as [|a IHa o b IHb]; [done|]. cbn. rewrite map_app. intros (Ha & Hd & Hb)%NoDup_app. cbn in Hd, Hb.
  apply NoDup_cons in Hb as [Ho Hb]. split; [|by split; [apply IHa|apply IHb]].
  intros o' Ho' E. apply Ho. rewrite E. by apply elem_of_list_fmap_1.
Qed.
