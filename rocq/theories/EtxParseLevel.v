(** * The operator levels, and the conclusion that successful parses are derivations *)
From stdpp Require Import base list option strings.
From Coq Require Import Ascii Lia.
From Verif Require Import GoBase EtxAst EtxHeap EtxHeapSpec EtxText EtxLex EtxUtil EtxGram EtxParse EtxParseBase
  EtxParseSpec EtxParseStore EtxParseFirst EtxParseClean.

(** A level: what stands left of the operator, and the operators. *)
Definition level (k : kind) : option (kind * list tname) :=
  match k with
  | KExprLogicalOr => Some (KExprLogicalAnd, [TOpLogicalOr])
  | KExprLogicalAnd => Some (KExprBitwiseOr, [TOpLogicalAnd])
  | KExprBitwiseOr => Some (KExprBitwiseXor, [TOpBitwiseOr])
  | KExprBitwiseXor => Some (KExprBitwiseAnd, [TOpBitwiseXOr])
  | KExprBitwiseAnd => Some (KExprEquality, [TOpBitwiseAnd])
  | KExprEquality => Some (KExprRelational, [TOpNotEqual; TOpEqual])
  | KExprRelational => Some (KExprShift, [TOpMore; TOpMoreOrEqual; TOpLess; TOpLessOrEqual])
  | KExprShift => Some (KExprAdditive, [TOpBitwiseShiftLeft; TOpBitwiseShiftRight])
  | KExprAdditive => Some (KExprMultiplicative, [TOpMinus; TOpPlus])
  | KExprMultiplicative => Some (KExprUnary, [TOpDivision; TOpMultiplication; TOpModulo])
  | _ => None
  end.
Definition g_ops (my : list tname) : gexp := match my with [t] => GTok t | _ => GAlt (map GTok my) end.
Lemma level_grammar k lft my : level k = Some (lft, my) → grammar k = g_binary lft k (g_ops my).
Proof. destruct k; try done; intros [= <- <-]; reflexivity. Qed.

Section run.
Context (sub : kind → list token → parsed).
Lemma drop_branch_self x : drop_branch x (branch x) = x.
Proof. by destruct x. Qed.
Lemma eval_alt_toks my x :
  run_alt (eval sub) false (map GTok my) x =
  match todo x with
  | u :: us => if bool_decide (kind_of_token u ∈ my) then Ret (Some [value u]) (Ctx us (assigned x) (waiting x)) else Ret None x
  | [] => Ret None x
  end.
Proof.
  induction my as [|t my IH]; cbn [map run_alt].
  - by destruct (todo x).
  - cbn [eval]. unfold next_is. cbn [todo branch].
    destruct (todo x) as [|u us] eqn:E.
    + change (Ctx [] (assigned x) []) with (Ctx [] (assigned x) []). replace (drop_branch x (branch x)) with x; [done|].
      by destruct x.
    + destruct (bool_decide (kind_of_token u = t)) eqn:Hu.
      * apply bool_decide_eq_true in Hu. rewrite bool_decide_eq_true_2 by (rewrite Hu; by left).
        unfold accept. cbn. by rewrite app_nil_r.
      * replace (drop_branch x (branch x)) with x by (by destruct x). rewrite IH.
        apply bool_decide_eq_false in Hu. f_equal.
        destruct (bool_decide (kind_of_token u ∈ my)) eqn:Hm.
        -- apply bool_decide_eq_true in Hm. rewrite bool_decide_eq_true_2; [done|by right].
        -- apply bool_decide_eq_false in Hm. rewrite bool_decide_eq_false_2; [done|]. by intros [?|?]%elem_of_cons.
Qed.
Lemma eval_ops my x :
  eval sub (g_ops my) x =
  match todo x with
  | u :: us => if bool_decide (kind_of_token u ∈ my) then Ret (Some [value u]) (Ctx us (assigned x) (waiting x)) else Ret None x
  | [] => Ret None x
  end.
Proof.
  destruct my as [|t [|t' my]]; cbn [g_ops]; [apply (eval_alt_toks [])| |apply (eval_alt_toks (t :: t' :: my))].
  cbn [eval]. unfold next_is. destruct (todo x) as [|u us]; [done|].
  destruct (bool_decide (kind_of_token u = t)) eqn:Hu.
  - apply bool_decide_eq_true in Hu. rewrite bool_decide_eq_true_2; [done|]. rewrite Hu. by left.
  - apply bool_decide_eq_false in Hu. rewrite bool_decide_eq_false_2; [done|]. by rewrite elem_of_list_singleton.
Qed.
(** What a level does. *)
Definition binary_result (left right : kind) (my : list tname) (ts : list token) : result :=
  match sub left ts with
  | PNode tl ts1 =>
      let x1 := Ctx ts1 [] [(FLeft, Struct tl)] in
      match ts1 with
      | u :: us =>
          if bool_decide (kind_of_token u ∈ my) then
            match sub right us with
            | PNode tr ts2 =>
                Ret (Some [[]; []; []]) (Ctx ts2 [(FOp, Texts [value u])] [(FLeft, Struct tl); (FRight, Struct tr)])
            | PNone => Ret (Some [[]]) x1
            | PErr ts2 =>
                let y := Ctx ts2 [(FOp, Texts [value u])] [] in
                if stop x1 y then Err (accept x1 y)
                else Ret (Some [[]]) (Ctx ts1 [(FOp, Texts [value u])] [(FLeft, Struct tl)])
            | PCrash => Crash
            | PNoFuel => NoFuel
            end
          else Ret (Some [[]]) x1
      | [] => Ret (Some [[]]) x1
      end
  | PNone => Ret None (Ctx ts [] [])
  | PErr ts' => Err (Ctx ts' [] [])
  | PCrash => Crash
  | PNoFuel => NoFuel
  end.
Lemma eval_binary left right my ts :
  eval sub (g_binary left right (g_ops my)) (Ctx ts [] []) = binary_result left right my ts.
Proof.
  unfold g_binary, binary_result. cbn [eval run_seq todo assigned waiting app].
  destruct (sub left ts) as [tl ts1| |ts'| |]; try done. unfold run_opt. cbn [run_seq branch todo assigned waiting].
  rewrite eval_ops. cbn [branch todo assigned waiting]. destruct ts1 as [|u us]; [done|].
  destruct (bool_decide (kind_of_token u ∈ my)); [|done]. cbn [todo assigned waiting app].
  destruct (sub right us) as [tr ts2| |ts2| |]; try done.
  - unfold stop. cbn [todo length]. replace (S (length us) - length us) with 1 by lia. done.
  - by destruct (stop _ _).
Qed.
End run.

Lemma level_facts :
  forallb (λ k, match level k with
    | Some (lft, my) =>
        forallb (λ t, bool_decide (t ∉ ops_of lft) && bool_decide (t ∈ ops_of k)) my &&
        forallb (λ t, bool_decide (t ∈ ops_of k)) (ops_of lft) &&
        negb (asks lft) && negb (asks k) && dirtyable k && negb (special_kind k) &&
        (bool_decide (k = KExprAdditive) || bool_decide (TOpMinus ∉ my) && bool_decide (TOpPlus ∉ my))
    | None => true
    end) all_kinds = true.
Proof. vm_compute. reflexivity. Qed.
Record level_ok (k lft : kind) (my : list tname) : Prop := {
  lo_new t : t ∈ my → t ∉ ops_of lft;
  lo_mine t : t ∈ my → t ∈ ops_of k;
  lo_left t : t ∈ ops_of lft → t ∈ ops_of k;
  lo_asks_left : asks lft = false;
  lo_asks : asks k = false;
  lo_dirty : dirtyable k = true;
  lo_plain : special_kind k = false;
  lo_sign t : t ∈ my → t = TOpMinus ∨ t = TOpPlus → k = KExprAdditive;
}.
Lemma level_sound k lft my : level k = Some (lft, my) → level_ok k lft my.
Proof.
  intros E. pose proof (for_all_kinds _ level_facts k) as H. cbn beta in H. rewrite E in H.
  apply andb_true_iff in H as [H Hs]. apply andb_true_iff in H as [H Hp]. apply andb_true_iff in H as [H Hd].
  apply andb_true_iff in H as [H Ha]. apply andb_true_iff in H as [H Hal]. apply andb_true_iff in H as [H1 H2].
  rewrite forallb_forall in H1, H2.
  assert (∀ t, t ∈ my → t ∉ ops_of lft ∧ t ∈ ops_of k) as H1'.
  { intros t Ht. apply elem_of_list_In, H1, andb_true_iff in Ht as [Ht1%bool_decide_eq_true Ht2%bool_decide_eq_true]. done. }
  split; try (by apply negb_true_iff); try done; intros t Ht.
  - by apply H1'.
  - by apply H1'.
  - by apply elem_of_list_In, H2, bool_decide_eq_true in Ht.
  - intros Ht'. apply orb_true_iff in Hs as [Hs%bool_decide_eq_true|Hs]; [done|].
    apply andb_true_iff in Hs as [Hs1%bool_decide_eq_true Hs2%bool_decide_eq_true]. by destruct Ht' as [-> | ->].
Qed.
(** What a level captures can be stored. *)
Lemma level_store k lft my tl :
  level k = Some (lft, my) →
  (∃ fs, store_all k (fields (zero no_pos k)) [(FLeft, Struct tl)] = Stored fs) ∧
  (∀ v, ∃ fs, store_all k (fields (zero no_pos k)) [(FOp, Texts [v]); (FLeft, Struct tl)] = Stored fs) ∧
  (∀ v tr, ∃ fs, store_all k (fields (zero no_pos k)) [(FOp, Texts [v]); (FLeft, Struct tl); (FRight, Struct tr)] = Stored fs).
Proof. destruct k; try done; intros _; (split; [eexists; reflexivity|]); (split; intros; eexists; reflexivity). Qed.

Ltac restore H E :=
  match type of H with ?a = _ =>
    match type of E with context [store_all ?k ?f ?c] => change (store_all k f c) with a in E end end;
  rewrite H in E.
Section level.
Context (eof : pos).
(** ** Where an operand cannot start *)
Definition atom_fits (t : tname) (s : string) (a : atom) : bool :=
  match a with ALit s' => bool_decide (s = s') | ATok t' => bool_decide (t = t') end.
Definition unary_never (t : tname) (s : string) : bool :=
  negb (existsb (atom_fits t s) (first_of none_dead KExprUnary)).
Lemma never_sound k u us t ts' :
  empty_struct k = false → negb (existsb (atom_fits (kind_of_token u) (str (value u))) (first_of none_dead k)) = true →
  parser eof k (u :: us) ≠ PNode t ts'.
Proof.
  intros Hk H E. pose proof (parser_moves eof k (u :: us)) as Hm. rewrite E in Hm.
  destruct Hm as (vs & Hvs & Hs). specialize (Hs ltac:(by rewrite Hk)).
  destruct (parser_starts eof none_dead (u :: us) first_closed_all ltac:(done) _ _ _ E) as [H'|(u' & us' & [= <- <-] & Hu)].
  - apply (f_equal length) in Hvs. rewrite app_length in Hvs. rewrite H' in Hvs. destruct vs; [done|]. cbn in Hvs. lia.
  - apply negb_true_iff in H. apply existsb_exists in Hu as (a & Ha & Hu).
    assert (existsb (atom_fits (kind_of_token u) (str (value u))) (first_of none_dead k) = true) as H1; [|congruence].
    apply existsb_exists. exists a. split; [done|]. destruct a as [s|t']; cbn in *; [|done].
    apply bool_decide_eq_true in Hu. apply bool_decide_eq_true. rewrite Hu. clear. induction s; cbn; [done|]. by f_equal.
Qed.
Lemma unary_never_sound u us t ts' :
  unary_never (kind_of_token u) (str (value u)) = true → parser eof KExprUnary (u :: us) ≠ PNode t ts'.
Proof. by apply never_sound. Qed.
Lemma str_chars s : str (chars s) = s.
Proof. apply String.string_of_list_ascii_of_string. Qed.
Lemma ops_never :
  forallb (λ t, bool_decide (t = TOpMinus) || bool_decide (t = TOpPlus) || unary_never t (op_text t)) ops_lor = true ∧
  forallb (λ t, unary_never t "?") question_kinds = true.
Proof. split; vm_compute; reflexivity. Qed.

(** A sign after which no operand stands. *)
Lemma level_fails k lft my ts ts2 :
  level k = Some (lft, my) → parser eof k ts = PErr ts2 → (length ts - length ts2 ≤ lookahead)%nat →
  parser eof lft ts = PErr ts2.
Proof.
  intros Hl E Hlen. rewrite parser_unfold, (level_grammar _ _ _ Hl), eval_binary in E. unfold binary_result in E.
  pose proof (parser_moves eof lft ts) as Hm.
  destruct (parser eof lft ts) as [tl ts1| |ts'| |] eqn:E1; try done.
  exfalso. destruct (level_store _ _ _ tl Hl) as ([fs H1] & H2 & H3). destruct Hm as (us1 & Hus1 & _).
  destruct ts1 as [|u us]; [cbn [finish_struct assigned waiting app] in E; by restore H1 E|].
  destruct (bool_decide _); [|cbn [finish_struct assigned waiting app] in E; by restore H1 E].
  pose proof (parser_moves eof k us) as Hm.
  destruct (parser eof k us) as [tr ts3| |ts3| |]; try done.
  - cbn [finish_struct assigned waiting app] in E. destruct (H3 (value u) tr) as [fs' H']. by restore H' E.
  - cbn [finish_struct assigned waiting app] in E. by restore H1 E.
  - destruct (stop _ _) eqn:Hs.
    + cbn in E. injection E as <-. unfold stop in Hs. apply Nat.ltb_lt in Hs. cbn [todo length] in Hs. rewrite Hus1 in Hlen.
      rewrite app_length in Hlen. cbn in Hlen. unfold lookahead in *. lia.
    + cbn [finish_struct assigned waiting app] in E. destruct (H2 (value u)) as [fs' H']. by restore H' E.
Qed.
Lemma grammar_unary : grammar KExprUnary = GSeq [GOpt (GCap FOp (g_ops signs)); GSub FRight KExprPostfix].
Proof. reflexivity. Qed.
Lemma eval_unary sub ts :
  eval sub (grammar KExprUnary) (Ctx ts [] []) =
  match ts with
  | u :: us =>
      if bool_decide (kind_of_token u ∈ signs) then
        match sub KExprPostfix us with
        | PNode t ts2 => Ret (Some [[]; []]) (Ctx ts2 [(FOp, Texts [value u])] [(FRight, Struct t)])
        | PNone => Err (Ctx us [] [(FOp, Texts [value u])])
        | PErr ts2 => Err (Ctx ts2 [(FOp, Texts [value u])] [])
        | PCrash => Crash
        | PNoFuel => NoFuel
        end
      else
        match sub KExprPostfix ts with
        | PNode t ts2 => Ret (Some [[]]) (Ctx ts2 [] [(FRight, Struct t)])
        | PNone => Err (Ctx ts [] [])
        | PErr ts2 => Err (Ctx ts2 [] [])
        | PCrash => Crash
        | PNoFuel => NoFuel
        end
  | [] =>
      match sub KExprPostfix ts with
      | PNode t ts2 => Ret (Some [[]]) (Ctx ts2 [] [(FRight, Struct t)])
      | PNone => Err (Ctx ts [] [])
      | PErr ts2 => Err (Ctx ts2 [] [])
      | PCrash => Crash
      | PNoFuel => NoFuel
      end
  end.
Proof.
  rewrite grammar_unary. cbn [eval run_seq]. unfold run_opt. cbn [eval]. rewrite eval_ops. cbn [todo branch assigned waiting].
  destruct ts as [|u us].
  - cbn. by destruct (sub KExprPostfix []).
  - destruct (bool_decide _); cbn [todo accept branch assigned waiting app default].
    + by destruct (sub KExprPostfix us).
    + by destruct (sub KExprPostfix (u :: us)).
Qed.

(** The postfix level cannot start with a sign. *)
Lemma postfix_never :
  forallb (λ t, negb (existsb (atom_fits t (op_text t)) (first_of none_dead KExprPostfix))) signs = true.
Proof. vm_compute. reflexivity. Qed.
Lemma postfix_sign u us t ts' :
  kind_of_token u ∈ signs → value u = chars (op_text (kind_of_token u)) → parser eof KExprPostfix (u :: us) ≠ PNode t ts'.
Proof.
  intros Hk Hv. apply never_sound; [done|]. rewrite Hv, str_chars. pose proof postfix_never as H. rewrite forallb_forall in H.
  apply H. by apply elem_of_list_In.
Qed.
Lemma unary_store t :
  (∃ fs, store_all KExprUnary (fields (zero no_pos KExprUnary)) [(FRight, Struct t)] = Stored fs) ∧
  (∀ v, ∃ fs, store_all KExprUnary (fields (zero no_pos KExprUnary)) [(FOp, Texts [v]); (FRight, Struct t)] = Stored fs).
Proof. split; [eexists; reflexivity|]. intros. eexists; reflexivity. Qed.
Lemma unary_fails ts ts2 t ts' :
  Forall regular ts → parser eof KExprUnary ts = PErr ts2 → parser eof KExprPostfix ts ≠ PNode t ts'.
Proof.
  intros Hr E E1. rewrite parser_unfold, eval_unary in E. destruct (unary_store t) as [[fs H1] H2].
  destruct ts as [|u us].
  - rewrite E1 in E. cbn [finish_struct assigned waiting app] in E. by restore H1 E.
  - destruct (bool_decide _) eqn:Hu.
    + apply bool_decide_eq_true in Hu. revert E1. apply postfix_sign; [done|]. apply Forall_cons in Hr as [[Hr _] _].
      apply Hr. apply elem_of_app. by left.
    + rewrite E1 in E. cbn [finish_struct assigned waiting app] in E. by restore H1 E.
Qed.
(** A sign after which no operand stands. *)
Lemma sign_blocks u us ts2 t ts' :
  Forall regular us → kind_of_token u ∈ signs → parser eof KExprAdditive us = PErr ts2 →
  (length us - length ts2 ≤ lookahead)%nat → parser eof KExprUnary (u :: us) ≠ PNode t ts'.
Proof.
  intros Hr Hu E Hl E'. apply (level_fails KExprAdditive _ _ us ts2 eq_refl) in E; [|done].
  apply (level_fails KExprMultiplicative _ _ us ts2 eq_refl) in E; [|done].
  pose proof (λ t ts', unary_fails us ts2 t ts' Hr E) as Hp.
  rewrite parser_unfold, eval_unary, bool_decide_eq_true_2 in E' by done.
  destruct (parser eof KExprPostfix us) as [t' ts3| | | |]; try done. by destruct (Hp t' ts3).
Qed.

Lemma ops_lor_all k t : t ∈ ops_of k → t ∈ ops_lor.
Proof.
  assert (forallb (λ k, forallb (λ t, bool_decide (t ∈ ops_lor)) (ops_of k)) all_kinds = true) as Hc by (vm_compute; reflexivity).
  pose proof (for_all_kinds _ Hc k) as Hc'. cbn beta in Hc'. rewrite forallb_forall in Hc'.
  intros Ht. by apply elem_of_list_In, Hc', bool_decide_eq_true in Ht.
Qed.
Section eval.
Context (sub : kind → list token → parsed).
Context (Hparser : ∀ k ts, sub k ts ≠ PNoFuel → sub k ts = parser eof k ts).
Context (Hmoves : ∀ k ts, moves_struct (negb (empty_struct k)) ts (sub k ts)).
Context (Hsub : ∀ k ts, Forall regular ts → built eof k ts (sub k ts)).

Lemma built_level k lft my ts :
  level k = Some (lft, my) → Forall regular ts →
  built eof k ts (finish_struct eof k ts (eval sub (grammar k) (Ctx ts [] []))).
Proof.
  intros Hl Hr. pose proof (level_sound _ _ _ Hl) as Ho. rewrite (level_grammar _ _ _ Hl), eval_binary. unfold binary_result.
  pose proof (Hsub lft ts Hr) as H1. pose proof (Hmoves lft ts) as Hm1.
  destruct (sub lft ts) as [tl ts1| |ts1| |]; try done. destruct Hm1 as (us1 & Hus1 & _).
  (* without an operator *)
  assert (Hnone : ∀ us1, ts = us1 ++ ts1 → builds (first_pos eof ts1) lft us1 tl →
    built eof k ts (finish_struct eof k ts (Ret (Some [[]]) (Ctx ts1 [] [(FLeft, Struct tl)])))).
  { clear us1 Hus1. intros us1 Hus1 H. apply built_clean. rewrite (level_grammar _ _ _ Hl).
    exists us1, [(FLeft, Struct tl)]. split; [done|]. split; [done|]. cbn [todo].
    rewrite <- (app_nil_r us1). change [(FLeft, Struct tl)] with ([(FLeft, Struct tl)] ++ [] ++ []).
    change [[]] with ([[]] ++ [] ++ [] : list text). 
    apply (d_cons _ _ _ us1 [] [_] [] [[]] []).
    - by constructor.
    - apply (d_cons _ _ _ [] [] [] [] [] []); [apply d_none|apply d_nil]. }
  assert (Hdirty : ∀ o y, todo y = ts1 → blocked eof k ts1 → built eof k ts (finish_struct eof k ts (Ret (Some o) y))).
  { intros o y Hy H. cbn [finish_struct]. destruct (store_all _ _ _); try done. right. rewrite Hy. split; [by apply Ho|done]. }
  destruct H1 as [(us & Hus & H1)|[_ H1]].
  - specialize (Hnone us Hus H1). destruct ts1 as [|u us2]; [done|].
    destruct (bool_decide _) eqn:Hu; [|done]. apply bool_decide_eq_true in Hu.
    rewrite Hus in Hr. apply Forall_app in Hr as [_ [Hr1 Hr2]%Forall_cons].
    pose proof (Hsub k us2 Hr2) as H2. pose proof (Hparser k us2) as Hp.
    destruct (sub k us2) as [tr ts2| |ts2| |] eqn:E; try done.
    + destruct H2 as [(us3 & Hus3 & H2)|[_ H2]].
      * cbn [finish_struct]. destruct (store_all _ _ _) as [fs| |] eqn:Es; try done. left.
        assert (Hts : ts = (us ++ [u] ++ us3) ++ ts2) by (rewrite Hus, Hus3; by rewrite <- !(assoc_L _)).
        exists (us ++ [u] ++ us3). split; [done|]. cbn [todo]. rewrite Hts, position_first.
        apply b_struct with ([(FLeft, Struct tl); (FOp, Texts [value u]); (FRight, Struct tr)]) [[]; []; []].
        -- rewrite (level_grammar _ _ _ Hl).
           apply (d_cons _ _ _ us ([u] ++ us3) [_] [_; _] [[]] [[]; []]).
           ++ constructor. cbn [first_pos]. replace (start u) with (first_pos eof (u :: us2)) by done. done.
           ++ rewrite <- (app_nil_r ([u] ++ us3)).
              apply (d_cons _ _ _ ([u] ++ us3) [] [_; _] [] [[]; []] []); [|apply d_nil].
              apply d_opt. cbn [first_pos]. apply (d_cons _ _ _ [u] us3 [_] [_] [[]] [[]]).
              ** apply (d_cap _ _ _ [u] []). unfold g_ops. destruct my as [|t [|t' my]]; [by apply elem_of_nil in Hu| |].
                 --- constructor. by apply elem_of_list_singleton in Hu.
                 --- apply d_alt with (GTok (kind_of_token u)); [|by constructor]. by apply elem_of_list_fmap_1.
              ** rewrite <- (app_nil_r us3). apply (d_cons _ _ _ us3 [] [_] [] [[]] []); [|apply d_nil]. by constructor.
        -- eapply filled_plain; [by apply Ho| |exact Es]. intros f. cbn [assigned waiting app].
           rewrite !captures_of_cons. destruct (decide (FOp = f)) as [<-|]; [done|]. done.
      * cbn [finish_struct]. destruct (store_all _ _ _); try done. right. split; [by apply Ho|done].
    + destruct (stop _ _) eqn:Hs; [done|]. apply Hdirty; [done|].
      exists u, us2. split; [done|].
      assert (kind_of_token u ∈ ops_lor) as Hlor by (by apply (ops_lor_all k), Ho).
      assert (value u = chars (op_text (kind_of_token u))) as Hv.
      { apply Hr1, elem_of_app. by right. }
      split; [left; split; [by apply Ho|done]|]. intros t ts'.
      destruct (decide (kind_of_token u = TOpMinus ∨ kind_of_token u = TOpPlus)) as [Hsg|Hsg].
      * assert (k = KExprAdditive) as -> by (by eapply lo_sign). apply sign_blocks with ts2; try done.
        -- destruct Hsg as [-> | ->]; vm_compute; repeat constructor.
        -- by rewrite <- Hp.
        -- unfold stop in Hs. apply Nat.ltb_ge in Hs. cbn [todo length] in Hs. unfold lookahead in *. lia.
      * apply unary_never_sound. rewrite Hv, str_chars. destruct ops_never as [Hn _]. rewrite forallb_forall in Hn.
        specialize (Hn _ ltac:(apply elem_of_list_In, Hlor)). apply orb_true_iff in Hn as [Hn|Hn]; [|done].
        apply orb_true_iff in Hn as [Hn%bool_decide_eq_true|Hn%bool_decide_eq_true]; tauto.
  - (* the left side is unclean: the operator is none of this level *)
    pose proof H1 as (u & us & -> & Hb & Hn). rewrite bool_decide_eq_false_2.
    + apply Hdirty; [done|]. exists u, us. split; [done|]. split; [|done].
      destruct Hb as [[Hb1 Hb2]|[Hb _]]; [left; split; [by apply (lo_left _ _ _ Ho)|done]|]. by rewrite (lo_asks_left _ _ _ Ho) in Hb.
    + intros Hm. destruct Hb as [[Hb1 Hb2]|[Hb _]]; [by apply (lo_new _ _ _ Ho) in Hm|]. by rewrite (lo_asks_left _ _ _ Ho) in Hb.
Qed.

Lemma blocked_value k u us s :
  blocked eof k (u :: us) → s ∉ "?" :: map op_text ops_lor → value u ≠ chars s.
Proof.
  intros (u' & us' & [= <- <-] & Hb & _) Hs Hv. apply Hs. destruct Hb as [[H1 H2]|(_ & H1 & H2)]; apply elem_of_cons.
  - right. apply elem_of_list_fmap. exists (kind_of_token u). split; [apply chars_inj; congruence|by eapply ops_lor_all].
  - left. apply chars_inj. congruence.
Qed.
Lemma question_blocks u us :
  regular u → value u = chars "?" → blocked eof KExprConditional (u :: us).
Proof.
  intros [_ Hr] Hv. exists u, us. split; [done|]. split; [right; split; [done|]; split; [done|]; by apply Hr|].
  intros t ts'. apply unary_never_sound. rewrite Hv, str_chars. destruct ops_never as [_ Hn].
  rewrite forallb_forall in Hn. by apply Hn, elem_of_list_In, Hr.
Qed.
Lemma built_conditional ts :
  Forall regular ts →
  built eof KExprConditional ts (finish_struct eof KExprConditional ts (eval sub (grammar KExprConditional) (Ctx ts [] []))).
Proof.
  intros Hr. change (grammar KExprConditional) with (GSeq [GSub FCondition KExprLogicalOr;
     GOpt (GSeq [GCap FConditionOp (GLit "?"); GSub FTrueExpr KExpr; GLit ":"; GSub FFalseExpr KExpr])]).
  cbn [eval run_seq todo assigned waiting app].
  pose proof (Hsub KExprLogicalOr ts Hr) as H1. 
  destruct (sub KExprLogicalOr ts) as [tc ts1| |ts1| |]; try done.
  unfold run_opt, next_is. cbn [run_seq branch todo assigned waiting].
  assert (Hdirty : ∀ o y, todo y = ts1 → blocked eof KExprConditional ts1 →
    built eof KExprConditional ts (finish_struct eof KExprConditional ts (Ret (Some o) y))).
  { intros o y Hy H. cbn [finish_struct]. destruct (store_all _ _ _); try done. right. by rewrite Hy. }
  destruct H1 as [(us & Hus & H1)|[_ H1]].
  - assert (Hnone : built eof KExprConditional ts (finish_struct eof KExprConditional ts
      (Ret (Some [[]]) (Ctx ts1 [] [(FCondition, Struct tc)])))).
    { apply built_clean. exists us, [(FCondition, Struct tc)]. split; [done|]. split; [done|]. cbn [todo].
      rewrite <- (app_nil_r us). apply (d_cons _ _ _ us [] [_] [] [[]] []); [by constructor|].
      apply (d_cons _ _ _ [] [] [] [] [] []); [apply d_none|apply d_nil]. }
    destruct ts1 as [|u us2]; [done|]. destruct (bool_decide (value u = chars "?")) eqn:Hu; [|done].
    apply bool_decide_eq_true in Hu. cbn [todo assigned waiting app].
    rewrite Hus in Hr. apply Forall_app in Hr as [_ [Hr1 Hr2]%Forall_cons].
    assert (Hb : blocked eof KExprConditional (u :: us2)) by (by apply question_blocks).
    pose proof (Hsub KExpr us2 Hr2) as H2. pose proof (Hmoves KExpr us2) as Hm2.
    destruct (sub KExpr us2) as [te ts2| |ts2| |]; try done.
    2: { unfold stop. destruct (_ <? _)%nat; [done|]. by apply Hdirty. }
    2: { unfold stop. destruct (_ <? _)%nat; [done|]. by apply Hdirty. }
    cbn [run_seq todo assigned waiting app].
    destruct ts2 as [|v vs]; [unfold stop; destruct (_ <? _)%nat; [done|]; by apply Hdirty|].
    destruct (bool_decide (value v = chars ":")) eqn:Hv;
      [|unfold stop; destruct (_ <? _)%nat; [done|]; by apply Hdirty].
    apply bool_decide_eq_true in Hv. cbn [todo assigned waiting app].
    destruct H2 as [(us3 & Hus3 & H2)|[_ H2]].
    2: { exfalso. eapply (blocked_value _ _ _ ":" H2); [vm_compute|done].
         intros Hin. repeat (apply elem_of_cons in Hin as [Hin|Hin]; [done|]). by apply elem_of_nil in Hin. }
    rewrite Hus3 in Hr2. apply Forall_app in Hr2 as [_ [_ Hr3]%Forall_cons].
    pose proof (Hsub KExpr vs Hr3) as H3.
    destruct (sub KExpr vs) as [tf ts4| |ts4| |]; try done.
    2: { unfold stop. destruct (_ <? _)%nat; [done|]. by apply Hdirty. }
    2: { unfold stop. destruct (_ <? _)%nat; [done|]. by apply Hdirty. }
    cbn [run_seq todo assigned waiting app].
    change (bool_decide ([[]; []; chars ":"; []] = [])) with false.
    destruct H3 as [(us4 & Hus4 & H3)|[_ H3]].
    + cbn [finish_struct default]. unfold accept. cbn [run_seq todo assigned waiting app].
      destruct (store_all _ _ _) as [fs| |] eqn:Es; try done. left.
      assert (Hts : ts = (us ++ ([u] ++ us3 ++ [v] ++ us4)) ++ ts4).
      { rewrite Hus, Hus3, Hus4. by rewrite <- !(assoc_L _). }
      exists (us ++ ([u] ++ us3 ++ [v] ++ us4)). split; [done|]. rewrite Hts, position_first.
      apply b_struct with [(FCondition, Struct tc); (FConditionOp, Texts [value u]); (FTrueExpr, Struct te); (FFalseExpr, Struct tf)]
        [[]; []; []; value v; []].
      * apply (d_cons _ _ _ us ([u] ++ us3 ++ [v] ++ us4) [_] [_; _; _] [[]] [[]; []; value v; []]).
        { constructor. cbn [first_pos app]. replace (start u) with (first_pos eof (u :: us2)) by done. done. }
        rewrite <- (app_nil_r ([u] ++ us3 ++ [v] ++ us4)).
        apply (d_cons _ _ _ ([u] ++ us3 ++ [v] ++ us4) [] [_; _; _] [] [[]; []; value v; []] []); [|apply d_nil].
        apply d_opt. cbn [first_pos]. apply (d_cons _ _ _ [u] (us3 ++ [v] ++ us4) [_] [_; _] [[]] [[]; value v; []]).
        { apply (d_cap _ _ _ [u] []). by constructor. }
        apply (d_cons _ _ _ us3 ([v] ++ us4) [_] [_] [[]] [value v; []]).
        { constructor. cbn [first_pos app]. replace (start v) with (first_pos eof (v :: vs)) by done. done. }
        apply (d_cons _ _ _ [v] us4 [] [_] [value v] [[]]); [by constructor|].
        rewrite <- (app_nil_r us4). apply (d_cons _ _ _ us4 [] [_] [] [[]] []); [by constructor|apply d_nil].
      * eapply filled_plain; [done| |exact Es]. intros f. cbn [assigned waiting app].
        rewrite !captures_of_cons. destruct (decide (FConditionOp = f)) as [<-|]; [done|].
        destruct (decide (FTrueExpr = f)) as [<-|]; [done|]. done.
    + cbn [finish_struct default]. destruct (store_all _ _ _); try done. right. split; [done|].
      apply stuck_blocked; [done|done|]. by eapply blocked_stuck.
  - pose proof H1 as (u & us & -> & Hb & Hn). rewrite bool_decide_eq_false_2.
    + apply Hdirty; [done|]. apply stuck_blocked; [done|done|]. by eapply blocked_stuck.
    + intros Hv. destruct Hb as [[Hb1 Hb2]|[Hb _]]; [|done]. rewrite Hv in Hb2. apply chars_inj in Hb2.
      revert Hb1 Hb2. generalize (kind_of_token u). intros t Ht. 
      repeat (apply elem_of_cons in Ht as [->|Ht]; [done|]). by apply elem_of_nil in Ht.
Qed.

Definition g_map_entry : gexp := GSeq [GSub FKey KMapKey; GLit "="; GSub FValue KExpr; GOpt (GLit ","); g_lf].
Lemma key_no_comment :
  forallb (λ a, match a with ATok t => bool_decide (ATok t ∉ first_of none_dead KMapKey) | ALit _ => false end)
    (first_of none_dead KComment) = true ∧
  forallb (λ a, match a with ATok t => true | ALit _ => false end) (first_of none_dead KMapKey) = true.
Proof. split; vm_compute; reflexivity. Qed.
Lemma key_or_comment ts t ts' t' ts'' :
  parser eof KMapKey ts = PNode t ts' → parser eof KComment ts = PNode t' ts'' → False.
Proof.
  intros E1 E2.
  assert (∀ k t ts', empty_struct k = false → parser eof k ts = PNode t ts' → starts (first_of none_dead k) ts) as H.
  { intros k u us Hk E. pose proof (parser_moves eof k ts) as Hm. rewrite E in Hm. destruct Hm as (vs & Hvs & Hs).
    rewrite Hk in Hs. specialize (Hs eq_refl).
    destruct (parser_starts eof none_dead ts first_closed_all ltac:(done) _ _ _ E) as [H'|H]; [|done].
    apply (f_equal length) in Hvs. rewrite app_length, H' in Hvs. destruct vs; [done|]. cbn in Hvs. lia. }
  apply H in E1 as (u & us & -> & H1); [|done]. apply H in E2 as (u' & us' & [= <- <-] & H2); [|done].
  destruct key_no_comment as [Hc Hk]. rewrite forallb_forall in Hc, Hk.
  apply existsb_exists in H1 as (a & Ha & H1), H2 as (b & Hb & H2).
  specialize (Hc b Hb). specialize (Hk a Ha). destruct a as [|ta], b as [|tb]; try done. cbn in H1, H2.
  apply bool_decide_eq_true in H1, H2, Hc. subst. apply Hc. by apply elem_of_list_In.
Qed.
Lemma built_map_item ts :
  Forall regular ts →
  built eof KMapItem ts (finish_struct eof KMapItem ts (eval sub (grammar KMapItem) (Ctx ts [] []))).
Proof.
  intros Hr. set (x := Ctx ts [] []).
  assert (Hclean : ∀ g l y, g ∈ [g_empty_line; g_map_entry; GSub FComment KComment] → 
    clean eof g x (Some l) y → built eof KMapItem ts (finish_struct eof KMapItem ts (Ret (Some l) y))).
  { intros g l y Hg (us & cs & H1 & H2 & H3). apply built_clean. exists us, cs. split; [done|]. split; [done|].
    by apply d_alt with g. }
  assert (Hdirty : ∀ o y, stuck_at eof (todo y) → built eof KMapItem ts (finish_struct eof KMapItem ts (Ret (Some o) y))).
  { intros o y H. cbn [finish_struct]. destruct (store_all _ _ _); try done. right. split; [done|].
    by apply stuck_blocked. }
  assert (Hone : ∀ g, g ∈ [g_empty_line; g_map_entry; GSub FComment KComment] → tidy g = true → follow_ok g = true →
    match eval sub g (branch x) with
    | Ret (Some l) y => built eof KMapItem ts (finish_struct eof KMapItem ts (Ret (Some l) (accept x y)))
    | Ret None y => assigned y = []
    | _ => True
    end).
  { intros g Hg Ht Hf. pose proof (clean_eval eof sub Hparser Hmoves Hsub g Ht Hf (branch x) Hr) as H.
    destruct (eval sub g (branch x)) as [[l|] y|y| |]; try done.
    - destruct H as [H|(_ & _ & H)]; [by apply Hclean with g|by apply Hdirty].
    - destruct H as [(us & cs & _ & H & -> & ->)|[? _]]; [|done]. by apply app_nil in H as [? _]. }
  change (grammar KMapItem) with (GAlt [g_empty_line; g_map_entry; GSub FComment KComment]).
  assert (Hlast : ∀ failed y, (∀ t ts', sub KComment ts = PNode t ts' → assigned y = []) → 
    built eof KMapItem ts (finish_struct eof KMapItem ts
      (run_alt (eval sub) failed [GSub FComment KComment] (drop_branch x y)))).
  { intros failed y Hy. cbn [run_alt]. pose proof (Hone (GSub FComment KComment) ltac:(right; right; left) eq_refl eq_refl) as H.
    cbn [eval todo branch drop_branch assigned waiting app] in *. subst x. cbn [todo branch assigned] in *.
    destruct (sub KComment ts) as [t ts'| | | |]; try done.
    - rewrite (Hy _ _ eq_refl). done.
    - by destruct failed.
    - by destruct (stop _ _). }
  assert (Hkey : ∀ failed, built eof KMapItem ts (finish_struct eof KMapItem ts
    (run_alt (eval sub) failed [g_map_entry; GSub FComment KComment] x))).
  { intros failed. change (run_alt (eval sub) failed [g_map_entry; GSub FComment KComment] x) with
      (match eval sub g_map_entry (branch x) with
       | Ret (Some l) y => Ret (Some l) (accept x y)
       | Ret None y => run_alt (eval sub) failed [GSub FComment KComment] (drop_branch x y)
       | Err y => if stop x y then Err (accept x y) else run_alt (eval sub) true [GSub FComment KComment] (drop_branch x y)
       | r => r
       end).
    pose proof (Hone g_map_entry ltac:(right; left) eq_refl eq_refl) as H.
    destruct (eval sub g_map_entry (branch x)) as [[l|] y|y| |] eqn:E; try done.
    - apply Hlast. done.
    - destruct (stop x y); [done|]. apply Hlast. intros t ts' Ec.
      unfold g_map_entry in E. cbn [eval run_seq todo branch assigned waiting app] in E. subst x.
      cbn [todo assigned app] in E. destruct (sub KMapKey ts) as [t0 ts0| |ts0| |] eqn:Ek; try done; [|by injection E as <-].
      destruct (key_or_comment ts t0 ts0 t ts'); rewrite <- Hparser; congruence. }
  cbn [eval]. change (run_alt (eval sub) false [g_empty_line; g_map_entry; GSub FComment KComment] x) with
      (match eval sub g_empty_line (branch x) with
       | Ret (Some l) y => Ret (Some l) (accept x y)
       | Ret None y => run_alt (eval sub) false [g_map_entry; GSub FComment KComment] (drop_branch x y)
       | Err y => if stop x y then Err (accept x y) else run_alt (eval sub) true [g_map_entry; GSub FComment KComment] (drop_branch x y)
       | r => r
       end).
  pose proof (Hone g_empty_line ltac:(left) eq_refl eq_refl) as H.
  pose proof (no_commit_sound sub g_empty_line false (branch x) eq_refl (λ _, eq_refl)) as Hc.
  destruct (eval sub g_empty_line (branch x)) as [[l|] y|y| |]; try done.
  - replace (drop_branch x y) with x; [apply Hkey|]. unfold drop_branch, x. cbn. by rewrite H.
  - destruct (stop x y); [done|]. replace (drop_branch x y) with x; [apply Hkey|]. unfold drop_branch, x. cbn in Hc |- *. by rewrite Hc.
Qed.
Lemma built_struct k ts :
  Forall regular ts → built eof k ts (finish_struct eof k ts (eval sub (grammar k) (Ctx ts [] []))).
Proof.
  intros Hr. destruct (tidy (grammar k)) eqn:Ht; [by apply built_tidy|].
  destruct (level k) as [[lft my]|] eqn:Hl; [by eapply built_level|].
  destruct k; try discriminate Ht; try discriminate Hl.
  - by apply built_enum_item.
  - by apply built_object_item.
  - by apply built_map_item.
  - by apply built_conditional.
Qed.
End eval.

Theorem parser_built k ts : Forall regular ts → built eof k ts (parser eof k ts).
Proof.
  apply (parser_ind eof (λ k ts r, Forall regular ts → built eof k ts r)); [done|].
  intros sub Hp Hm IH k' ts' Hr. by apply built_struct.
Qed.
Theorem parse_tokens_builds ts t :
  Forall regular ts → parse_tokens eof ts = Ok (Some t) → builds eof KAST ts t.
Proof.
  intros Hr. rewrite parse_tokens_parser. pose proof (parser_built KAST ts Hr) as H.
  destruct (parser eof KAST ts) as [t' [|? ?]| | | |]; try done. intros [= <-].
  destruct H as [(us & -> & H)|(_ & u & us & ? & _)]; [|done]. by rewrite app_nil_r.
Qed.
End level.
