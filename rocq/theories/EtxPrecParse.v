(** * Written expressions are parsed *)
From stdpp Require Import base list option strings sets.
From Coq Require Import Ascii Lia.
From Verif Require Import GoBase EtxAst EtxHeap EtxHeapSpec EtxText EtxLex EtxUtil EtxGram EtxParse EtxParseBase
  EtxParseSpec EtxParseStore EtxParseFirst EtxParseClean EtxParseLevel EtxParseTyped EtxParseParts EtxPrecSpec EtxPrec.

(** ** Steps of the search *)
Definition next_not (l : list string) (ts : list token) : Prop :=
  match ts with u :: _ => Forall (λ s, value u ≠ chars s) l | [] => True end.
Section steps.
Context (sub : kind → list token → parsed).
Lemma lit_no s x : next_not [s] (todo x) → eval sub (GLit s) x = Ret None x.
Proof.
  cbn [eval]. unfold next_is. destruct (todo x) as [|u us]; [done|]. intros [H _]%Forall_cons. by rewrite bool_decide_eq_false_2.
Qed.
Lemma lit_yes s x u us : todo x = u :: us → value u = chars s → eval sub (GLit s) x = Ret (Some [value u]) (Ctx us (assigned x) (waiting x)).
Proof. cbn [eval]. unfold next_is. intros -> H. by rewrite bool_decide_eq_true_2. Qed.
Lemma tok_no k x : match todo x with u :: _ => kind_of_token u ≠ k | [] => True end → eval sub (GTok k) x = Ret None x.
Proof. cbn [eval]. unfold next_is. destruct (todo x) as [|u us]; [done|]. intros H. by rewrite bool_decide_eq_false_2. Qed.
Lemma tok_yes k x u us : todo x = u :: us → kind_of_token u = k → eval sub (GTok k) x = Ret (Some [value u]) (Ctx us (assigned x) (waiting x)).
Proof. cbn [eval]. unfold next_is. intros -> H. by rewrite bool_decide_eq_true_2. Qed.
Lemma cap_no f g x y : eval sub g x = Ret None y → eval sub (GCap f g) x = Ret None y.
Proof. cbn [eval]. by intros ->. Qed.
Lemma cap_yes f g x l y :
  eval sub g x = Ret (Some l) y → eval sub (GCap f g) x = Ret (Some [[]]) (Ctx (todo y) (assigned y) (waiting y ++ [(f, Texts l)])).
Proof. cbn [eval]. by intros ->. Qed.
Lemma sub_no f k x : sub k (todo x) = PNone → eval sub (GSub f k) x = Ret None x.
Proof. cbn [eval]. by intros ->. Qed.
Lemma sub_err f k x ts : sub k (todo x) = PErr ts → eval sub (GSub f k) x = Err (Ctx ts (assigned x ++ waiting x) []).
Proof. cbn [eval]. by intros ->. Qed.
Lemma sub_yes f k x t ts :
  sub k (todo x) = PNode t ts → eval sub (GSub f k) x = Ret (Some [[]]) (Ctx ts (assigned x ++ waiting x) [(f, Struct t)]).
Proof. cbn [eval]. by intros ->. Qed.
Lemma seq_no g gs x y : eval sub g x = Ret None y → eval sub (GSeq (g :: gs)) x = Ret None y.
Proof. cbn [eval run_seq]. by intros ->. Qed.
Lemma seq_err g gs x y : eval sub g x = Err y → eval sub (GSeq (g :: gs)) x = Err y.
Proof. cbn [eval run_seq]. by intros ->. Qed.
Lemma seq_yes g gs x l y : eval sub g x = Ret (Some l) y → eval sub (GSeq (g :: gs)) x = run_seq (eval sub) false gs l y.
Proof. cbn [eval run_seq]. by intros ->. Qed.
Lemma seq_next first g gs acc x l y :
  eval sub g x = Ret (Some l) y → run_seq (eval sub) first (g :: gs) acc x = run_seq (eval sub) false gs (acc ++ l) y.
Proof. cbn [run_seq]. by intros ->. Qed.
Lemma seq_stuck g gs acc x y : eval sub g x = Ret None y → run_seq (eval sub) false (g :: gs) acc x = Err y.
Proof. cbn [run_seq]. by intros ->. Qed.
Lemma alt_no failed g gs x :
  eval sub g (branch x) = Ret None (branch x) → run_alt (eval sub) failed (g :: gs) x = run_alt (eval sub) failed gs x.
Proof. cbn [run_alt]. intros ->. by rewrite drop_branch_self. Qed.
Lemma alt_err failed g gs x y :
  eval sub g (branch x) = Err y → length (todo x) <= 50 + length (todo y) → assigned y = assigned x →
  run_alt (eval sub) failed (g :: gs) x = run_alt (eval sub) true gs x.
Proof.
  cbn [run_alt]. intros -> Hl Ha. unfold stop. rewrite (proj2 (Nat.ltb_ge _ _)) by (unfold lookahead; lia).
  f_equal. unfold drop_branch. rewrite Ha. by destruct x.
Qed.
Lemma alt_yes failed g gs x l y :
  eval sub g (branch x) = Ret (Some l) y → run_alt (eval sub) failed (g :: gs) x = Ret (Some l) (accept x y).
Proof. cbn [run_alt]. by intros ->. Qed.
Lemma opt_no g x : eval sub g (branch x) = Ret None (branch x) → eval sub (GOpt g) x = Ret (Some []) x.
Proof. cbn [eval]. unfold run_opt. intros ->. cbn [default]. f_equal. unfold accept. cbn. rewrite app_nil_r. by destruct x. Qed.
Lemma opt_err g x y :
  eval sub g (branch x) = Err y → length (todo x) <= 50 + length (todo y) → assigned y = assigned x → eval sub (GOpt g) x = Ret (Some []) x.
Proof.
  cbn [eval]. unfold run_opt. intros -> Hl Ha. unfold stop. rewrite (proj2 (Nat.ltb_ge _ _)) by (unfold lookahead; lia).
  f_equal. unfold drop_branch. rewrite Ha. by destruct x.
Qed.
Lemma opt_yes g x l y : eval sub g (branch x) = Ret (Some l) y → eval sub (GOpt g) x = Ret (Some l) (accept x y).
Proof. cbn [eval]. unfold run_opt. by intros ->. Qed.
Lemma many_no g x : eval sub g (branch x) = Ret None (branch x) → eval sub (GMany g) x = Ret (Some []) x.
Proof.
  cbn [eval run_many]. intros ->. f_equal. unfold accept. cbn. rewrite app_nil_r. by destruct x.
Qed.
Lemma some_no g x : eval sub g (branch x) = Ret None (branch x) → eval sub (GSome g) x = Err x.
Proof.
  cbn [eval run_many]. intros ->. f_equal. unfold accept. cbn. rewrite app_nil_r. by destruct x.
Qed.
End steps.

Section expressions.
Context (eof : pos).
Notation P := (parser eof).
(** What may follow an operand. *)
Definition ends : list token → Prop := next_not ["."; "["; "("].
Lemma next_not_sub l l' ts : (∀ s, s ∈ l → s ∈ l') → next_not l' ts → next_not l ts.
Proof.
  intros Hl. destruct ts as [|u us]; [done|]. cbn. rewrite !Forall_forall. intros H s Hs. by apply H, Hl.
Qed.
Lemma ends_no s ts : s ∈ ["."; "["; "("] → ends ts → next_not [s] ts.
Proof. intros Hs. apply next_not_sub. by intros s' ->%elem_of_list_singleton. Qed.

(** A struct that starts with a token that is not there. *)
Lemma struct_no k g gs ts :
  grammar k = GSeq (g :: gs) → eval P g (Ctx ts [] []) = Ret None (Ctx ts [] []) → P k ts = PNone.
Proof. intros Hg H. rewrite parser_unfold, Hg, (seq_no _ _ _ _ _ H). done. Qed.

Lemma value_no u ts :
  kind_of_token u ∉ [TNumber; TString; THeredoc] → next_not ["null"; "true"; "false"; "["; "{"] (u :: ts) → P KValue (u :: ts) = PNone.
Proof.
  intros Hk Hn. rewrite parser_unfold. cbn [grammar eval].
  set (x := Ctx (u :: ts) [] []).
  assert (Hl : ∀ s, s ∈ ["null"; "true"; "false"; "["; "{"] → eval P (GLit s) (branch x) = Ret None (branch x)).
  { intros s Hs. apply lit_no. eapply next_not_sub; [|exact Hn]. by intros s' ->%elem_of_list_singleton. }
  assert (Ht : ∀ t, t ∈ [TNumber; TString; THeredoc] → eval P (GTok t) (branch x) = Ret None (branch x)).
  { intros t Ht. apply tok_no. cbn. intros E. by rewrite E in Hk. }
  rewrite alt_no by (apply cap_no, Hl; by left).
  rewrite alt_no.
  2:{ apply cap_no. cbn [eval]. rewrite !alt_no; [done|apply Hl; by right; right; left|apply Hl; by right; left]. }
  rewrite alt_no by (apply cap_no, Ht; by left).
  rewrite alt_no by (apply sub_no; eapply struct_no; [done|apply Ht; by right; left]).
  rewrite alt_no.
  2:{ apply sub_no; eapply struct_no; [done|]. apply cap_no, Ht. by right; right; left. }
  rewrite alt_no by (apply sub_no; eapply struct_no; [done|apply Hl; by do 3 right; left]).
  rewrite alt_no by (apply sub_no; eapply struct_no; [done|apply Hl; by do 4 right; left]).
  done.
Qed.
Lemma ident_one u ts :
  kind_of_token u = TIdent → next_not ["."] ts → ∃ t, P KIdent (u :: ts) = PNode t ts.
Proof.
  intros Hk Hn. rewrite parser_unfold. cbn [grammar].
  erewrite seq_yes by (eapply cap_yes, tok_yes; done). cbn [todo assigned waiting app].
  erewrite seq_next.
  2:{ apply opt_yes. apply many_no. apply seq_no, lit_no. exact Hn. }
  cbn. by eexists.
Qed.
Lemma postfix_one t ts ts' : ends ts' → P KExprPrimary ts = PNode t ts' → ∃ t', P KExprPostfix ts = PNode t' ts'.
Proof.
  intros He H. rewrite parser_unfold. cbn [grammar].
  rewrite (seq_yes _ _ _ _ _ _ (sub_yes _ _ _ (Ctx ts [] []) _ _ H)). cbn [todo assigned waiting app].
  erewrite seq_next by (apply opt_no, seq_no, lit_no, ends_no; [by right; left|exact He]).
  erewrite seq_next by (apply opt_no, seq_no, lit_no, ends_no; [by left|exact He]).
  by eexists.
Qed.
Lemma primary_name u ts :
  kind_of_token u = TIdent → next_not ["null"; "true"; "false"; "["; "{"; "("] (u :: ts) → ends ts → ∃ t, P KExprPrimary (u :: ts) = PNode t ts.
Proof.
  intros Hk Hn He. rewrite parser_unfold. cbn [grammar eval]. set (x := Ctx (u :: ts) [] []).
  rewrite alt_no.
  2:{ apply seq_no, lit_no. eapply next_not_sub; [|exact Hn]. intros s ->%elem_of_list_singleton. set_solver. }
  rewrite alt_no.
  2:{ apply sub_no. apply value_no; [rewrite Hk; set_solver|]. eapply next_not_sub; [|exact Hn]. set_solver. }
  destruct (ident_one u ts Hk) as [t Ht]; [apply ends_no; [by left|done]|].
  erewrite alt_yes.
  2:{ erewrite seq_yes by (by apply sub_yes). cbn [todo assigned waiting app].
      erewrite seq_next.
      2:{ eapply opt_err; [apply some_no; apply seq_no, lit_no, ends_no; [by right; right; left|exact He]|cbn; lia|done]. }
      erewrite seq_next by (apply opt_no, seq_no, lit_no, ends_no; [by left|exact He]).
      reflexivity. }
  by eexists.
Qed.
Lemma value_number u ts :
  kind_of_token u = TNumber → is_Some (capture_number (value u)) → ∃ t, P KValue (u :: ts) = PNode t ts.
Proof.
  intros Hk [[src n] Hc]. rewrite parser_unfold. cbn [grammar eval]. set (x := Ctx (u :: ts) [] []).
  assert (Hl : ∀ s, s ∈ ["null"; "true"; "false"] → eval P (GLit s) (branch x) = Ret None (branch x)).
  { intros s Hs. apply lit_no. constructor; [|constructor]. intros E. rewrite E in Hc.
    repeat (apply elem_of_cons in Hs as [->|Hs]; [by vm_compute in Hc|]). by apply elem_of_nil in Hs. }
  rewrite alt_no by (apply cap_no, Hl; by left).
  rewrite alt_no.
  2:{ apply cap_no. cbn [eval]. rewrite !alt_no; [done|apply Hl; by right; right; left|apply Hl; by right; left]. }
  erewrite alt_yes by (eapply cap_yes, tok_yes; done).
  cbn [accept todo assigned waiting app branch x finish_struct store_all store]. change (default [] (head [value u])) with (value u). rewrite Hc. by eexists.
Qed.
Lemma primary_number u ts :
  kind_of_token u = TNumber → is_Some (capture_number (value u)) → ∃ t, P KExprPrimary (u :: ts) = PNode t ts.
Proof.
  intros Hk Hc. destruct (value_number u ts Hk Hc) as [t Ht]. rewrite parser_unfold. cbn [grammar eval].
  rewrite alt_no.
  2:{ apply seq_no, lit_no. constructor; [|constructor]. intros E. rewrite E in Hc. vm_compute in Hc. by destruct Hc. }
  erewrite alt_yes by (by apply sub_yes). by eexists.
Qed.
Lemma primary_parens l ts e r ts' :
  value l = chars "(" → P KExpr ts = PNode e (r :: ts') → value r = chars ")" → ∃ t, P KExprPrimary (l :: ts) = PNode t ts'.
Proof.
  intros Hl He Hr. rewrite parser_unfold. cbn [grammar eval].
  erewrite alt_yes.
  2:{ erewrite seq_yes by (by apply lit_yes). cbn [todo assigned waiting].
      erewrite seq_next by (by apply sub_yes). cbn [todo assigned waiting app].
      erewrite seq_next by (by apply lit_yes). reflexivity. }
  by eexists.
Qed.
Lemma unary_plain u us t ts' :
  kind_of_token u ∉ signs → P KExprPostfix (u :: us) = PNode t ts' → ∃ t', P KExprUnary (u :: us) = PNode t' ts'.
Proof.
  intros Hk H. rewrite parser_unfold, eval_unary. rewrite bool_decide_eq_false_2 by done. rewrite H. by eexists.
Qed.
Lemma unary_signed u us t ts' :
  kind_of_token u ∈ signs → P KExprPostfix us = PNode t ts' → ∃ t', P KExprUnary (u :: us) = PNode t' ts'.
Proof.
  intros Hk H. rewrite parser_unfold, eval_unary. rewrite bool_decide_eq_true_2 by done. rewrite H. by eexists.
Qed.

(** ** Sequences of operands and operators *)
Definition operand_ok (us : list token) : Prop :=
  Forall regular us ∧
  ∀ rest, Forall regular rest → ends rest →
    ∃ t, P KExprUnary (us ++ rest) = PNode t rest ∧ ∃ p, builds p KExprUnary us t.
Definition seq_tokens (first : list token) (more : list (token * list token)) : list token :=
  first ++ flat_map (λ q, q.1 :: q.2) more.
Lemma seq_tokens_app first m1 u us m2 :
  seq_tokens first (m1 ++ (u, us) :: m2) = seq_tokens first m1 ++ u :: seq_tokens us m2.
Proof. unfold seq_tokens. rewrite flat_map_app. cbn [flat_map fst snd app]. by rewrite !app_assoc. Qed.
Lemma op_ends u us : regular u → kind_of_token u ∈ ops_lor → ends (u :: us).
Proof.
  intros [Hr _] Hk. unfold ends, next_not. assert (value u = chars (op_text (kind_of_token u))) as -> by (apply Hr, elem_of_app; by right).
  assert (forallb (λ t, forallb (λ s, bool_decide (chars (op_text t) ≠ chars s)) ["."; "["; "("]) ops_lor = true) as H by (vm_compute; reflexivity).
  rewrite forallb_forall in H. apply elem_of_list_In, H in Hk. cbn. apply Forall_forall. intros s Hs.
  rewrite forallb_forall in Hk. apply elem_of_list_In, Hk in Hs. by apply bool_decide_eq_true in Hs.
Qed.
Lemma level_ops k lft my t : level k = Some (lft, my) → t ∈ ops_of k → t ∈ my ∨ t ∈ ops_of lft.
Proof.
  intros Hl Ht. assert (forallb (λ k, match level k with
    | Some (lft, my) => forallb (λ t, bool_decide (t ∈ my) || bool_decide (t ∈ ops_of lft)) (ops_of k) | None => true end) all_kinds = true) as H
    by (vm_compute; reflexivity).
  pose proof (for_all_kinds _ H k) as Hk. cbn beta in Hk. rewrite Hl, forallb_forall in Hk.
  apply elem_of_list_In, Hk, orb_true_iff in Ht as [?%bool_decide_eq_true|?%bool_decide_eq_true]; eauto.
Qed.
Lemma ops_of_lor k t : t ∈ ops_of k → t ∈ ops_lor.
Proof.
  assert (forallb (λ k, forallb (λ t, bool_decide (t ∈ ops_lor)) (ops_of k)) all_kinds = true) as Hc by (vm_compute; reflexivity).
  pose proof (for_all_kinds _ Hc k) as Hc'. cbn beta in Hc'. rewrite forallb_forall in Hc'.
  intros Ht. by apply elem_of_list_In, Hc', bool_decide_eq_true in Ht.
Qed.
(** The first operator of a level. *)
Lemma split_first (my : list tname) (more : list (token * list token)) :
  Forall (λ q, kind_of_token q.1 ∉ my) more ∨
  ∃ m1 u us m2, more = m1 ++ (u, us) :: m2 ∧ Forall (λ q, kind_of_token q.1 ∉ my) m1 ∧ kind_of_token u ∈ my.
Proof.
  induction more as [|[u us] more IH]; [by left; constructor|]. destruct (decide (kind_of_token u ∈ my)) as [H|H].
  - right. exists [], u, us, more. split; [done|]. split; [constructor|done].
  - destruct IH as [IH|(m1 & u' & us' & m2 & -> & H1 & H2)].
    + left. by constructor.
    + right. exists ((u, us) :: m1), u', us', m2. split; [done|]. split; [by constructor|done].
Qed.
Definition outcome (k : kind) (first : list token) (more : list (token * list token)) (rest : list token) : Prop :=
  ∃ t r, P k (seq_tokens first more ++ rest) = PNode t rest ∧ reads t r ∧
    operators_of r = map (λ q, str (value q.1)) more ∧
    Forall2 (λ us t, ∃ p, builds p KExprUnary us t) (first :: map snd more) (operands_of r) ∧
    follows_precedence r ∧ right_to_left r ∧ ∀ o, o ∈ operators_of r → rank_of k ≤ strength o.
Lemma level_get k lft my q tl :
  level k = Some (lft, my) →
  (∃ fs, store_all k (fields (zero no_pos k)) [(FLeft, Struct tl)] = Stored fs ∧
    get FLeft (T q k fs : ast) = Some (VEmb tl) ∧ get FOp (T q k fs : ast) = Some (VStr "") ∧ get FRight (T q k fs : ast) = Some (VPtr None)) ∧
  (∀ v tr, ∃ fs, store_all k (fields (zero no_pos k)) [(FOp, Texts [v]); (FLeft, Struct tl); (FRight, Struct tr)] = Stored fs ∧
    get FLeft (T q k fs : ast) = Some (VEmb tl) ∧ get FOp (T q k fs : ast) = Some (VStr (str v)) ∧ get FRight (T q k fs : ast) = Some (VPtr (Some tr))).
Proof.
  destruct k; try done; intros _; (split; [eexists; split_and!; reflexivity|]); intros v tr; eexists;
    (split; [reflexivity|]); (split; [reflexivity|]); (split; [|reflexivity]);
    cbn [get fields assoc set_field decide]; unfold get; cbn; by rewrite app_nil_r.
Qed.
Lemma level_outcome k first more rest :
  k = KExprUnary ∨ is_Some (level k) →
  operand_ok first → Forall (λ q, operand_ok q.2 ∧ regular q.1 ∧ kind_of_token q.1 ∈ ops_of k) more →
  Forall regular rest → ends rest → match rest with u :: _ => kind_of_token u ∉ ops_of k | [] => True end →
  outcome k first more rest.
Proof.
  assert (Hm : ∃ n, (60 * length more + (12 - rank_of k) <= n)%nat) by eauto. destruct Hm as [n Hn].
  revert k first more rest Hn. induction n as [|n IH]; intros k first more rest Hn Hk Hf Hmore Hr He Hrest.
  { exfalso. assert (rank_of k <= 11)%nat by (destruct k; cbn; lia). lia. }
  destruct Hk as [->|[[lft my] Hl]].
  { destruct more as [|q more]; [|apply Forall_cons in Hmore as [(_ & _ & Hmore) _]; by apply elem_of_nil in Hmore].
    destruct Hf as [_ Hf]. destruct (Hf rest Hr He) as (t & Ht & p & Hb). exists t, (Operand t).
    unfold seq_tokens. cbn [flat_map]. rewrite app_nil_r. split_and!; try done.
    - constructor. by eapply builds_kind.
    - constructor; [by exists p|constructor].
    - by intros o ?%elem_of_nil. }
  pose proof (level_rank _ _ _ Hl) as (Hrk & _ & Hlft & Hstr). pose proof (level_rank_pos _ _ _ Hl) as Hpos.
  pose proof (level_sound _ _ _ Hl) as Hok. assert (rank_of lft <= 11)%nat by (destruct lft; cbn; lia).
  unfold outcome. rewrite parser_unfold, (level_grammar _ _ _ Hl), eval_binary. unfold binary_result.
  destruct (split_first my more) as [Hnone|(m1 & u & us & m2 & -> & Hm1 & Hu)].
  - destruct (IH lft first more rest) as (tl & r & E & H1 & H2 & H3 & H4 & H5 & H6); try done.
    + lia.
    + rewrite Forall_forall in Hmore, Hnone |- *. intros q Hq. destruct (Hmore q Hq) as (? & ? & Hq').
      split; [done|]. split; [done|]. destruct (level_ops _ _ _ _ Hl Hq') as [Hq''|]; [|done]. by destruct (Hnone q Hq).
    + destruct rest as [|v rest]; [done|]. intros Hv. apply Hrest. by apply (lo_left _ _ _ Hok).
    + rewrite E. destruct (level_get k lft my (position eof k (seq_tokens first more ++ rest)) tl Hl) as [(fs & F1 & F2 & F3 & F4) _].
      assert (∀ o, finish_struct eof k (seq_tokens first more ++ rest) (Ret (Some [o]) (Ctx rest [] [(FLeft, Struct tl)])) =
        PNode (T (position eof k (seq_tokens first more ++ rest)) k fs) rest) as Hfin.
      { intros o. cbn [finish_struct assigned waiting app todo]. by rewrite F1. }
      eexists _, r. split.
      { destruct rest as [|v rest]; [apply Hfin|]. rewrite bool_decide_eq_false_2; [apply Hfin|].
        intros Hv. apply Hrest. by apply (lo_mine _ _ _ Hok). }
      split_and!; try done; [by eapply reads_single; [by eapply level_binary|..]|]. intros o Ho. specialize (H6 o Ho). lia.
  - rewrite app_length in Hn. cbn [length] in Hn. apply Forall_app in Hmore as [Hmo1 [(Hus & Hru & _) Hmo2]%Forall_cons]. cbn [fst snd] in Hus, Hru.
    assert (Hul : kind_of_token u ∈ ops_lor) by (by eapply ops_of_lor, (lo_mine _ _ _ Hok)).
    destruct (IH k us m2 rest) as (tr & b & E2 & I1 & I2 & I3 & I4 & I5 & I6); try done; [lia|by right; eexists|].
    assert (Hreg2 : Forall regular (seq_tokens us m2 ++ rest)).
    { apply Forall_app. split; [|done]. apply Forall_app. split; [apply Hus|]. apply Forall_forall. rewrite Forall_forall in Hmo2.
      intros x [q [Hq Hx]]%elem_of_list_In%in_flat_map. apply elem_of_list_In in Hq, Hx. destruct (Hmo2 q Hq) as ([H' _] & Hq' & _).
      apply elem_of_cons in Hx as [->|Hx]; [done|]. rewrite Forall_forall in H'. by apply H'. }
    destruct (IH lft first m1 (u :: seq_tokens us m2 ++ rest)) as (tl & a & E1 & H1 & H2 & H3 & H4 & H5 & H6); try done.
    + lia.
    + rewrite Forall_forall in Hmo1, Hm1 |- *. intros q Hq. destruct (Hmo1 q Hq) as (? & ? & Hq').
      split; [done|]. split; [done|]. destruct (level_ops _ _ _ _ Hl Hq') as [Hq''|]; [|done]. by destruct (Hm1 q Hq).
    + by constructor.
    + by apply op_ends.
    + by apply (lo_new _ _ _ Hok).
    + rewrite seq_tokens_app, <- app_assoc. cbn [app]. rewrite E1, bool_decide_eq_true_2 by done. rewrite E2.
      set (ts0 := seq_tokens first m1 ++ u :: seq_tokens us m2 ++ rest).
      destruct (level_get k lft my (position eof k ts0) tl Hl) as [_ Hg]. destruct (Hg (value u) tr) as (fs & F1 & F2 & F3 & F4).
      destruct (regular_op _ _ _ _ Hru Hl Hu) as [Ht Hs].
      exists (T (position eof k ts0) k fs), (Binary a (str (value u)) b). split_and!.
      * cbn [finish_struct assigned waiting app todo].
        match type of F1 with ?a = _ => match goal with |- context [store_all ?k ?f ?c] => change (store_all k f c) with a end end.
        by rewrite F1.
      * by eapply reads_binary; [by eapply level_binary|..].
      * cbn [operators_of]. by rewrite H2, I2, map_app.
      * cbn [operands_of]. rewrite map_app. change (first :: map snd m1 ++ map snd ((u, us) :: m2)) with ((first :: map snd m1) ++ us :: map snd m2).
        by apply Forall2_app.
      * cbn [follows_precedence]. split; [|done]. intros o [Ho|Ho]%elem_of_app; [specialize (H6 o Ho)|specialize (I6 o Ho)]; lia.
      * cbn [right_to_left]. split; [|done]. intros o Ho. specialize (H6 o Ho). lia.
      * intros o. cbn [operators_of]. intros [Ho|[->|Ho]%elem_of_cons]%elem_of_app;
          [specialize (H6 o Ho)| |specialize (I6 o Ho)]; lia.
Qed.
Lemma unary_builds us t rest :
  Forall regular (us ++ rest) → P KExprUnary (us ++ rest) = PNode t rest → ∃ p, builds p KExprUnary us t.
Proof.
  intros Hr E. pose proof (parser_built eof KExprUnary _ Hr) as H. rewrite E in H. destruct H as [(us' & E' & Hb)|[_ H]].
  - apply app_inv_tail in E' as ->. by eexists.
  - destruct H as (u & us' & _ & [[H _]|(H & _)] & _); [by apply elem_of_nil in H|done].
Qed.
(** ** Whole expressions *)
Lemma expr_outcome first more rest :
  operand_ok first → Forall (λ q, operand_ok q.2 ∧ regular q.1 ∧ kind_of_token q.1 ∈ ops_lor) more →
  Forall regular rest → ends rest → next_not ["?"] rest → match rest with u :: _ => kind_of_token u ∉ ops_lor | [] => True end →
  ∃ e c m r, P KExpr (seq_tokens first more ++ rest) = PNode e rest ∧
    get FLeft e = Some (VPtr (Some c)) ∧ get FCondition c = Some (VEmb m) ∧ get FConditionOp c = Some (VBool false) ∧ reads m r ∧
    operators_of r = map (λ q, str (value q.1)) more ∧
    Forall2 (λ us t, ∃ p, builds p KExprUnary us t) (first :: map snd more) (operands_of r) ∧
    follows_precedence r ∧ right_to_left r.
Proof.
  intros Hf Hm Hr He Hq Hrest.
  destruct (level_outcome KExprLogicalOr first more rest) as (m & r & E & H1 & H2 & H3 & H4 & H5 & _); try done; [by right; eexists|].
  set (ts := seq_tokens first more ++ rest) in *.
  assert (∃ c, P KExprConditional ts = PNode c rest ∧ get FCondition c = Some (VEmb m) ∧ get FConditionOp c = Some (VBool false)) as (c & Ec & C1 & C2).
  { rewrite parser_unfold. cbn [grammar]. erewrite seq_yes by (by apply sub_yes). cbn [todo assigned waiting app].
    erewrite seq_next by (apply opt_no, seq_no, cap_no, lit_no; exact Hq). eexists. split_and!; reflexivity. }
  assert (∃ e, P KExpr ts = PNode e rest ∧ get FLeft e = Some (VPtr (Some c))) as (e & Ee & E1).
  { rewrite parser_unfold. cbn [grammar eval]. erewrite alt_yes by (by apply sub_yes). eexists. split; reflexivity. }
  by exists e, c, m, r.
Qed.
Definition written_first (e : written) : list token :=
  match e with Last a | Then a _ _ => tokens_of_operand a end.
Fixpoint written_more (e : written) : list (token * list token) :=
  match e with Last _ => [] | Then a u e => (u, written_first e) :: written_more e end.
Lemma written_tokens e : tokens_of_written e = seq_tokens (written_first e) (written_more e).
Proof.
  induction e as [a|a u e IH]; cbn [tokens_of_written written_first written_more].
  - unfold seq_tokens. cbn. by rewrite app_nil_r.
  - rewrite IH. unfold seq_tokens. done.
Qed.
Lemma written_operators_more e : written_operators e = map (λ q, str (value q.1)) (written_more e).
Proof. induction e as [a|a u e IH]; cbn; [done|]. by rewrite IH. Qed.
Lemma written_operands_more e : written_operands e = written_first e :: map snd (written_more e).
Proof. induction e as [a|a u e IH]; cbn; [done|]. by rewrite IH. Qed.
Definition written_ok (e : written) : Prop :=
  operand_ok (written_first e) ∧
  Forall (λ q, operand_ok q.2 ∧ regular q.1 ∧ kind_of_token q.1 ∈ ops_lor) (written_more e).
Lemma is_operator_lor u : is_operator u → kind_of_token u ∈ ops_lor.
Proof. done. Qed.
Scheme written_mut := Induction for written Sort Prop
  with written_operand_mut := Induction for written_operand Sort Prop.
Combined Scheme written_ind2 from written_mut, written_operand_mut.
Lemma postfix_operand a :
  Forall regular (tokens_of_operand a) →
  (∀ rest, Forall regular rest → ends rest → ∃ u us t, tokens_of_operand a = u :: us ∧ kind_of_token u ∉ signs ∧
     P KExprPostfix (tokens_of_operand a ++ rest) = PNode t rest) →
  operand_ok (tokens_of_operand a).
Proof.
  intros Hr H. split; [done|]. intros rest Hrest He. destruct (H rest Hrest He) as (u & us & t & E & Hu & Ht).
  rewrite E in Ht |- *. destruct (unary_plain _ _ _ _ Hu Ht) as [t' Ht']. exists t'. split; [done|].
  apply (unary_builds _ _ rest); [|done]. rewrite <- E. by apply Forall_app.
Qed.
Lemma value_signs u s : regular u → value u = chars s → s ∉ map op_text signs → kind_of_token u ∉ signs.
Proof.
  intros [Hr _] Hv Hs Hk. apply Hs. apply elem_of_list_fmap. exists (kind_of_token u). split; [|done].
  apply chars_inj. rewrite <- Hv. apply Hr, elem_of_app. by left.
Qed.
Lemma value_ops u s : regular u → value u = chars s → s ∉ map op_text ops_lor → kind_of_token u ∉ ops_lor.
Proof.
  intros [Hr _] Hv Hs Hk. apply Hs. apply elem_of_list_fmap. exists (kind_of_token u). split; [|done].
  apply chars_inj. rewrite <- Hv. apply Hr, elem_of_app. by right.
Qed.
Lemma written_all :
  (∀ e, correct e → Forall regular (tokens_of_written e) → written_ok e) ∧
  (∀ a, correct_operand a → Forall regular (tokens_of_operand a) →
     operand_ok (tokens_of_operand a) ∧
     (unsigned a → ∀ rest, Forall regular rest → ends rest → ∃ t, P KExprPostfix (tokens_of_operand a ++ rest) = PNode t rest)).
Proof.
  apply written_ind2.
  - intros a IH Hc Hr. split; [by apply IH|constructor].
  - intros a IHa u e IHe (Hc1 & Hc2 & Hc3) Hr. cbn [tokens_of_written] in Hr. apply Forall_app in Hr as [Hr1 [Hr2 Hr3]%Forall_cons].
    destruct (IHe Hc3 Hr3) as [H1 H2]. split; [by apply IHa|]. constructor; [|done]. cbn [fst snd]. done.
  - intros u [Hk Hv] Hr. cbn [tokens_of_operand] in *.
    assert (Hn : ∀ rest, next_not ["null"; "true"; "false"; "["; "{"; "("] (u :: rest)).
    { intros rest. cbn [next_not]. apply Forall_forall. intros s Hs E. apply Hv. apply elem_of_list_fmap. exists s.
      split; [done|]. set_solver. }
    assert (Hp : ∀ rest, Forall regular rest → ends rest → ∃ t, P KExprPostfix ([u] ++ rest) = PNode t rest).
    { intros rest _ He. destruct (primary_name u rest Hk (Hn rest) He) as [t Ht]. by apply (postfix_one t). }
    split; [|done]. apply (postfix_operand (Name u)); [done|]. intros rest Hrest He. destruct (Hp rest Hrest He) as [t Ht].
    exists u, [], t. split_and!; try done. rewrite Hk. apply (bool_decide_unpack _). by vm_compute.
  - intros u [Hk Hv] Hr. cbn [tokens_of_operand] in *.
    assert (Hp : ∀ rest, Forall regular rest → ends rest → ∃ t, P KExprPostfix ([u] ++ rest) = PNode t rest).
    { intros rest _ He. destruct (primary_number u rest Hk Hv) as [t Ht]. by apply (postfix_one t). }
    split; [|done]. apply (postfix_operand (Number u)); [done|]. intros rest Hrest He. destruct (Hp rest Hrest He) as [t Ht].
    exists u, [], t. split_and!; try done. rewrite Hk. apply (bool_decide_unpack _). by vm_compute.
  - intros l e IH r (Hl & Hc & Hrv) Hr. cbn [tokens_of_operand] in *. apply Forall_cons in Hr as [Hr1 [Hr2 Hr3]%Forall_app].
    apply Forall_cons in Hr3 as [Hr3 _]. destruct (IH Hc Hr2) as [H1 H2].
    assert (Hp : ∀ rest, Forall regular rest → ends rest → ∃ t, P KExprPostfix ((l :: tokens_of_written e ++ [r]) ++ rest) = PNode t rest).
    { intros rest Hrest He. cbn [app]. rewrite <- app_assoc. cbn [app]. rewrite written_tokens.
      destruct (expr_outcome (written_first e) (written_more e) (r :: rest)) as (ex & c & m & rd & E & _); try done.
      - by constructor.
      - unfold ends, next_not. rewrite Hrv. repeat (apply Forall_cons; split; [by vm_compute|]). constructor.
      - unfold ends, next_not. rewrite Hrv. repeat (apply Forall_cons; split; [by vm_compute|]). constructor.
      - apply (value_ops _ ")"); [done|done|]. apply (bool_decide_unpack _). by vm_compute.
      - destruct (primary_parens _ _ _ _ _ Hl E Hrv) as [t Ht]. by apply (postfix_one t). }
    split; [|done]. apply (postfix_operand (Parens l e r)).
    { cbn. constructor; [done|]. apply Forall_app. split; [done|]. by constructor. }
    intros rest Hrest He. destruct (Hp rest Hrest He) as [t Ht]. eexists l, _, t. split; [reflexivity|]. split; [|done].
    apply (value_signs _ "("); [done|done|]. apply (bool_decide_unpack _). by vm_compute.
  - intros u a IH (Hs & Hc & Hun) Hr. cbn [tokens_of_operand] in *. pose proof Hr as Hr'. apply Forall_cons in Hr as [Hr1 Hr2].
    destruct (IH Hc Hr2) as [_ Hp]. split; [|done]. split; [done|]. intros rest Hrest He.
    destruct (Hp Hun rest Hrest He) as [t Ht]. destruct (unary_signed u _ _ _ Hs Ht) as [t' Ht']. exists t'. split; [done|].
    apply (unary_builds (u :: tokens_of_operand a) _ rest); [|done]. by apply Forall_app.
Qed.
Lemma written_outcome e rest :
  correct e → Forall regular (tokens_of_written e) → Forall regular rest → ends rest → next_not ["?"] rest →
  match rest with u :: _ => kind_of_token u ∉ ops_lor | [] => True end →
  ∃ x c m r, P KExpr (tokens_of_written e ++ rest) = PNode x rest ∧
    get FLeft x = Some (VPtr (Some c)) ∧ get FCondition c = Some (VEmb m) ∧ get FConditionOp c = Some (VBool false) ∧ reads m r ∧
    reading_of e r ∧ follows_precedence r ∧ right_to_left r.
Proof.
  intros Hc Hr. destruct written_all as [Hw _]. destruct (Hw e Hc Hr) as [H1 H2]. intros Hrest He Hq Hops.
  destruct (expr_outcome _ _ rest H1 H2 Hrest He Hq Hops) as (x & c & m & r & E & G1 & G2 & G3 & R1 & R2 & R3 & R4 & R5).
  exists x, c, m, r. rewrite written_tokens. split_and!; try done.
  split; [by rewrite written_operators_more|by rewrite written_operands_more].
Qed.
(** ** An attribute with a written expression *)
Definition not_keyword (u : token) : Prop :=
  kind_of_token u = TIdent ∧ value u ∉ map chars ["input"; "output"; "const"; "val"; "def"; "type"].
Lemma attribute_outcome x eq e :
  not_keyword x → kind_of_token eq = TOpAssign → value eq = chars "=" → correct e → Forall regular (tokens_of_written e) →
  ∃ t r, parse_tokens eof (x :: eq :: tokens_of_written e) = Ok (Some t) ∧ attribute_reading t r ∧
    reading_of e r ∧ follows_precedence r ∧ right_to_left r.
Proof.
  intros [Hx1 Hx2] He1 He2 Hc Hr.
  destruct (written_outcome e [] Hc Hr) as (v & c & m & r & E & G1 & G2 & G3 & R1 & R2 & R3 & R4); try done.
  rewrite app_nil_r in E. set (ts := x :: eq :: tokens_of_written e).
  assert (∃ a, P KAttribute ts = PNode a [] ∧ get FValue a = Some (VPtr (Some v))) as (a & Ea & A1).
  { rewrite parser_unfold. cbn [grammar]. erewrite seq_yes by (eapply cap_yes, tok_yes; done). cbn [todo assigned waiting app].
    erewrite seq_next.
    2:{ apply opt_yes. erewrite seq_yes by (by apply lit_yes). erewrite seq_next by (by apply sub_yes). reflexivity. }
    eexists. split; reflexivity. }
  assert (Hlit : ∀ s y, s ∈ ["input"; "output"; "const"; "val"; "def"; "type"] → todo y = ts → eval P (GLit s) y = Ret None y).
  { intros s y Hs Hy. apply lit_no. rewrite Hy. constructor; [|constructor]. intros Ev. apply Hx2. apply elem_of_list_fmap. by exists s. }
  assert (∃ i, P KRootItem ts = PNode i [] ∧ get FAttribute i = Some (VPtr (Some a))) as (i & Ei & I1).
  { rewrite parser_unfold. cbn [grammar eval].
    erewrite alt_err; [|apply some_no, cap_no, tok_no; cbn; by rewrite Hx1|cbn; lia|done].
    rewrite alt_no.
    2:{ apply seq_no, sub_no. eapply struct_no; [done|]. apply cap_no. cbn [eval map]. rewrite !alt_no; [done|..];
        (apply Hlit; [set_solver|done]). }
    rewrite alt_no by (apply seq_no, sub_no; eapply struct_no; [done|]; apply Hlit; [set_solver|done]).
    rewrite alt_no by (apply seq_no, sub_no; eapply struct_no; [done|]; apply Hlit; [set_solver|done]).
    assert (P KBlock ts = PErr (eq :: tokens_of_written e)) as Eb.
    { rewrite parser_unfold. cbn [grammar]. erewrite seq_yes by (eapply cap_yes, tok_yes; done). cbn [todo assigned waiting app].
      erewrite seq_next.
      2:{ apply many_no. cbn [eval]. rewrite alt_no by (apply seq_no, tok_no; cbn; by rewrite He1).
          rewrite alt_no by (apply cap_no, tok_no; cbn; by rewrite He1). done. }
      erewrite seq_stuck by (apply lit_no; cbn; rewrite He2; by repeat constructor). done. }
    erewrite alt_err; [|apply seq_err, sub_err; exact Eb|cbn; lia|done].
    erewrite alt_yes.
    2:{ erewrite seq_yes by (by apply sub_yes). erewrite seq_next by (by apply opt_no, tok_no). reflexivity. }
    eexists. split; reflexivity. }
  assert (Hend : P KRootItem [] = PErr []) by (vm_compute; reflexivity).
  rewrite parse_tokens_parser, parser_unfold. cbn [grammar eval todo]. change (length ts) with (S (S (length (tokens_of_written e)))).
  cbn [run_many branch todo assigned waiting]. rewrite Ei. cbn [accept branch todo assigned waiting app run_many]. rewrite Hend.
  eexists _, r. split; [reflexivity|]. split_and!; try done. exists i, a, v, c, m. by split_and!.
Qed.
End expressions.
