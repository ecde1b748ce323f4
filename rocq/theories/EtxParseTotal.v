(** * The parser always ends, and does not panic on the tokens of the lexer *)
From stdpp Require Import base list option strings sets.
From Coq Require Import Ascii Lia.
From Verif Require Import GoBase EtxAst EtxHeap EtxHeapSpec EtxText EtxLex EtxLexSpec EtxUtil EtxUtilProofs EtxGram
  EtxParse EtxParseBase EtxParseSpec EtxParseStore EtxParseFirst EtxParseClean EtxParseLevel EtxParseLexed.

(** ** Where captures come from *)
Fixpoint captures (ts : list token) (g : gexp) (c : capture) : Prop :=
  match g with
  | GLit _ | GTok _ => False
  | GSub f _ => ∃ t, c = (f, Struct t)
  | GCap f g =>
      captures ts g c ∨
      ∃ l, c = (f, Texts l) ∧ match g with GTok k => ∃ t, t ∈ ts ∧ kind_of_token t = k ∧ l = [value t] | _ => True end
  | GSeq gs | GAlt gs => (fix go gs := match gs with [] => False | g :: gs => captures ts g c ∨ go gs end) gs
  | GOpt g | GMany g | GSome g => captures ts g c
  end.
Lemma captures_list ts gs c :
  (fix go gs := match gs with [] => False | g :: gs => captures ts g c ∨ go gs end) gs ↔
  Exists (λ g, captures ts g c) gs.
Proof. induction gs as [|g gs IH]; [by rewrite Exists_nil|]. by rewrite Exists_cons, IH. Qed.

Section from.
Context (sub : kind → list token → parsed) (ts : list token).
Context (Hmoves : ∀ k ts, moves_struct (negb (empty_struct k)) ts (sub k ts)).
Definition all_from (P : capture → Prop) (x : ctx) : Prop :=
  todo x ⊆ ts ∧ Forall P (assigned x) ∧ Forall P (waiting x).
Definition from (P : capture → Prop) (r : result) : Prop :=
  match r with Ret _ y | Err y => all_from P y | _ => True end.
Lemma from_branch P x : all_from P x → all_from P (branch x).
Proof. intros (H1 & H2 & H3). split; [done|]. split; [done|constructor]. Qed.
Lemma from_accept P x y : all_from P x → all_from P y → all_from P (accept x y).
Proof. intros (H1 & H2 & H3) (H4 & H5 & H6). split; [done|]. split; [done|]. by apply Forall_app. Qed.
Lemma from_drop P x y : all_from P x → all_from P y → all_from P (drop_branch x y).
Proof. intros (H1 & H2 & H3) (H4 & H5 & H6). split; [done|]. by split. Qed.
Lemma from_many P g some n acc x :
  (∀ x, all_from P x → from P (eval sub g x)) → all_from P x → from P (run_many (eval sub g) some n acc x).
Proof.
  intros Hg. revert some acc x. induction n as [|n IH]; intros some acc x Hx; [done|]. cbn [run_many].
  pose proof (Hg _ (from_branch _ _ Hx)) as H. destruct (eval sub g (branch x)) as [[l|] y|y| |]; try done.
  - apply IH. by apply from_accept.
  - destruct some; by apply from_accept.
  - destruct (stop x y); [by apply from_accept|]. destruct some; by apply from_drop.
Qed.
Lemma eval_from (P : capture → Prop) g : (∀ c, captures ts g c → P c) → ∀ x, all_from P x → from P (eval sub g x).
Proof.
  induction g as [s|t|f k|f g IH|gs IH|gs IH|g IH|g IH|g IH] using gexp_ind2; intros Hg x Hx; cbn [eval].
  - unfold next_is. destruct (todo x) as [|u us] eqn:E; [done|]. destruct (bool_decide _); [|done].
    destruct Hx as (H1 & H2 & H3). split; [|done]. rewrite E in H1. cbn. set_solver.
  - unfold next_is. destruct (todo x) as [|u us] eqn:E; [done|]. destruct (bool_decide _); [|done].
    destruct Hx as (H1 & H2 & H3). split; [|done]. rewrite E in H1. cbn. set_solver.
  - destruct Hx as (H1 & H2 & H3). pose proof (Hmoves k (todo x)) as Hm.
    destruct (sub k (todo x)) as [t ts'| |ts'| |]; try done.
    + destruct Hm as (us & Hus & _). split; [cbn; rewrite Hus in H1; set_solver|]. cbn. split; [by apply Forall_app|].
      apply Forall_singleton, Hg. by exists t.
    + destruct Hm as (us & Hus). split; [cbn; rewrite Hus in H1; set_solver|]. cbn. split; [by apply Forall_app|constructor].
  - assert (from P (eval sub g x)) as H by (apply IH; [|done]; intros c Hc; apply Hg; by left).
    assert (∀ l y, eval sub g x = Ret (Some l) y →
      match g with GTok k => ∃ t, t ∈ ts ∧ kind_of_token t = k ∧ l = [value t] | _ => True end) as Ht.
    { intros l y E. destruct g; try done. cbn in E. unfold next_is in E. destruct Hx as (H1 & _ & _).
      destruct (todo x) as [|u us]; [done|]. destruct (bool_decide (kind_of_token u = t)) eqn:Hu; [|done].
      apply bool_decide_eq_true in Hu. injection E as <- <-. exists u. split; [|done]. set_solver. }
    destruct (eval sub g x) as [[l|] y|y| |]; try done. destruct H as (H1 & H2 & H3). split; [done|]. split; [done|].
    apply Forall_app. split; [done|]. apply Forall_singleton, Hg. right. exists l. split; [done|]. by eapply Ht.
  - assert (∀ first acc x, all_from P x → from P (run_seq (eval sub) first gs acc x)) as H; [|by apply H].
    clear x Hx. induction IH as [|g gs IHg _ IH]; intros first acc x Hx; cbn [run_seq]; [done|].
    assert (from P (eval sub g x)) as H by (apply IHg; [|done]; intros c Hc; apply Hg; by left).
    destruct (eval sub g x) as [[l|] y|y| |]; try done.
    + apply IH; [|done]. intros c Hc. apply Hg. by right.
    + by destruct first.
  - assert (∀ failed x, all_from P x → from P (run_alt (eval sub) failed gs x)) as H; [|by apply H].
    clear x Hx. induction IH as [|g gs IHg _ IH]; intros failed x Hx; cbn [run_alt]; [by destruct failed|].
    assert (from P (eval sub g (branch x))) as H.
    { apply IHg; [|by apply from_branch]. intros c Hc. apply Hg. by left. }
    assert (∀ failed x, all_from P x → from P (run_alt (eval sub) failed gs x)) as IH'.
    { apply IH. intros c Hc. apply Hg. by right. }
    destruct (eval sub g (branch x)) as [[l|] y|y| |]; try done.
    + by apply from_accept.
    + by apply IH', from_drop.
    + destruct (stop x y); [by apply from_accept|]. by apply IH', from_drop.
  - unfold run_opt. pose proof (IH Hg _ (from_branch _ _ Hx)) as H.
    destruct (eval sub g (branch x)) as [o y|y| |]; try done; [by apply from_accept|].
    destruct (stop x y); [by apply from_accept|by apply from_drop].
  - apply from_many; [|done]. by apply IH.
  - apply from_many; [|done]. by apply IH.
Qed.
(** No panic if none below. *)
Lemma eval_no_crash g x :
  (∀ k us vs, ts = us ++ vs → sub k vs ≠ PCrash) → (∃ us, ts = us ++ todo x) → eval sub g x ≠ Crash.
Proof.
  intros Hs. revert x. assert (Hnext : ∀ g x o y, (∃ us, ts = us ++ todo x) → eval sub g x = Ret o y → ∃ us, ts = us ++ todo y).
  { intros g0 x o y [us Hus] E. pose proof (eval_moves sub Hmoves g0 x) as H. rewrite E in H. destruct H as (vs & Hvs & _).
    exists (us ++ vs). by rewrite Hus, Hvs, (assoc_L _). }
  assert (Hmany : ∀ g some n acc x, (∀ x, (∃ us, ts = us ++ todo x) → eval sub g x ≠ Crash) → 
    (∃ us, ts = us ++ todo x) → run_many (eval sub g) some n acc x ≠ Crash).
  { intros g0 some n. revert some. induction n as [|n IHn]; intros some acc x Hg Hx; [done|]. cbn [run_many].
    pose proof (Hg (branch x) Hx) as H. pose proof (Hnext g0 (branch x)) as Hn.
    destruct (eval sub g0 (branch x)) as [[l|] y|y| |]; try done.
    - apply IHn; [done|]. exact (Hn _ _ Hx eq_refl).
    - by destruct some.
    - destruct (stop x y); [done|]. by destruct some. }
  induction g as [s|t|f k|f g IH|gs IH|gs IH|g IH|g IH|g IH] using gexp_ind2; intros x Hx; cbn [eval].
  - unfold next_is. by repeat case_match.
  - unfold next_is. by repeat case_match.
  - destruct Hx as [us Hus]. pose proof (Hs k us _ Hus). by destruct (sub k (todo x)).
  - specialize (IH x Hx). by destruct (eval sub g x) as [[l|] y|y| |].
  - assert (∀ first acc x, (∃ us, ts = us ++ todo x) → run_seq (eval sub) first gs acc x ≠ Crash) as H; [|by apply H].
    clear x Hx. induction IH as [|g gs IHg _ IH]; intros first acc x Hx; cbn [run_seq]; [done|].
    specialize (IHg x Hx). pose proof (Hnext g x) as Hn. destruct (eval sub g x) as [[l|] y|y| |]; try done.
    + apply IH. exact (Hn _ _ Hx eq_refl).
    + by destruct first.
  - assert (∀ failed x, (∃ us, ts = us ++ todo x) → run_alt (eval sub) failed gs x ≠ Crash) as H; [|by apply H].
    clear x Hx. induction IH as [|g gs IHg _ IH]; intros failed x Hx; cbn [run_alt]; [by destruct failed|].
    specialize (IHg (branch x) Hx). destruct (eval sub g (branch x)) as [[l|] y|y| |]; try done.
    + by apply IH.
    + destruct (stop x y); [done|]. by apply IH.
  - unfold run_opt. specialize (IH (branch x) Hx). destruct (eval sub g (branch x)) as [o y|y| |]; try done.
    by destruct (stop x y).
  - by apply Hmany.
  - by apply Hmany.
Qed.
End from.

(** ** The captures that can be stored *)
Definition openers_ok (ts : list token) : Prop :=
  ∀ t, t ∈ ts → kind_of_token t = THeredoc → is_Some (capture_delimiter (value t)).
Lemma update_no_crash f v fs : update f v fs ≠ Crashed.
Proof. unfold update. repeat case_match; done. Qed.
Definition storable (k : kind) (c : capture) : Prop :=
  match k, c with KHeredoc, (FDelimiter, Texts l) => ∃ v, l = [v] ∧ is_Some (capture_delimiter v) | _, _ => True end.
Lemma store_no_crash k fs c : storable k c → store k fs c ≠ Crashed.
Proof.
  destruct c as [f [l|t]]; cbn [store]; [|intros _; apply update_no_crash].
  intros Hc. destruct k; try apply update_no_crash; destruct f; try apply update_no_crash; try done.
  - destruct (capture_number _) as [[? ?]|]; done.
  - destruct Hc as (v & -> & [[dash u] E]). cbn. by rewrite E.
Qed.
Lemma store_all_no_crash k fs cs : Forall (storable k) cs → store_all k fs cs ≠ Crashed.
Proof.
  intros H. revert fs. induction H as [|c cs Hc H IH]; intros fs; cbn [store_all]; [done|].
  pose proof (store_no_crash k fs c Hc). destruct (store k fs c); try done.
Qed.
Lemma captures_storable k ts c : openers_ok ts → captures ts (grammar k) c → storable k c.
Proof.
  intros Ho Hc. destruct k; try done. destruct c as [f [l|t]]; [|by destruct f]. destruct f; try done.
  cbn in Hc. destruct Hc as [[[]|(l' & [= <-] & t & Ht & Hk & ->)]|[[t Ht]|[[]|[]]]]; [|done].
  exists (value t). split; [done|]. by apply Ho.
Qed.
Lemma parser_no_crash eof k ts : openers_ok ts → parser eof k ts ≠ PCrash.
Proof.
  apply (parser_ind eof (λ k ts r, openers_ok ts → r ≠ PCrash)); [done|].
  intros sub Hp Hm IH k' ts' Ho.
  pose proof (eval_from sub ts' Hm (storable k') (grammar k') (λ c, captures_storable k' ts' c Ho) (Ctx ts' [] [])) as Hf.
  specialize (Hf ltac:(split; [done|]; split; constructor)).
  assert (eval sub (grammar k') (Ctx ts' [] []) ≠ Crash) as Hc.
  { apply (eval_no_crash sub ts' Hm); [|by exists []]. intros k1 us vs E. apply IH. intros t Ht. apply Ho. set_solver. }
  destruct (eval sub (grammar k') (Ctx ts' [] [])) as [[l|] y|y| |]; try done.
  cbn [finish_struct]. destruct Hf as (_ & H1 & H2).
  pose proof (store_all_no_crash k' (fields (zero no_pos k')) (assigned y ++ waiting y)) as H.
  destruct (store_all _ _ _); try done. intros _. apply H; [|done]. by apply Forall_app.
Qed.
Lemma parse_tokens_total eof ts : openers_ok ts → ∃ o, parse_tokens eof ts = Ok o.
Proof.
  intros Ho. rewrite parse_tokens_parser. pose proof (parser_no_crash eof KAST ts Ho).
  pose proof (parser_not_out_of_fuel eof KAST ts). destruct (parser eof KAST ts) as [t [|? ?]| | | |]; try done; by eexists.
Qed.
Lemma elide_openers file s ts st : lex file s = Ok (Lexed ts st) → openers_ok (elide ts).
Proof.
  intros H t [_ Ht]%elem_of_list_filter Hk. destruct (p35b _ _ _ _ H Ht Hk) as (dash & u & f & E & _). eauto.
Qed.
