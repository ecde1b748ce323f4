(** * The limit on iterations: proofs *)
From stdpp Require Import base list option strings sets.
From Coq Require Import Ascii Lia NArith.
From Verif Require Import GoBase EtxAst EtxHeap EtxHeapSpec EtxText EtxLex EtxLexSpec EtxLexFacts EtxUtil EtxUtilProofs EtxGram
  EtxParse EtxParseBase EtxParseSpec EtxParseStore EtxParseTotal EtxLexString EtxLexPropProofs EtxRelex EtxDecls EtxFinalLex EtxIter.

(** ** Two limits *)
Section two.
Context (m m' : nat) (Hm : m ≤ m').
Definition cut (r r' : result) : Prop := r = r' ∨ r = Crash.
Definition cut_sub (sub sub' : kind → list token → parsed) : Prop := ∀ k ts, sub k ts = sub' k ts ∨ sub k ts = PCrash.
Lemma cut_seq ev ev' gs : Forall (λ g, ∀ x, cut (ev g x) (ev' g x)) gs →
  ∀ b acc x, cut (run_seq ev b gs acc x) (run_seq ev' b gs acc x).
Proof.
  intros H. induction H as [|g gs Hg _ IH]; intros b acc x; cbn [run_seq]; [by left|].
  destruct (Hg x) as [->| ->]; [|by right]. destruct (ev' g x) as [[l|] y|y| |]; try (by left). apply IH.
Qed.
Lemma cut_alt ev ev' gs : Forall (λ g, ∀ x, cut (ev g x) (ev' g x)) gs →
  ∀ b x, cut (run_alt ev b gs x) (run_alt ev' b gs x).
Proof.
  intros H. induction H as [|g gs Hg _ IH]; intros b x; cbn [run_alt]; [by left|].
  destruct (Hg (branch x)) as [->| ->]; [|by right]. destruct (ev' g (branch x)) as [[l|] y|y| |]; try (by left); [apply IH|].
  destruct (stop x y); [by left|apply IH].
Qed.
Lemma cut_opt ev ev' : (∀ x, cut (ev x) (ev' x)) → ∀ x, cut (run_opt ev x) (run_opt ev' x).
Proof. intros H x. unfold run_opt. destruct (H (branch x)) as [->| ->]; [by left|by right]. Qed.
Lemma cut_many ev ev' : (∀ x, cut (ev x) (ev' x)) → ∀ n n' b acc x, n ≤ n' →
  cut (run_many_upto ev b n acc x) (run_many_upto ev' b n' acc x).
Proof.
  intros H n. induction n as [|n IH]; intros n' b acc x Hn; [by right|]. destruct n' as [|n']; [lia|]. cbn [run_many_upto].
  destruct (H (branch x)) as [->| ->]; [|by right]. destruct (ev' (branch x)) as [[l|] y|y| |]; try (by left). apply IH. lia.
Qed.
Lemma cut_eval sub sub' g : cut_sub sub sub' → ∀ x, cut (eval_upto m sub g x) (eval_upto m' sub' g x).
Proof.
  intros Hs. induction g as [s|t|f k|f g IH|gs IH|gs IH|g IH|g IH|g IH] using gexp_ind2; intros x; cbn [eval_upto].
  - by left.
  - by left.
  - destruct (Hs k (todo x)) as [->| ->]; [by left|by right].
  - destruct (IH x) as [->| ->]; [by left|by right].
  - by apply cut_seq.
  - by apply cut_alt.
  - by apply cut_opt.
  - by apply cut_many.
  - by apply cut_many.
Qed.
Lemma cut_struct eof n : cut_sub (parse_struct_upto m eof n) (parse_struct_upto m' eof n).
Proof.
  induction n as [|n IH]; intros k ts; [by left|]. cbn [parse_struct_upto].
  destruct (cut_eval _ _ (grammar k) IH (Ctx ts [] [])) as [->| ->]; [by left|by right].
Qed.
Lemma cut_parse s : parse_upto m s = parse_upto m' s ∨ parse_upto m s = Panic.
Proof.
  unfold parse_upto. destruct (lex "" s) as [[ts st|ts p]| |]; try (by left). unfold parse_tokens_upto.
  destruct (cut_struct (advance (start_pos "") s) (struct_fuel (elide ts)) KAST (elide ts)) as [->| ->]; [by left|by right].
Qed.
End two.

(** ** A limit that is not met *)
Section enough.
Context (m : nat).
Section same.
Context (sub sub' : kind → list token → parsed).
Context (Hmoves : ∀ k ts, moves_struct (negb (empty_struct k)) ts (sub k ts)).
Context (Hsub : ∀ k ts, length ts < m → sub' k ts = sub k ts).
Lemma moved_shorter strict x o y : moves strict x (Ret o y) → length (todo y) ≤ length (todo x).
Proof. intros (us & -> & _). rewrite app_length. lia. Qed.
Lemma same_many g some n n' acc x :
  (∀ x, length (todo x) < m → eval_upto m sub' g x = eval sub g x) → nullable g = false →
  length (todo x) < m → length (todo x) < n → length (todo x) < n' →
  run_many_upto (eval_upto m sub' g) some n acc x = run_many (eval sub g) some n' acc x.
Proof.
  intros Hg Hn. revert n' some acc x. induction n as [|n IH]; intros n' some acc x Hx H1 H2; [lia|].
  destruct n' as [|n']; [lia|]. cbn [run_many_upto run_many]. rewrite Hg by done.
  pose proof (eval_moves sub Hmoves g (branch x)) as Hm. rewrite Hn in Hm.
  destruct (eval sub g (branch x)) as [[l|] y|y| |]; try done.
  destruct Hm as (us & Hus & _ & Hs). cbn in Hus. specialize (Hs ltac:(eauto) eq_refl).
  assert (length (todo y) < length (todo x)). { rewrite Hus, app_length. destruct us; [done|]. cbn. lia. }
  apply IH; cbn; lia.
Qed.
Lemma same_eval g : loops_ok g = true → ∀ x, length (todo x) < m → eval_upto m sub' g x = eval sub g x.
Proof.
  induction g as [s|t|f k|f g IH|gs IH|gs IH|g IH|g IH|g IH] using gexp_ind2; intros Hl x Hx; cbn [eval_upto eval].
  - done.
  - done.
  - by rewrite Hsub.
  - by rewrite (IH Hl x Hx).
  - cbn [loops_ok] in Hl. revert Hx. generalize true, (@nil text). revert x.
    induction IH as [|g gs Hg _ IH]; intros x first acc Hx; cbn [run_seq]; [done|].
    cbn [forallb] in Hl. apply andb_true_iff in Hl as [Hl1 Hl2]. rewrite (Hg Hl1 x Hx).
    pose proof (eval_moves sub Hmoves g x) as Hm. destruct (eval sub g x) as [[l|] y|y| |]; try done.
    apply moved_shorter in Hm. apply IH; [done|lia].
  - cbn [loops_ok] in Hl. revert Hx. generalize false. revert x.
    induction IH as [|g gs Hg _ IH]; intros x failed Hx; cbn [run_alt]; [done|].
    cbn [forallb] in Hl. apply andb_true_iff in Hl as [Hl1 Hl2]. rewrite (Hg Hl1 (branch x) Hx).
    destruct (eval sub g (branch x)) as [[l|] y|y| |]; try done; [by apply IH|].
    destruct (stop x y); [done|]. by apply IH.
  - unfold run_opt. by rewrite (IH Hl (branch x) Hx).
  - cbn [loops_ok] in Hl. apply andb_true_iff in Hl as [Hn Hl].
    apply same_many; [by apply IH|by apply negb_true_iff|done|done|lia].
  - cbn [loops_ok] in Hl. apply andb_true_iff in Hl as [Hn Hl].
    apply same_many; [by apply IH|by apply negb_true_iff|done|done|lia].
Qed.
End same.
Lemma same_struct eof n k ts : length ts < m → parse_struct_upto m eof n k ts = parse_struct eof n k ts.
Proof.
  revert k ts. induction n as [|n IH]; intros k ts Hts; [done|]. cbn [parse_struct_upto parse_struct].
  destruct (kind_facts k) as (Hl & _).
  by rewrite (same_eval _ _ (parse_struct_moves eof n) IH (grammar k) Hl (Ctx ts [] [])).
Qed.
Lemma same_parse s ts st : lex "" s = Ok (Lexed ts st) → length (elide ts) < m → parse_upto m s = parse s.
Proof.
  intros E H. unfold parse_upto, parse. rewrite E. unfold parse_tokens_upto, parse_tokens. by rewrite same_struct.
Qed.
End enough.

(*P C90_only_difference *)
(** The limit makes no difference but that the parser may panic. *)
Lemma only_difference m s :
  parse_upto m s = parse s ∨ parse_upto m s = Panic.
Proof.
  destruct (lex "" s) as [[ts st|ts p]| |] eqn:E.
  - rewrite <- (same_parse (m + S (length (elide ts))) s ts st E) by lia. apply cut_parse. lia.
  - left. unfold parse_upto, parse. by rewrite E.
  - left. unfold parse_upto, parse. by rewrite E.
  - left. unfold parse_upto, parse. by rewrite E.
Qed.
(*P C90_larger_limit *)
(** A file that does not meet the limit does not meet a larger one. *)
Lemma larger_iterations m m' s :
  m ≤ m' → parse_upto m s ≠ Panic → parse_upto m' s ≠ Panic.
Proof. intros Hm H. destruct (cut_parse m m' Hm s) as [E|E]; [by rewrite <- E|done]. Qed.
(*P C90_few_tokens *)
(** A file of fewer tokens than the limit does not meet it. *)
Lemma few_tokens m s ts st :
  lex "" s = Ok (Lexed ts st) → length (elide ts) < m → parse_upto m s = parse s.
Proof. exact (same_parse m s ts st). Qed.
Lemma tokens_bytes s ts st : lex "" s = Ok (Lexed ts st) → length (elide ts) ≤ length s.
Proof.
  intros H. apply p36 in H as (Hv & <-). unfold elide.
  transitivity (length ts); [apply (filter_length (λ t, kind_of_token t ≠ TWhitespace))|]. unfold tokens_of in Hv.
  induction Hv as [|t l Ht _ IH]; [done|]. cbn. rewrite app_length. destruct (value t); [done|]. cbn. lia.
Qed.
(*P C90_small_files *)
(** Parse never meets the limit of 1000000 in a file of less than 1000000 bytes. *)
Lemma small_files s :
  (N.of_nat (length s) < 1000000)%N → parse_upto max_iterations s = parse s.
Proof.
  intros Hs. destruct (lex "" s) as [[ts st|ts p]| |] eqn:E.
  - apply (same_parse _ s ts st E). apply tokens_bytes in E. unfold max_iterations. lia.
  - unfold parse_upto, parse. by rewrite E.
  - unfold parse_upto, parse. by rewrite E.
  - unfold parse_upto, parse. by rewrite E.
Qed.

(** ** A file that meets the limit *)
Definition feeds (ts : list token) : Prop := Forall (λ t, kind_of_token t = TLF ∧ value t = [lf]) ts.
Lemma feeds_lexed m p : ∃ ts p', lexes root p (replicate m lf) ts root p' [] ∧ length ts = m ∧ feeds ts.
Proof.
  revert p. induction m as [|m IH]; intros p.
  - exists [], p. split_and!; constructor.
  - destruct (IH (advance p [lf])) as (ts & p' & H & Hl & Hf). exists (Token TLF [lf] p :: ts), p'. split_and!.
    + cbn [replicate]. econstructor; [apply feed_step; by left|]. exact H.
    + cbn. lia.
    + by constructor.
Qed.
Lemma feeds_elide ts : feeds ts → elide ts = ts.
Proof.
  unfold elide. induction 1 as [|t ts [Ht _] _ IH]; [done|]. rewrite filter_cons, decide_True by (by rewrite Ht). by f_equal.
Qed.
Lemma feed_taken t ts b w : kind_of_token t = TLF → value t = [lf] →
  next_is (λ t, bool_decide (kind_of_token t = TLF)) (Ctx (t :: ts) b w) = Ret (Some [[lf]]) (Ctx ts b w).
Proof. intros Hk Hv. unfold next_is. cbn. rewrite bool_decide_true by done. by rewrite Hv. Qed.
Lemma feeds_many sub n some acc ts b w : feeds ts → length ts < n → some = false ∨ ts ≠ [] →
  ∃ l, run_many (eval sub (GCap FEmptyLine (GTok TLF))) some n acc (Ctx ts b w) =
    Ret (Some (acc ++ l)) (Ctx [] b (w ++ replicate (length ts) (FEmptyLine, Texts [[lf]]))).
Proof.
  intros H. revert n some acc w. induction H as [|t ts [Hk Hv] _ IH]; intros n some acc w Hn Hs.
  - destruct n as [|n]; [lia|]. exists []. destruct Hs as [->|E]; [|by destruct E]. cbn. unfold accept. cbn. by rewrite !app_nil_r.
  - destruct n as [|n]; [lia|]. cbn [run_many].
    assert (eval sub (GCap FEmptyLine (GTok TLF)) (branch (Ctx (t :: ts) b w)) = Ret (Some [[]]) (Ctx ts b [(FEmptyLine, Texts [[lf]])])) as ->.
    { cbn [eval]. unfold branch. cbn [todo assigned]. by rewrite feed_taken. }
    unfold accept. cbn [todo assigned waiting].
    destruct (IH n false (acc ++ [[]]) (w ++ [(FEmptyLine, Texts [[lf]])])) as [l ->]; [cbn in Hn; lia|by left|].
    exists ([[]] ++ l). by rewrite <- !(assoc_L (++)).
Qed.
Lemma feeds_stored n fs u : assoc FEmptyLine fs = Some (VStr u) → ∃ fs',
  store_all KRootItem fs (replicate n (FEmptyLine, Texts [[lf]])) = Stored fs'.
Proof.
  revert fs u. induction n as [|n IH]; intros fs u Hf; cbn [replicate store_all]; [by eexists|].
  cbn [store]. unfold update. rewrite Hf. eapply IH. by eapply assoc_set_same.
Qed.
Lemma feeds_item eof n ts : feeds ts → ts ≠ [] → ∃ t, parse_struct eof (S n) KRootItem ts = PNode t [].
Proof.
  intros Hf Hn. cbn [parse_struct grammar]. unfold g_empty_line.
  match goal with |- context [eval ?sub (GAlt (?g :: ?gs)) ?x] =>
    assert (∃ l, eval sub (GAlt (g :: gs)) x = Ret (Some l) (Ctx [] [] (replicate (length ts) (FEmptyLine, Texts [[lf]])))) as [l ->] end.
  { cbn [eval run_alt]. unfold branch at 1. cbn [todo assigned waiting]. 
    destruct (feeds_many (parse_struct eof n) (S (length ts)) true [] ts [] [] Hf) as [l E]; [lia|by right|].
    cbn [eval] in E. change (branch (Ctx ts [] [])) with (Ctx ts [] []). rewrite E. by eexists. }
  cbn [assigned waiting todo app].
  destruct (feeds_stored (length ts) (fields (zero no_pos KRootItem)) "") as [fs ->]; [reflexivity|]. by eexists.
Qed.
Lemma feeds_accepted m : ∃ r, parse (replicate m lf) = Ok (Some r).
Proof.
  destruct (feeds_lexed m (start_pos "")) as (ts & p & H & Hl & Hf). unfold parse.
  rewrite (lexes_whole _ _ _ _ _ H), feeds_elide by done. unfold parse_tokens.
  set (eof := advance _ _). unfold struct_fuel. destruct (60 * S (length ts)) as [|[|[|n]]] eqn:En; [lia|lia|lia|].
  destruct (decide (ts = [])) as [->|Hn]; [by eexists|].
  destruct (feeds_item eof (S n) ts Hf Hn) as [t Ht].
  remember (S (S n)) as k eqn:Ek. cbn [parse_struct grammar eval todo].
  destruct (length ts) as [|len] eqn:El; [by destruct ts|].
  cbn [run_many]. cbn [eval]. unfold branch at 1. cbn [todo]. rewrite Ht.
  cbn [assigned waiting app accept todo branch]. subst k. by eexists.
Qed.
Lemma feeds_many_upto m sub n some acc ts b w : feeds ts → n ≤ length ts →
  run_many_upto (eval_upto m sub (GCap FEmptyLine (GTok TLF))) some n acc (Ctx ts b w) = Crash.
Proof.
  intros H. revert n some acc w. induction H as [|t ts [Hk Hv] _ IH]; intros n some acc w Hn; (destruct n as [|n]; [done|]).
  - cbn in Hn. lia.
  - cbn [run_many_upto].
    assert (eval_upto m sub (GCap FEmptyLine (GTok TLF)) (branch (Ctx (t :: ts) b w)) = Ret (Some [[]]) (Ctx ts b [(FEmptyLine, Texts [[lf]])])) as ->.
    { cbn [eval_upto]. unfold branch. cbn [todo assigned]. by rewrite feed_taken. }
    unfold accept. cbn [todo assigned waiting]. apply IH. cbn in Hn. lia.
Qed.
Lemma feeds_met m : parse_upto m (replicate m lf) = Panic.
Proof.
  destruct (feeds_lexed m (start_pos "")) as (ts & p & H & Hl & Hf). unfold parse_upto.
  rewrite (lexes_whole _ _ _ _ _ H), feeds_elide by done. unfold parse_tokens_upto.
  set (eof := advance _ _). unfold struct_fuel. destruct (60 * S (length ts)) as [|[|n]] eqn:En; [lia|lia|].
  set (k := S n).
  assert (parse_struct_upto m eof k KRootItem ts = PCrash) as E.
  { unfold k. cbn [parse_struct_upto grammar]. unfold g_empty_line. cbn [eval_upto run_alt]. unfold branch at 1. cbn [todo assigned waiting].
    pose proof (feeds_many_upto m (parse_struct_upto m eof n) m true [] ts [] [] Hf ltac:(lia)) as E. cbn [eval_upto] in E. change (branch (Ctx ts [] [])) with (Ctx ts [] []). by rewrite E. }
  assert (∀ q, run_many_upto (eval_upto m (parse_struct_upto m eof k) (GSub FItems KRootItem)) false q [] (Ctx ts [] []) = Crash) as Q.
  { intros [|q]; [done|]. cbn [run_many_upto eval_upto]. unfold branch at 1. cbn [todo]. by rewrite E. }
  change (parse_struct_upto m eof (S k) KAST ts) with
    (match eval_upto m (parse_struct_upto m eof k) (GMany (GSub FItems KRootItem)) (Ctx ts [] []) with
     | Ret (Some _) y => match store_all KAST (fields (zero no_pos KAST)) (assigned y ++ waiting y) with
                         | Stored fs => PNode (T (position eof KAST ts) KAST fs) (todo y) | Refused => PErr (todo y) | Crashed => PCrash end
     | Ret None _ => PNone | Err y => PErr (todo y) | Crash => PCrash | NoFuel => PNoFuel end).
  specialize (Q m). cbn [eval_upto] in Q |- *. by rewrite Q.
Qed.
(*P C90_limit_is_met *)
(** A file of as many empty lines as the limit meets it. *)
Lemma limit_is_reached m :
  parse_upto m (replicate m lf) = Panic ∧ ∃ r, parse (replicate m lf) = Ok (Some r).
Proof. split; [apply feeds_met|apply feeds_accepted]. Qed.
