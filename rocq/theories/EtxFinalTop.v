(** * A newline at the end of a file *)
From stdpp Require Import base list option strings.
From Coq Require Import Ascii Lia.
From Verif Require Import GoBase EtxAst EtxHeap EtxHeapSpec EtxText EtxLex EtxLexSpec EtxLexFacts EtxLexNest EtxLexString EtxUtil EtxGram EtxParse EtxParseBase
  EtxParseSpec EtxParsePropProofs EtxRelex EtxLook EtxLookProofs EtxFinalSpec EtxFinalLex EtxFinalNum EtxFinal.

Lemma elide_newline ts p : elide (ts ++ [Token TLF [lf] p]) = elide ts ++ [Token TLF [lf] p].
Proof. unfold elide. by rewrite filter_app. Qed.

(*P C89_same_tokens *)
(** The lexer reads the newline as one more token, and all else as before. *)
Lemma same_tokens s ts :
  lex "" s = Ok (Lexed ts [(SRoot, [])]) → ¬ ends_open ts →
  ∃ p, lex "" (s ++ [lf]) = Ok (Lexed (ts ++ [Token TLF [lf] p]) [(SRoot, [])]).
Proof. apply lex_newline. Qed.
(*P C89_open_end_refused *)
(** A file that ends with << and a word is accepted with no newline at its end, if at all. *)
Lemma open_end_refused s ts st :
  lex "" s = Ok (Lexed ts st) → ends_open ts → ∀ r, parse (s ++ [lf]) ≠ Ok (Some r).
Proof.
  intros H He r Hr. destruct (lex_opens _ _ _ H He) as (ts' & u & st' & E). apply p61_closed in Hr as (ts2 & E2 & _). congruence.
Qed.
(*P C74_final_newline_partial *)
(** C74 for the files that the parser also accepts with a lookahead of one token less, and that
    do not end with << and a word. *)
Lemma final_newline s r ts st :
  parse_at 49 s = Ok (Some r) → lex "" s = Ok (Lexed ts st) → ¬ ends_open ts → ∃ r', parse (s ++ [lf]) = Ok (Some r').
Proof.
  intros H E Hn. pose proof (larger_limit 49 50 s r ltac:(lia) H) as Hp. rewrite parse_is_at in Hp.
  pose proof (accepted_fine _ _ _ _ Hp E) as Hf. pose proof (p61_closed _ _ Hp) as (ts' & E' & _). rewrite E in E'. injection E' as <- ->.
  destruct (lex_newline s ts E Hn) as [p En]. unfold parse. rewrite En, elide_newline.
  unfold parse_at in H. rewrite E in H. by eapply tokens_accepted.
Qed.
(*P C89_final_newline *)
(** For these files, the newline does no harm exactly if they do not end with << and a word. *)
Lemma final_newline_iff s r ts st :
  parse_at 49 s = Ok (Some r) → lex "" s = Ok (Lexed ts st) →
  (∃ r', parse (s ++ [lf]) = Ok (Some r')) ↔ ¬ ends_open ts.
Proof.
  intros H E. split; [|by eapply final_newline]. intros [r' Hr] He. by eapply open_end_refused.
Qed.
(*P C89_short_files *)
(** All files of up to 49 tokens are among them. *)
Lemma short_final_newline s r ts st :
  parse s = Ok (Some r) → lex "" s = Ok (Lexed ts st) → length (elide ts) <= 49 →
  (∃ r', parse (s ++ [lf]) = Ok (Some r')) ↔ ¬ ends_open ts.
Proof.
  intros H E Hl. apply (final_newline_iff s r ts st); [|done]. rewrite <- H, <- parse_is_at. symmetry. eapply short_files; [exact E|done|lia].
Qed.
Lemma newline_closes ts p : ¬ ends_open (ts ++ [Token TLF [lf] p]).
Proof.
  intros (us & t & vs & E & Hk & dash & u & Hu & Hv). destruct vs as [|v vs _] using rev_ind.
  - destruct Hu as [Hu _]. destruct dash, u; done.
  - rewrite app_comm_cons, (assoc_L (++)) in E. apply app_inj_tail in E as [_ <-]. unfold text_of in Hv. rewrite map_app, concat_app in Hv. cbn [map concat value] in Hv.
    assert (lf ∈ (if dash then chars "-" else []) ++ u) as Hin by (rewrite <- Hv; apply elem_of_app; right; left).
    apply elem_of_app in Hin as [Hin|Hin]; [|by apply (no_lf u)]. destruct dash; [by apply elem_of_list_singleton in Hin|by apply elem_of_nil in Hin].
Qed.
(*P C89_more_newlines *)
(** Several newlines. *)
Lemma more_newlines n s r ts st :
  parse s = Ok (Some r) → lex "" s = Ok (Lexed ts st) → ¬ ends_open ts → length (elide ts) + n <= 50 →
  ∃ r', parse (s ++ replicate n lf) = Ok (Some r').
Proof.
  revert s r ts. induction n as [|n IH]; intros s r ts H E Hn Hl; [cbn; rewrite app_nil_r; eauto|].
  destruct (proj2 (short_final_newline s r ts st H E ltac:(lia)) Hn) as [r1 H1].
  pose proof (p61_closed _ _ H) as (ts' & E' & _). rewrite E in E'. injection E' as <- ->.
  destruct (lex_newline s ts E Hn) as [p En].
  change (replicate (S n) lf) with ([lf] ++ replicate n lf). rewrite (assoc_L (++)). eapply IH; [exact H1|exact En|apply newline_closes|].
  rewrite elide_newline, app_length. cbn. lia.
Qed.

(** ** A check, for the examples *)
Definition wordb (u : text) : bool := negb (bool_decide (u = [])) && forallb is_word u.
Definition open_tailb (v : text) : bool :=
  wordb v || match v with c :: u => Ascii.eqb c "-" && wordb u | [] => false end.
Fixpoint ends_openb (ts : list token) : bool :=
  match ts with
  | [] => false
  | t :: ts => bool_decide (kind_of_token t = TOpBitwiseShiftLeft) && open_tailb (text_of ts) || ends_openb ts
  end.
Lemma wordb_true u : word u → wordb u = true.
Proof.
  intros [H1 H2]. unfold wordb. rewrite bool_decide_eq_false_2 by done. cbn. apply forallb_forall. intros c Hc%elem_of_list_In.
  rewrite Forall_forall in H2. by apply H2.
Qed.
Lemma ends_openb_true ts : ends_open ts → ends_openb ts = true.
Proof.
  intros (us & t & vs & -> & Hk & dash & u & Hu & Hv). induction us as [|a us IH]; cbn [app ends_openb]; [|by rewrite IH, orb_true_r].
  apply wordb_true in Hu. rewrite Hv. rewrite bool_decide_eq_true_2 by done. unfold open_tailb. destruct dash; cbn [app chars String.list_ascii_of_string].
  - rewrite Hu. cbn. by rewrite orb_true_r.
  - by rewrite Hu.
Qed.
Definition says_yes (o : res (option ast)) : bool := match o with Ok (Some _) => true | _ => false end.
Definition ends_open_file (s : text) : option bool :=
  match lex "" s with Ok (Lexed ts _) => Some (ends_openb ts) | _ => None end.
Lemma example_met s :
  says_yes (parse_at 49 s) = true → ends_open_file s = Some false →
  ∃ r ts st, parse_at 49 s = Ok (Some r) ∧ lex "" s = Ok (Lexed ts st) ∧ ¬ ends_open ts.
Proof.
  unfold says_yes, ends_open_file. destruct (parse_at 49 s) as [[r|]| |]; try done. destruct (lex "" s) as [[ts st|]| |]; try done.
  intros _ [= H]. exists r, ts, st. split; [done|]. split; [done|]. intros He%ends_openb_true. congruence.
Qed.
