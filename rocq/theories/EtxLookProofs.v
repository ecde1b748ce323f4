(** * Proofs about the lookahead limit *)
From stdpp Require Import base list option strings.
From Coq Require Import Ascii Lia.
From Verif Require Import GoBase EtxAst EtxHeap EtxHeapSpec EtxText EtxLex EtxUtil EtxGram EtxParse EtxParseBase EtxLook.

(*P C79_limit_of_the_parser *)
(** The parser is the one with limit 50. *)
Lemma parse_is_at s :
  parse_at 50 s = parse s.
Proof. reflexivity. Qed.

Section limits.
Context (n n' : nat) (Hn : n <= n').
(** The smaller limit either makes no difference or is hit; then more than [n] tokens
    have been read. *)
Definition shrinks (x : ctx) (r : result) : Prop :=
  match r with Ret _ y | Err y => length (todo y) <= length (todo x) | _ => True end.
Definition hit (x : ctx) (r : result) : Prop := ∃ y, r = Err y ∧ n < length (todo x) - length (todo y).
Definition close (x : ctx) (r r' : result) : Prop := (r = r' ∧ shrinks x r) ∨ hit x r.
Definition close_sub (sub sub' : kind → list token → parsed) : Prop := ∀ k ts,
  (sub k ts = sub' k ts ∧ match sub k ts with PNode _ us | PErr us => length us <= length ts | _ => True end) ∨
  ∃ us, sub k ts = PErr us ∧ n < length ts - length us.

Lemma close_later x y r r' : length (todo y) <= length (todo x) → close y r r' → close x r r'.
Proof.
  intros H [[-> Hs]|(z & -> & Hz)]; [left|right].
  - split; [done|]. destruct r'; cbn in *; lia.
  - exists z. split; [done|]. lia.
Qed.
Lemma close_refl x r : shrinks x r → close x r r.
Proof. by left. Qed.
Lemma close_seq ev ev' gs : Forall (λ g, ∀ x, close x (ev g x) (ev' g x)) gs →
  ∀ b acc x, close x (run_seq ev b gs acc x) (run_seq ev' b gs acc x).
Proof.
  induction 1 as [|g gs Hg _ IH]; intros b acc x; cbn [run_seq]; [apply close_refl; cbn; lia|].
  destruct (Hg x) as [[<- Hs]|(y & -> & Hy)]; [|right; by exists y].
  destruct (ev g x) as [[l|] y|y| |]; cbn in Hs.
  - eapply close_later; [exact Hs|]. apply IH.
  - destruct b; by apply close_refl.
  - by apply close_refl.
  - by apply close_refl.
  - by apply close_refl.
Qed.
Lemma stop_more x y : stop_at n x y = false → stop_at n' x y = false.
Proof. unfold stop_at. rewrite !Nat.ltb_ge. lia. Qed.
Lemma stop_hit x y : stop_at n x y = true → hit x (Err (accept x y)).
Proof. unfold stop_at. rewrite Nat.ltb_lt. intros H. by exists (accept x y). Qed.
Lemma close_alt ev ev' gs : Forall (λ g, ∀ x, close x (ev g x) (ev' g x)) gs →
  ∀ b x, close x (run_alt_at n ev b gs x) (run_alt_at n' ev' b gs x).
Proof.
  induction 1 as [|g gs Hg _ IH]; intros b x; cbn [run_alt_at]; [apply close_refl; destruct b; cbn; lia|].
  destruct (Hg (branch x)) as [[<- Hs]|(y & -> & Hy)].
  - destruct (ev g (branch x)) as [[l|] y|y| |]; cbn in Hs; try (by apply close_refl).
    + exact (close_later x (drop_branch x y) _ _ (le_n _) (IH _ _)).
    + destruct (stop_at n x y) eqn:E; [right; by apply stop_hit|]. rewrite (stop_more _ _ E).
      exact (close_later x (drop_branch x y) _ _ (le_n _) (IH _ _)).
  - assert (stop_at n x y = true) as E by (by apply Nat.ltb_lt). rewrite E. right. by apply stop_hit.
Qed.
Lemma close_opt ev ev' : (∀ x, close x (ev x) (ev' x)) → ∀ x, close x (run_opt_at n ev x) (run_opt_at n' ev' x).
Proof.
  intros Hg x. unfold run_opt_at. destruct (Hg (branch x)) as [[<- Hs]|(y & -> & Hy)].
  - destruct (ev (branch x)) as [o y|y| |]; cbn in Hs; try (by apply close_refl).
    destruct (stop_at n x y) eqn:E; [right; by apply stop_hit|]. rewrite (stop_more _ _ E). apply close_refl; cbn; lia.
  - assert (stop_at n x y = true) as E by (by apply Nat.ltb_lt). rewrite E. right. by apply stop_hit.
Qed.
Lemma close_many ev ev' : (∀ x, close x (ev x) (ev' x)) → ∀ m b acc x, close x (run_many_at n ev b m acc x) (run_many_at n' ev' b m acc x).
Proof.
  intros Hg m. induction m as [|m IH]; intros b acc x; cbn [run_many_at]; [by apply close_refl|].
  destruct (Hg (branch x)) as [[<- Hs]|(y & -> & Hy)].
  - destruct (ev (branch x)) as [[l|] y|y| |]; cbn in Hs; try (by apply close_refl).
    + eapply close_later; [|apply IH]. exact Hs.
    + destruct b; by apply close_refl.
    + destruct (stop_at n x y) eqn:E; [right; by apply stop_hit|]. rewrite (stop_more _ _ E). destruct b; apply close_refl; cbn; lia.
  - assert (stop_at n x y = true) as E by (by apply Nat.ltb_lt). rewrite E. right. by apply stop_hit.
Qed.
Lemma next_shrinks p x : shrinks x (next_is p x).
Proof. unfold next_is. destruct x as [[|t ts] a w]; cbn; [lia|]. destruct (p t); cbn; lia. Qed.
Lemma close_eval sub sub' g : close_sub sub sub' → ∀ x, close x (eval_at n sub g x) (eval_at n' sub' g x).
Proof.
  intros Hs. induction g as [s|t|f k|f g IH|gs IH|gs IH|g IH|g IH|g IH] using gexp_ind2; intros x; cbn [eval_at].
  - apply close_refl, next_shrinks.
  - apply close_refl, next_shrinks.
  - destruct (Hs k (todo x)) as [[<- H]|(us & -> & H)].
    + apply close_refl. destruct (sub k (todo x)); cbn in *; try done; lia.
    + right. by eexists.
  - destruct (IH x) as [[<- H]|(y & -> & Hy)]; [|right; by exists y]. apply close_refl. by destruct (eval_at n sub g x) as [[l|] y|y| |].
  - by apply close_seq.
  - by apply close_alt.
  - by apply close_opt.
  - by apply close_many.
  - by apply close_many.
Qed.
Lemma close_struct eof m : close_sub (parse_struct_at n eof m) (parse_struct_at n' eof m).
Proof.
  induction m as [|m IH]; intros k ts; cbn [parse_struct_at]; [by left|].
  destruct (close_eval _ _ (grammar k) IH (Ctx ts [] [])) as [[<- H]|(y & -> & Hy)].
  - left. split; [done|]. destruct (eval_at n _ _ _) as [[l|] y|y| |]; cbn in H; try done. by destruct (store_all _ _ _).
  - right. by exists (todo y).
Qed.
Lemma close_parse s : parse_at n s = parse_at n' s ∨ parse_at n s = Ok None ∧ ∃ ts st, lex "" s = Ok (Lexed ts st) ∧ n < length (elide ts).
Proof.
  unfold parse_at, parse_tokens_at. destruct (lex "" s) as [[ts st|ts p]| |]; [|by left..].
  destruct (close_struct (advance (start_pos "") s) (struct_fuel (elide ts)) KAST (elide ts)) as [[<- _]|(us & -> & H)]; [by left|].
  right. split; [done|]. exists ts, st. split; [done|]. lia.
Qed.
End limits.

(*P C79_larger_limit *)
(** A file that is accepted is accepted with every larger limit, and the tree is the same. *)
Lemma larger_limit n n' s r :
  n <= n' → parse_at n s = Ok (Some r) → parse_at n' s = Ok (Some r).
Proof. intros H E. destruct (close_parse n n' H s) as [<-|[E' _]]; [done|]. by rewrite E in E'. Qed.
(*P C79_short_files *)
(** The limit does not matter to files of no more tokens than the limit. *)
Lemma short_files n n' s ts st :
  lex "" s = Ok (Lexed ts st) → length (elide ts) <= n → n <= n' → parse_at n' s = parse_at n s.
Proof. intros E H Hn. destruct (close_parse n n' Hn s) as [<-|(_ & ts' & st' & E' & H')]; [done|]. rewrite E in E'. injection E' as <- <-. lia. Qed.
(*P C79_limit_is_met *)
(** Some files are rejected only because of the limit. *)
Lemma limit_is_met :
  ∃ s, parse s = Ok None ∧ ∃ r, parse_at 51 s = Ok (Some r).
Proof.
  exists (chars "type a enum {" ++ [lf] ++ concat (replicate 23 (chars "//" ++ [lf])) ++ chars "b = 1" ++ [lf] ++ chars "}").
  split; [vm_compute; reflexivity|].
  assert (∀ o : res (option ast), match o with Ok (Some _) => true | _ => false end = true → ∃ r, o = Ok (Some r)) as H.
  { intros [[r|]| |]; try done. by exists r. }
  apply H. vm_compute. reflexivity.
Qed.
