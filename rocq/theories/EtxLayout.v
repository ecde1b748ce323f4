(** * Layout

    What the parser makes of tokens does not depend on their positions, on the kind of
    quotes, or on how a number is written. *)
From stdpp Require Import base list option strings.
From Coq Require Import Ascii Lia.
From Verif Require Import GoBase EtxAst EtxHeap EtxHeapSpec EtxText EtxLex EtxUtil EtxGram EtxParse EtxParseBase
  EtxParsePropProofs EtxFormat EtxFormatSpec.

(** ** Tokens that mean the same *)
Inductive alike (t t' : token) : Prop :=
| alike_same : kind_of_token t = kind_of_token t' → value t = value t' → alike t t'
| alike_number src n :
    kind_of_token t = TNumber → kind_of_token t' = TNumber →
    capture_number (value t) = Some (src, n) → capture_number (value t') = Some (src, n) → alike t t'
| alike_quote k q q' :
    k ∈ [TString; TStringEnd] → kind_of_token t = k → kind_of_token t' = k →
    value t = [q] → value t' = [q'] → is_quote q = true → is_quote q' = true → alike t t'.
Lemma alike_kind t t' : alike t t' → kind_of_token t = kind_of_token t'.
Proof. by intros [|src n -> ->|k q q' _ -> ->]. Qed.

(** ** What is compared *)
Definition alike_captured (k : kind) (f : fld) (c c' : captured) : Prop :=
  match c, c' with
  | Texts l, Texts l' =>
      l = l' ∨ k = KValue ∧ f = FNumber ∧
        ∃ v v' x, l = [v] ∧ l' = [v'] ∧ capture_number v = Some x ∧ capture_number v' = Some x
  | Struct t, Struct t' => unplaced t = unplaced t'
  | _, _ => False
  end.
Definition alike_capture (k : kind) (c c' : capture) : Prop := c.1 = c'.1 ∧ alike_captured k c.1 c.2 c'.2.
Record alike_ctx (k : kind) (x x' : ctx) : Prop := AlikeCtx {
  ac_todo : Forall2 alike (todo x) (todo x');
  ac_assigned : Forall2 (alike_capture k) (assigned x) (assigned x');
  ac_waiting : Forall2 (alike_capture k) (waiting x) (waiting x') }.
Inductive alike_parsed : parsed → parsed → Prop :=
| ap_node t t' ts ts' : unplaced t = unplaced t' → Forall2 alike ts ts' → alike_parsed (PNode t ts) (PNode t' ts')
| ap_none : alike_parsed PNone PNone
| ap_err ts ts' : Forall2 alike ts ts' → alike_parsed (PErr ts) (PErr ts')
| ap_crash : alike_parsed PCrash PCrash
| ap_fuel : alike_parsed PNoFuel PNoFuel.
Inductive alike_result (k : kind) (R : list text → list text → Prop) : result → result → Prop :=
| ar_some l l' x x' : R l l' → alike_ctx k x x' → alike_result k R (Ret (Some l) x) (Ret (Some l') x')
| ar_none x x' : alike_ctx k x x' → alike_result k R (Ret None x) (Ret None x')
| ar_err x x' : alike_ctx k x x' → alike_result k R (Err x) (Err x')
| ar_crash : alike_result k R Crash Crash
| ar_fuel : alike_result k R NoFuel NoFuel.
Lemma alike_weaken k (R Q : list text → list text → Prop) r r' :
  (∀ l l', R l l' → Q l l') → alike_result k R r r' → alike_result k Q r r'.
Proof. intros H []; constructor; auto. Qed.

(** ** The grammar *)
(** No number and no quote: the texts are the same. *)
Fixpoint textual (g : gexp) : bool :=
  match g with
  | GLit _ | GSub _ _ => true
  | GTok k => negb (bool_decide (k ∈ [TNumber; TString; TStringEnd]))
  | GCap _ g => true
  | GOpt g | GMany g | GSome g => textual g
  | GSeq gs | GAlt gs => forallb textual gs
  end.
Definition literal_ok (s : string) : bool :=
  match capture_number (chars s) with Some _ => false | None => true end &&
  match chars s with [c] => negb (is_quote c) | _ => true end.
Fixpoint caps_ok (k : kind) (g : gexp) : bool :=
  match g with
  | GLit s => literal_ok s
  | GTok _ | GSub _ _ => true
  | GCap f g =>
      caps_ok k g && (textual g || match k, f, g with KValue, FNumber, GTok TNumber => true | _, _, _ => false end)
  | GOpt g | GMany g | GSome g => caps_ok k g
  | GSeq gs | GAlt gs => forallb (caps_ok k) gs
  end.
Lemma grammar_caps k : caps_ok k (grammar k) = true.
Proof. destruct k; vm_compute; reflexivity. Qed.

(** ** Assignment *)
Definition unplaced_val (v : aval) : aval := vmap (λ _, no_pos) id v.
Definition unplaced_fields (fs : list (fld * aval)) : list (fld * aval) := map (λ p, (p.1, unplaced_val p.2)) fs.
Definition unplaced_opt (o : option ast) : option ast := match o with Some t => Some (unplaced t) | None => None end.
Inductive alike_stored : stored → stored → Prop :=
| as_stored fs fs' : unplaced_fields fs = unplaced_fields fs' → alike_stored (Stored fs) (Stored fs')
| as_refused : alike_stored Refused Refused
| as_crashed : alike_stored Crashed Crashed.
Lemma assoc_unplaced f fs : assoc f (unplaced_fields fs) = unplaced_val <$> assoc f fs.
Proof. induction fs as [|[f' v] fs IH]; [done|]. cbn. by destruct (decide (f = f')). Qed.
Lemma set_unplaced f v fs : unplaced_fields (set_field f v fs) = set_field f (unplaced_val v) (unplaced_fields fs).
Proof. induction fs as [|[f' w] fs IH]; [done|]. cbn. destruct (decide (f = f')); [done|]. cbn. by f_equal. Qed.
Lemma update_alike f (v v' : aval → option aval) fs fs' :
  unplaced_fields fs = unplaced_fields fs' →
  (∀ old old', unplaced_val old = unplaced_val old' → unplaced_val <$> v old = unplaced_val <$> v' old') →
  alike_stored (update f v fs) (update f v' fs').
Proof.
  intros Hf H. unfold update. pose proof (f_equal (assoc f) Hf) as Ha. rewrite !assoc_unplaced in Ha.
  destruct (assoc f fs) as [old|], (assoc f fs') as [old'|]; cbn in Ha; try done; [|constructor].
  injection Ha as Ha. apply H in Ha. destruct (v old) as [x|], (v' old') as [x'|]; cbn in Ha; try done; [|constructor].
  injection Ha as Ha. constructor. by rewrite !set_unplaced, Ha, Hf.
Qed.
Lemma store_alike k fs fs' c c' :
  unplaced_fields fs = unplaced_fields fs' → alike_capture k c c' → alike_stored (store k fs c) (store k fs' c').
Proof.
  intros Hf [Hc Ha]. destruct c as [f c], c' as [f' c']. cbn [fst snd] in *. subst f'.
  assert (Hset : ∀ f v, alike_stored (Stored (set_field f v fs)) (Stored (set_field f v fs'))).
  { intros f0 v. constructor. by rewrite !set_unplaced, Hf. }
  destruct c as [l|t], c' as [l'|t']; try done.
  - destruct Ha as [<-|(-> & -> & v & v' & [src n] & -> & -> & Hv & Hv')].
    + assert (Hp : alike_stored (update f (λ old,
            match old with
            | VStr s => Some (VStr (s +:+ str (concat l)))
            | VBool _ => Some (VBool true)
            | VStrs o => Some (VStrs (Some (tt, match o with Some (_, l') => l' | None => [] end ++ map str l)))
            | _ => None
            end) fs) (update f (λ old,
            match old with
            | VStr s => Some (VStr (s +:+ str (concat l)))
            | VBool _ => Some (VBool true)
            | VStrs o => Some (VStrs (Some (tt, match o with Some (_, l') => l' | None => [] end ++ map str l)))
            | _ => None
            end) fs')).
      { apply update_alike; [done|].
        intros [| |[[[] m]|]| | | |] [| |[[[] m']|]| | | |] E; try done; cbn in *; congruence. }
      destruct k; try exact Hp; destruct f; try exact Hp; cbn [store].
      * apply Hset.
      * destruct (capture_number _) as [[src v]|]; [apply Hset|constructor].
      * destruct (capture_delimiter _) as [[[|] u]|]; [| |constructor]; constructor; by rewrite !set_unplaced, Hf.
    + cbn [store]. change (default [] (head [v])) with v. change (default [] (head [v'])) with v'. rewrite Hv, Hv'. apply Hset.
  - cbn [store]. apply update_alike; [done|]. cbn in Ha.
    assert (E0 : ∀ x, tmap (λ _, no_pos) id x = unplaced x) by done.
    intros [| | | |o|c|[[[] m]|]] [| | | |o'|c'|[[[] m']|]] E; try done; cbn in *; rewrite ?E0, ?Ha; try done.
    injection E as E. do 4 f_equal. rewrite !map_app, E. cbn. by rewrite !E0, Ha.
Qed.
Lemma store_all_alike k cs cs' :
  Forall2 (alike_capture k) cs cs' →
  ∀ fs fs', unplaced_fields fs = unplaced_fields fs' → alike_stored (store_all k fs cs) (store_all k fs' cs').
Proof.
  induction 1 as [|c c' cs cs' H _ IH]; intros fs fs' Hf; [by constructor|]. cbn [store_all].
  destruct (store_alike k fs fs' c c' Hf H); [by apply IH|constructor|constructor].
Qed.

(** ** Expressions *)
Section kinds.
Context (k : kind).
Notation alike_ctx := (alike_ctx k).
Notation alike_result := (alike_result k).
Lemma alike_branch x x' : alike_ctx x x' → alike_ctx (branch x) (branch x').
Proof. intros [H1 H2 H3]. constructor; [done|done|constructor]. Qed.
Lemma alike_accept x x' y y' : alike_ctx x x' → alike_ctx y y' → alike_ctx (accept x y) (accept x' y').
Proof. intros [H1 H2 H3] [H4 H5 H6]. constructor; [done|done|]. by apply Forall2_app. Qed.
Lemma alike_stop x x' y y' : alike_ctx x x' → alike_ctx y y' → stop x y = stop x' y'.
Proof. intros [H1 _ _] [H2 _ _]. unfold stop. by rewrite (Forall2_length _ _ _ H1), (Forall2_length _ _ _ H2). Qed.
Lemma alike_drop x x' y y' : alike_ctx x x' → alike_ctx y y' → alike_ctx (drop_branch x y) (drop_branch x' y').
Proof. intros [H1 H2 H3] [H4 H5 H6]. by constructor. Qed.
Lemma next_is_alike (R : list text → list text → Prop) p p' x x' :
  alike_ctx x x' → (∀ t t', alike t t' → p t = p' t') → (∀ t t', alike t t' → p t = true → R [value t] [value t']) →
  alike_result R (next_is p x) (next_is p' x').
Proof.
  intros Hx H HR. pose proof Hx as [H1 H2 H3]. unfold next_is. destruct H1 as [|t t' ts ts' Ht Hts]; [by constructor|].
  rewrite <- (H t t' Ht). destruct (p t) eqn:E; [|by constructor]. constructor; [by apply HR|by constructor].
Qed.
Definition same_length (l l' : list text) : Prop := length l = length l'.
(** The texts, as far as they are known to be the same. *)
Definition same_for (g : gexp) (l l' : list text) : Prop :=
  length l = length l' ∧ (textual g = true → l = l').
Lemma run_seq_alike ev ev' gs :
  Forall (λ g, ∀ x x', alike_ctx x x' → alike_result (same_for g) (ev g x) (ev' g x')) gs →
  ∀ first acc acc' x x', alike_ctx x x' → length acc = length acc' →
  alike_result (λ l l', length l = length l' ∧ (acc = acc' → forallb textual gs = true → l = l'))
    (run_seq ev first gs acc x) (run_seq ev' first gs acc' x').
Proof.
  induction 1 as [|g gs H _ IH]; intros first acc acc' x x' Hx Hl; cbn [run_seq].
  - destruct acc as [|u acc], acc' as [|u' acc']; try done; constructor; try done.
  - destruct (H x x' Hx) as [l l' y y' [H1 H2] Hy|y y' Hy|y y' Hy| |]; try constructor; try done.
    + eapply alike_weaken; [|apply IH; [done|by rewrite !app_length, Hl, H1]].
      intros m m' [H3 H4]. split; [done|]. cbn [forallb]. intros -> [E1 E2]%andb_true_iff. apply H4; [|done]. by rewrite H2.
    + by destruct first; constructor.
Qed.
Lemma run_alt_alike ev ev' gs :
  Forall (λ g, ∀ x x', alike_ctx x x' → alike_result (same_for g) (ev g x) (ev' g x')) gs →
  ∀ failed x x', alike_ctx x x' →
  alike_result (same_for (GAlt gs)) (run_alt ev failed gs x) (run_alt ev' failed gs x').
Proof.
  induction 1 as [|g gs H _ IH]; intros failed x x' Hx; cbn [run_alt]; [by destruct failed; constructor|].
  assert (Hw : ∀ l l', same_for (GAlt gs) l l' → same_for (GAlt (g :: gs)) l l').
  { intros l l' [H1 H2]. split; [done|]. cbn. intros [_ E]%andb_true_iff. by apply H2. }
  destruct (H _ _ (alike_branch _ _ Hx)) as [l l' y y' [H1 H2] Hy|y y' Hy|y y' Hy| |]; try (constructor; done).
  - constructor; [|by apply alike_accept]. split; [done|]. cbn. intros [E _]%andb_true_iff. by apply H2.
  - eapply alike_weaken; [exact Hw|]. by apply IH, alike_drop.
  - rewrite (alike_stop _ _ _ _ Hx Hy). destruct (stop x' y'); [constructor; by apply alike_accept|].
    eapply alike_weaken; [exact Hw|]. by apply IH, alike_drop.
Qed.
Lemma run_opt_alike g ev ev' x x' :
  (∀ x x', alike_ctx x x' → alike_result (same_for g) (ev x) (ev' x')) → alike_ctx x x' →
  alike_result (same_for g) (run_opt ev x) (run_opt ev' x').
Proof.
  intros H Hx. unfold run_opt.
  destruct (H _ _ (alike_branch _ _ Hx)) as [l l' y y' H1 Hy|y y' Hy|y y' Hy| |]; try (constructor; done).
  - constructor; [done|by apply alike_accept].
  - constructor; [done|by apply alike_accept].
  - rewrite (alike_stop _ _ _ _ Hx Hy). destruct (stop x' y'); constructor; [by apply alike_accept|done|by apply alike_drop].
Qed.
Lemma run_many_alike g ev ev' n :
  (∀ x x', alike_ctx x x' → alike_result (same_for g) (ev x) (ev' x')) →
  ∀ some acc acc' x x', alike_ctx x x' → length acc = length acc' →
  alike_result (λ l l', length l = length l' ∧ (acc = acc' → textual g = true → l = l'))
    (run_many ev some n acc x) (run_many ev' some n acc' x').
Proof.
  intros H. induction n as [|n IH]; intros some acc acc' x x' Hx Hl; cbn [run_many]; [constructor|].
  destruct (H _ _ (alike_branch _ _ Hx)) as [l l' y y' [H1 H2] Hy|y y' Hy|y y' Hy| |]; try (constructor; done).
  - eapply alike_weaken; [|apply IH; [by apply alike_accept|by rewrite !app_length, Hl, H1]].
    intros m m' [H3 H4]. split; [done|]. intros -> E. apply H4; [|done]. by rewrite H2.
  - pose proof (alike_accept _ _ _ _ Hx Hy). by destruct some; constructor.
  - rewrite (alike_stop _ _ _ _ Hx Hy). pose proof (alike_accept _ _ _ _ Hx Hy). pose proof (alike_drop _ _ _ _ Hx Hy).
    destruct (stop x' y'); [by constructor|]. by destruct some; constructor.
Qed.
Lemma literal_alike s t t' :
  literal_ok s = true → alike t t' → bool_decide (value t = chars s) = bool_decide (value t' = chars s).
Proof.
  intros Hs H. apply andb_true_iff in Hs as [Hs1 Hs2]. apply bool_decide_ext. destruct H as [_ ->|src n _ _ H1 H2|k' q q' _ _ _ -> -> Hq Hq'].
  - done.
  - split; intros E; rewrite E in *; [by rewrite H1 in Hs1|by rewrite H2 in Hs1].
  - split; intros E; rewrite <- E in Hs2; [by rewrite Hq in Hs2|by rewrite Hq' in Hs2].
Qed.
Lemma literal_text s t : bool_decide (value t = chars s) = true → value t = chars s.
Proof. apply bool_decide_eq_true. Qed.
Lemma eval_alike sub sub' g :
  (∀ k ts ts', Forall2 alike ts ts' → alike_parsed (sub k ts) (sub' k ts')) → caps_ok k g = true →
  ∀ x x', alike_ctx x x' → alike_result (same_for g) (eval sub g x) (eval sub' g x').
Proof.
  intros Hs. induction g as [s|t|f k'|f g IH|gs IH|gs IH|g IH|g IH|g IH] using gexp_ind2; intros Hg x x' Hx; cbn [eval].
  - apply next_is_alike; [done|by intros; apply literal_alike|].
    intros t t' Ht E. pose proof E as E'. rewrite (literal_alike s t t' Hg Ht) in E'.
    apply literal_text in E, E'. by rewrite E, E'.
  - apply next_is_alike; [done| |].
    + intros t1 t2 H. by rewrite (alike_kind _ _ H).
    + intros t1 t2 H E%bool_decide_eq_true. split; [done|]. cbn. intros Ht%negb_true_iff%bool_decide_eq_false.
      destruct H as [_ ->|src n H1 _|k' q q' H1 H2]; [done| |]; exfalso; apply Ht; rewrite <- E.
      * rewrite H1. by left.
      * rewrite H2. by right.
  - pose proof Hx as [H1 H2 H3]. destruct (Hs k' _ _ H1) as [t t' ts ts' Ht Hts| |ts ts' Hts| |]; try (constructor; done).
    + constructor; [done|]. constructor; [done|by apply Forall2_app|]. by repeat constructor.
    + constructor. constructor; [done|by apply Forall2_app|constructor].
  - cbn [caps_ok] in Hg. apply andb_true_iff in Hg as [Hg1 Hg2]. specialize (IH Hg1 x x' Hx).
    apply orb_true_iff in Hg2 as [Hg2|Hg2].
    + destruct IH as [l l' y y' [H1 H2] [H3 H4 H5]|y y' Hy|y y' Hy| |]; constructor; try done.
      constructor; [done|done|]. cbn. apply Forall2_app; [done|]. constructor; [|constructor]. split; [done|]. left. by apply H2.
    + destruct k; try done. destruct f; try done. destruct g as [|[]| | | | | | |]; try done. clear IH Hg1 Hg2.
      cbn [eval]. unfold next_is. pose proof Hx as [H1 H2 H3]. destruct H1 as [|t t' ts ts' Ht Hts]; [by constructor|].
      rewrite (alike_kind _ _ Ht). destruct (bool_decide _) eqn:Ek; [|by constructor]. apply bool_decide_eq_true in Ek.
      constructor; [done|]. constructor; [done|done|]. cbn. apply Forall2_app; [done|]. constructor; [|constructor].
      split; [done|]. cbn. destruct Ht as [_ ->|src n _ _ H4 H5|k' q q' H4 H5 H6]; [by left| |].
      * right. split_and!; try done. eauto 10.
      * rewrite H6 in Ek. rewrite Ek in H4. repeat (apply elem_of_cons in H4 as [H4|H4]; [done|]). by apply elem_of_nil in H4.
  - eapply alike_weaken; [|apply run_seq_alike; [|done|done]].
    + intros l l' [H1 H2]. split; [done|]. intros E. by apply H2.
    + cbn [caps_ok] in Hg. rewrite forallb_forall in Hg. apply Forall_forall. intros g Hin. rewrite Forall_forall in IH.
      apply IH; [done|]. by apply Hg, elem_of_list_In.
  - apply run_alt_alike; [|done]. cbn [caps_ok] in Hg. rewrite forallb_forall in Hg. apply Forall_forall. intros g Hin.
    rewrite Forall_forall in IH. apply IH; [done|]. by apply Hg, elem_of_list_In.
  - eapply alike_weaken; [|apply (run_opt_alike g); [|done]]; [done|by apply IH].
  - replace (length (todo x')) with (length (todo x)) by (eapply Forall2_length, Hx).
    eapply alike_weaken; [|apply (run_many_alike g); [|done|done]]; [|by apply IH].
    intros l l' [H1 H2]. split; [done|]. intros E. by apply H2.
  - replace (length (todo x')) with (length (todo x)) by (eapply Forall2_length, Hx).
    eapply alike_weaken; [|apply (run_many_alike g); [|done|done]]; [|by apply IH].
    intros l l' [H1 H2]. split; [done|]. intros E. by apply H2.
Qed.
End kinds.

(** ** Structs *)
Lemma parse_struct_alike eof eof' n : ∀ k ts ts', Forall2 alike ts ts' →
  alike_parsed (parse_struct eof n k ts) (parse_struct eof' n k ts').
Proof.
  induction n as [|n IH]; intros k ts ts' H; cbn [parse_struct]; [constructor|].
  destruct (eval_alike k (parse_struct eof n) (parse_struct eof' n) (grammar k) IH (grammar_caps k)
    (Ctx ts [] []) (Ctx ts' [] [])) as [l l' y y' _ [H1 H2 H3]|y y' Hy|y y' [H1 _ _]| |]; try (constructor; done).
  - constructor; [done|constructor|constructor].
  - destruct (store_all_alike k (assigned y ++ waiting y) (assigned y' ++ waiting y') (Forall2_app H2 H3)
      (fields (zero no_pos k)) (fields (zero no_pos k)) eq_refl) as [fs fs' Hf| |]; constructor; try done.
    unfold unplaced. cbn [tmap]. f_equal. exact Hf.
Qed.
Lemma parse_tokens_alike eof eof' ts ts' :
  Forall2 alike ts ts' →
  match parse_tokens eof ts, parse_tokens eof' ts' with
  | Ok o, Ok o' => unplaced <$> o = unplaced <$> o'
  | Panic, Panic | OutOfFuel, OutOfFuel => True
  | _, _ => False
  end.
Proof.
  intros H. unfold parse_tokens, struct_fuel. rewrite <- (Forall2_length _ _ _ H).
  destruct (parse_struct_alike eof eof' (60 * S (length ts)) KAST ts ts' H) as [t t' us us' Ht Hus| |us us' Hus| |]; try done.
  destruct Hus; [|done]. cbn. by rewrite Ht.
Qed.

(** ** Inputs *)
(*P C68_layout *)
(** If two inputs have the same tokens, white space, the kind of quotes and the spelling
    of numbers aside, they give the same AST up to positions, or both an error. *)
Lemma p68 s s' ts ts' st st' :
  lex "" s = Ok (Lexed ts st) → lex "" s' = Ok (Lexed ts' st') → Forall2 alike (elide ts) (elide ts') →
  ∃ o o', parse s = Ok o ∧ parse s' = Ok o' ∧ unplaced <$> o = unplaced <$> o'.
Proof.
  intros H1 H2 H. destruct (p45_total s) as [o Ho]. destruct (p45_total s') as [o' Ho']. exists o, o'. split_and!; try done.
  unfold parse in Ho, Ho'. rewrite H1 in Ho. rewrite H2 in Ho'.
  pose proof (parse_tokens_alike (advance (start_pos "") s) (advance (start_pos "") s') _ _ H) as HH.
  by rewrite Ho, Ho' in HH.
Qed.
(*P C68_white_space *)
(** In particular white space between tokens never matters. *)
Lemma p68_space s s' ts ts' st st' :
  lex "" s = Ok (Lexed ts st) → lex "" s' = Ok (Lexed ts' st') →
  map (λ t, (kind_of_token t, value t)) (elide ts) = map (λ t, (kind_of_token t, value t)) (elide ts') →
  ∃ o o', parse s = Ok o ∧ parse s' = Ok o' ∧ unplaced <$> o = unplaced <$> o'.
Proof.
  intros H1 H2 H. eapply p68; [done..|]. clear H1 H2. revert H. generalize (elide ts), (elide ts').
  induction l as [|a l IH]; intros [|b l'] H; [constructor|done|done|].
  injection H as Hk Hv H. constructor; [by apply alike_same|by apply IH].
Qed.
(*P C68_tokens *)
(** The same for token sequences that the lexer need not make. *)
Lemma p68_tokens eof eof' ts ts' o :
  Forall2 alike ts ts' → parse_tokens eof ts = Ok o →
  ∃ o', parse_tokens eof' ts' = Ok o' ∧ unplaced <$> o = unplaced <$> o'.
Proof.
  intros H Ho. pose proof (parse_tokens_alike eof eof' _ _ H) as HH. rewrite Ho in HH.
  destruct (parse_tokens eof' ts') as [o'| |]; [|done..]. by exists o'.
Qed.
