(** * Runs of the parser that do not look beyond some place

    Two runs side by side, on token lists that agree up to a place which neither passes. *)
From stdpp Require Import base list option strings.
From Coq Require Import Ascii Lia.
From Verif Require Import GoBase EtxAst EtxHeap EtxHeapSpec EtxText EtxLex EtxUtil EtxGram EtxParse EtxParseBase
  EtxParsePropProofs EtxParseFirst EtxFormat EtxFormatSpec EtxLayout.

Fixpoint atoms (g : gexp) : list atom :=
  match g with
  | GLit s => [ALit s]
  | GTok k => [ATok k]
  | GSub _ _ => []
  | GCap _ g | GOpt g | GMany g | GSome g => atoms g
  | GSeq gs | GAlt gs => flat_map atoms gs
  end.
Fixpoint subs (g : gexp) : list kind :=
  match g with
  | GLit _ | GTok _ => []
  | GSub _ k => [k]
  | GCap _ g | GOpt g | GMany g | GSome g => subs g
  | GSeq gs | GAlt gs => flat_map subs gs
  end.

(** May match without a result. *)
Fixpoint blank (g : gexp) : bool :=
  match g with
  | GLit _ | GTok _ | GSub _ _ | GCap _ _ => false
  | GOpt _ | GMany _ => true
  | GSome g => blank g
  | GSeq gs => forallb blank gs
  | GAlt gs => existsb blank gs
  end.
(** Whether an expression can be run in a state, and the state after it. In the state [true]
    the place has not been reached; an atom of [may] does not match there in the state [false];
    after an atom that is an [opener] it is not reached. Structs are run in the state [true],
    or in any if [free]. *)
Section walk.
Context (free : bool) (may : bool → atom → bool) (opener : atom → bool).
Section lists.
Context (walk : bool → gexp → option bool).
Fixpoint walk_seq (b : bool) (gs : list gexp) : option bool :=
  match gs with [] => Some b | g :: gs => match walk b g with Some p => walk_seq p gs | None => None end end.
Fixpoint walk_alt (b : bool) (gs : list gexp) : option bool :=
  match gs with
  | [] => Some true
  | g :: gs => match walk b g, walk_alt b gs with Some p, Some q => Some (p && q) | _, _ => None end
  end.
End lists.
Fixpoint walk (b : bool) (g : gexp) : option bool :=
  match g with
  | GLit s => if may b (ALit s) then Some (opener (ALit s)) else None
  | GTok k => if may b (ATok k) then Some (opener (ATok k)) else None
  | GSub _ _ => if b || free then Some false else None
  | GCap _ g => walk b g
  | GOpt g => match walk b g with Some p => Some (p && b) | None => None end
  | GMany g | GSome g => if negb b || free then match walk false g with Some _ => Some false | None => None end else None
  | GSeq gs => if b && forallb blank gs then None else walk_seq walk b gs
  | GAlt gs => walk_alt walk b gs
  end.
End walk.

Section beside.
Context (free : bool) (may : bool → atom → bool) (opener : atom → bool).
Context (Rok : bool → list token → list token → Prop) (Rerr : list token → list token → Prop).
Context (Hok : ∀ b ts ts', Rok b ts ts' → Rerr ts ts').
Context (Hmono : ∀ ts ts', Rok true ts ts' → Rok false ts ts').
Context (Hfree : free = true → ∀ ts ts', Rok false ts ts' → Rok true ts ts').
Context (Hlen : ∀ ts ts' us us', Rerr ts ts' → Rerr us us' → (length ts - length us = length ts' - length us')%nat).
Lemma to_false b ts ts' : Rok b ts ts' → Rok false ts ts'.
Proof. destruct b; auto. Qed.
Lemma to_lower b c ts ts' : (c = true → b = true) → Rok b ts ts' → Rok c ts ts'.
Proof. destruct b, c; auto. intros H. by specialize (H eq_refl). Qed.
(** Two runs; one that is out of fuel may be beside anything. *)
Inductive beside_parsed : parsed → parsed → Prop :=
| bp_node t t' ts ts' : unplaced t = unplaced t' → Rok false ts ts' → beside_parsed (PNode t ts) (PNode t' ts')
| bp_none : beside_parsed PNone PNone
| bp_err ts ts' : Rerr ts ts' → beside_parsed (PErr ts) (PErr ts')
| bp_crash : beside_parsed PCrash PCrash
| bp_left r : beside_parsed PNoFuel r
| bp_right r : beside_parsed r PNoFuel.
Definition next_ok (a : atom) (ts ts' : list token) : Prop :=
  match ts, ts' with
  | t :: us, t' :: us' => atom_is t a = atom_is t' a ∧ (atom_is t a = true → alike t t' ∧ Rok (opener a) us us')
  | t :: _, [] | [], t :: _ => atom_is t a = false
  | [], [] => True
  end.
Section kinds.
Context (k : kind).
Record beside_ctx (R : list token → list token → Prop) (x x' : ctx) : Prop := BesideCtx {
  bc_todo : R (todo x) (todo x');
  bc_assigned : Forall2 (alike_capture k) (assigned x) (assigned x');
  bc_waiting : Forall2 (alike_capture k) (waiting x) (waiting x') }.
Lemma beside_mono (R R' : list token → list token → Prop) x x' :
  (∀ ts ts', R ts ts' → R' ts ts') → beside_ctx R x x' → beside_ctx R' x x'.
Proof. intros H [H1 H2 H3]. constructor; auto. Qed.
(** [b] is the state if nothing matched, [c] the one if something did. *)
Inductive beside (b c : bool) (R : list text → list text → Prop) : result → result → Prop :=
| br_some l l' x x' : R l l' → beside_ctx (Rok c) x x' → beside b c R (Ret (Some l) x) (Ret (Some l') x')
| br_none x x' : beside_ctx (Rok b) x x' → beside b c R (Ret None x) (Ret None x')
| br_err x x' : beside_ctx Rerr x x' → beside b c R (Err x) (Err x')
| br_crash : beside b c R Crash Crash
| br_left r : beside b c R NoFuel r
| br_right r : beside b c R r NoFuel.
Lemma beside_weaken b c c' (R Q : list text → list text → Prop) r r' :
  (c' = true → c = true) → (∀ l l', R l l' → Q l l') → beside b c R r r' → beside b c' Q r r'.
Proof. intros Hc H []; constructor; auto. eapply beside_mono; [|done]. intros ? ?. by apply to_lower. Qed.
Lemma ok_err b x x' : beside_ctx (Rok b) x x' → beside_ctx Rerr x x'.
Proof. apply beside_mono, Hok. Qed.
Lemma beside_branch R x x' : beside_ctx R x x' → beside_ctx R (branch x) (branch x').
Proof. intros [H1 H2 H3]. constructor; [done|done|constructor]. Qed.
Lemma beside_accept Q R x x' y y' : beside_ctx Q x x' → beside_ctx R y y' → beside_ctx R (accept x y) (accept x' y').
Proof. intros [H1 H2 H3] [H4 H5 H6]. constructor; [done|done|]. by apply Forall2_app. Qed.
Lemma beside_stop b x x' y y' : beside_ctx (Rok b) x x' → beside_ctx Rerr y y' → stop x y = stop x' y'.
Proof. intros [H1 _ _] [H2 _ _]. unfold stop. by rewrite (Hlen _ _ _ _ (Hok _ _ _ H1) H2). Qed.
Lemma beside_drop Q R x x' y y' : beside_ctx Q x x' → beside_ctx R y y' → beside_ctx Q (drop_branch x y) (drop_branch x' y').
Proof. intros [H1 H2 H3] [H4 H5 H6]. by constructor. Qed.
Lemma next_beside (R : list text → list text → Prop) a b (p : token → bool) x x' :
  (∀ t, p t = atom_is t a) → beside_ctx (Rok b) x x' → next_ok a (todo x) (todo x') →
  (∀ t t', alike t t' → p t = true → p t' = true → R [value t] [value t']) →
  beside b (opener a) R (next_is p x) (next_is p x').
Proof.
  intros Hp Hx Hn HR. pose proof Hx as [H1 H2 H3]. unfold next_is.
  destruct (todo x) as [|t ts] eqn:E, (todo x') as [|t' ts'] eqn:E'; cbn [next_ok] in Hn.
  - by constructor.
  - rewrite Hp, Hn. by constructor.
  - rewrite Hp, Hn. by constructor.
  - destruct Hn as [Ha Hn]. rewrite !Hp, <- Ha. destruct (atom_is t a) eqn:Et; [|by constructor].
    destruct (Hn eq_refl) as [Ht Hts]. constructor; [|by constructor]. apply HR; [done|by rewrite Hp|by rewrite Hp, <- Ha].
Qed.
Notation wlk := (walk free may opener).
Definition both (g : gexp) (l l' : list text) : Prop := same_for g l l' ∧ (blank g = false → l ≠ []).
Definition runs (ev ev' : gexp → ctx → result) (g : gexp) : Prop :=
  ∀ b c x x', wlk b g = Some c → beside_ctx (Rok b) x x' → beside b c (both g) (ev g x) (ev' g x').
Lemma seq_beside ev ev' gs :
  Forall (runs ev ev') gs →
  ∀ (first : bool) b0 b c acc acc' x x', walk_seq wlk b gs = Some c → (first = true → b0 = b) →
  (b0 = true → acc = [] → forallb blank gs = false) → beside_ctx (Rok b) x x' → length acc = length acc' →
  beside b0 c (λ l l', length l = length l' ∧ (acc = acc' → forallb textual gs = true → l = l') ∧ l ≠ [])
    (run_seq ev first gs acc x) (run_seq ev' first gs acc' x').
Proof.
  induction 1 as [|g gs H Hgs IH]; intros first b0 b c acc acc' x x' Hw H0 Hn Hx Hl; cbn [run_seq].
  - injection Hw as ->. destruct acc as [|u acc], acc' as [|u' acc']; try done; [|by constructor].
    cbn. constructor. destruct b0; [by specialize (Hn eq_refl eq_refl)|]. eapply beside_mono; [|done]. apply to_false.
  - cbn [walk_seq] in Hw. destruct (wlk b g) as [p|] eqn:Ew; [|done].
    destruct (H b p x x' Ew Hx) as [l l' y y' [[H1 H2] H3] Hy|y y' Hy|y y' Hy| | |]; try (constructor; done).
    + eapply beside_weaken; [| |apply (IH false b0 p c); [done|done| |done|by rewrite !app_length, Hl, H1]]; [done| |].
      * intros m m' (H4 & H5 & H6). split_and!; [done| |done]. cbn [forallb]. intros -> [E1 E2]%andb_true_iff. apply H5; [|done]. by rewrite H2.
      * intros Hb E. apply app_eq_nil in E as [-> ->]. specialize (Hn Hb eq_refl). cbn [forallb] in Hn.
        destruct (blank g) eqn:Eb; [done|]. by specialize (H3 eq_refl).
    + destruct first; constructor; [by rewrite (H0 eq_refl)|]. by eapply ok_err.
Qed.
Lemma alt_beside ev ev' gs :
  Forall (runs ev ev') gs →
  ∀ failed b c x x', walk_alt wlk b gs = Some c → beside_ctx (Rok b) x x' →
  beside b c (both (GAlt gs)) (run_alt ev failed gs x) (run_alt ev' failed gs x').
Proof.
  induction 1 as [|g gs H _ IH]; intros failed b c x x' Hw Hx; cbn [run_alt].
  { destruct failed; constructor; [by eapply ok_err|done]. }
  cbn [walk_alt] in Hw. destruct (wlk b g) as [p|] eqn:Ew; [|done]. destruct (walk_alt wlk b gs) as [q|] eqn:Eq; [|done]. injection Hw as <-.
  assert (p && q = true → p = true) as Hp by (by intros [? _]%andb_true_iff). assert (p && q = true → q = true) as Hq by (by intros [_ ?]%andb_true_iff).
  assert (Hv : ∀ l l', both (GAlt gs) l l' → both (GAlt (g :: gs)) l l').
  { intros l l' [[H1 H2] H3]. split; [split; [done|]|].
    - cbn. intros [_ E]%andb_true_iff. by apply H2.
    - cbn. intros [_ E]%orb_false_iff. by apply H3. }
  destruct (H _ _ _ _ Ew (beside_branch _ _ _ Hx)) as [l l' y y' [[H1 H2] H3] Hy|y y' Hy|y y' Hy| | |]; try (constructor; done).
  - constructor; [|eapply beside_mono; [|by eapply beside_accept]; intros ? ?; by apply to_lower]. split; [split; [done|]|].
    + cbn. intros [E _]%andb_true_iff. by apply H2.
    + cbn. intros [E _]%orb_false_iff. by apply H3.
  - eapply beside_weaken; [exact Hq|exact Hv|]. apply IH; [done|]. by eapply beside_drop.
  - rewrite (beside_stop _ _ _ _ _ Hx Hy). destruct (stop x' y'); [constructor; by eapply beside_accept|].
    eapply beside_weaken; [exact Hq|exact Hv|]. apply IH; [done|]. by eapply beside_drop.
Qed.
Lemma opt_beside (R : list text → list text → Prop) ev ev' b c x x' :
  beside b c R (ev (branch x)) (ev' (branch x')) → R [] [] → beside_ctx (Rok b) x x' →
  beside b (c && b) R (run_opt ev x) (run_opt ev' x').
Proof.
  intros H HR Hx. unfold run_opt.
  assert (c && b = true → c = true) as Hc by (by intros [? _]%andb_true_iff). assert (c && b = true → b = true) as Hb by (by intros [_ ?]%andb_true_iff).
  assert (∀ d y y', (c && b = true → d = true) → beside_ctx (Rok d) y y' → beside_ctx (Rok (c && b)) y y') as Hd.
  { intros d y y' H1. apply beside_mono. intros ? ?. by apply to_lower. }
  destruct H as [l l' y y' H1 Hy|y y' Hy|y y' Hy| | |]; try (constructor; done).
  - constructor; [done|]. eapply Hd; [exact Hc|by eapply beside_accept].
  - constructor; [done|]. eapply Hd; [exact Hb|by eapply beside_accept].
  - rewrite (beside_stop _ _ _ _ _ Hx Hy).
    destruct (stop x' y'); constructor; [by eapply beside_accept|done|]. eapply Hd; [exact Hb|by eapply beside_drop].
Qed.
Lemma many_beside g ev ev' c n :
  (∀ x x', beside_ctx (Rok false) x x' → beside false c (both g) (ev x) (ev' x')) →
  ∀ n' (some : bool) acc acc' x x', beside_ctx (Rok false) x x' → length acc = length acc' →
  beside false false (λ l l', length l = length l' ∧ (acc = acc' → textual g = true → l = l') ∧ (acc ≠ [] ∨ some = true ∧ blank g = false → l ≠ []))
    (run_many ev some n acc x) (run_many ev' some n' acc' x').
Proof.
  intros H. induction n as [|n IH]; intros n' some acc acc' x x' Hx Hl; cbn [run_many]; [constructor|].
  destruct n' as [|n']; cbn [run_many]; [constructor|].
  destruct (H _ _ (beside_branch _ _ _ Hx)) as [l l' y y' [[H1 H2] H3] Hy|y y' Hy|y y' Hy| | |]; try (constructor; done).
  - eapply beside_weaken; [| |apply IH; [|by rewrite !app_length, Hl, H1]]; [done| |].
    + intros m m' (H4 & H5 & H6). split_and!; [done| |].
      * intros -> E. apply H5; [|done]. by rewrite H2.
      * intros [E|[-> E]]; apply H6; left; intros [E1 E2]%app_eq_nil; [done|]. by apply H3.
    + eapply beside_mono; [|by eapply beside_accept]. apply to_false.
  - pose proof (beside_accept _ _ _ _ _ _ Hx Hy). destruct some; constructor; [by eapply ok_err| |done].
    split_and!; [done|by intros ->|]. by intros [?|[? _]].
  - rewrite (beside_stop _ _ _ _ _ Hx Hy). pose proof (beside_accept _ _ _ _ _ _ Hx Hy). pose proof (beside_drop _ _ _ _ _ _ Hx Hy).
    destruct (stop x' y'); [by constructor|]. destruct some; constructor; [by eapply ok_err| |done].
    split_and!; [done|by intros ->|]. by intros [?|[? _]].
Qed.
Lemma beside_free b c R r r' : negb b || free = true → beside false c R r r' → beside b c R r r'.
Proof.
  intros Hb []; constructor; try done. destruct b; [|done]. eapply beside_mono; [|done]. by apply Hfree.
Qed.
Lemma eval_beside sub sub' g :
  (∀ k, k ∈ subs g → ∀ ts ts', Rok true ts ts' → beside_parsed (sub k ts) (sub' k ts')) →
  (∀ a, a ∈ atoms g → ∀ b ts ts', may b a = true → Rok b ts ts' → next_ok a ts ts') → caps_ok k g = true →
  runs (eval sub) (eval sub') g.
Proof.
  induction g as [s|t|f k'|f g IH|gs IH|gs IH|g IH|g IH|g IH] using gexp_ind2; intros Hs Ha Hg b c x x' Hw Hx; cbn [eval].
  - cbn [walk] in Hw. destruct (may b (ALit s)) eqn:Em; [|done]. injection Hw as <-.
    apply (next_beside _ (ALit s)); [done|done|eapply Ha; [by left|exact Em|apply Hx]|].
    intros t t' Ht E%bool_decide_eq_true E'%bool_decide_eq_true. split; [|done]. by rewrite E, E'.
  - cbn [walk] in Hw. destruct (may b (ATok t)) eqn:Em; [|done]. injection Hw as <-.
    apply (next_beside _ (ATok t)); [done|done|eapply Ha; [by left|exact Em|apply Hx]|].
    intros t1 t2 H E%bool_decide_eq_true _. split; [|done]. split; [done|]. cbn. intros Ht%negb_true_iff%bool_decide_eq_false.
    destruct H as [_ ->|src n H1 _|k' q q' H1 H2]; [done| |]; exfalso; apply Ht; rewrite <- E.
    + rewrite H1. by left.
    + rewrite H2. by right.
  - cbn [walk] in Hw. destruct (b || free) eqn:Eb; [|done]. injection Hw as <-. pose proof Hx as [H1 H2 H3].
    assert (Rok true (todo x) (todo x')) as H1'. { destruct b; [done|]. by apply Hfree. }
    destruct (Hs k' ltac:(by left) _ _ H1') as [t t' ts ts' Ht Hts| |ts ts' Hts| | |]; try (constructor; done).
    + constructor; [done|]. constructor; [done|by apply Forall2_app|]. by repeat constructor.
    + constructor. constructor; [done|by apply Forall2_app|constructor].
  - cbn [caps_ok] in Hg. apply andb_true_iff in Hg as [Hg1 Hg2]. cbn [walk] in Hw. specialize (IH Hs Ha Hg1 b c x x' Hw Hx).
    apply orb_true_iff in Hg2 as [Hg2|Hg2].
    + destruct IH as [l l' y y' [[H1 H2] _] [H3 H4 H5]|y y' Hy|y y' Hy| | |]; constructor; try done.
      constructor; [done|done|]. cbn. apply Forall2_app; [done|]. constructor; [|constructor]. split; [done|]. left. by apply H2.
    + assert (k = KValue) as Hk by (by destruct k).
      assert (f = FNumber ∧ g = GTok TNumber) as [-> ->].
      { revert Hg2. rewrite Hk. destruct f; try done. by destruct g as [|[]| | | | | | |]. }
      clear IH Hg1 Hg2. cbn [walk] in Hw. destruct (may b (ATok TNumber)) eqn:Em; [|done]. injection Hw as <-.
      cbn [eval]. unfold next_is. pose proof Hx as [H1 H2 H3]. pose proof (Ha (ATok TNumber) ltac:(by left) _ _ _ Em H1) as Hn.
      destruct (todo x) as [|t ts], (todo x') as [|t' ts']; cbn [next_ok] in Hn.
      * by constructor.
      * cbn in Hn. rewrite Hn. by constructor.
      * cbn in Hn. rewrite Hn. by constructor.
      * destruct Hn as [Hn1 Hn2]. cbn in Hn1, Hn2. rewrite <- Hn1. destruct (bool_decide _) eqn:Ek; [|by constructor].
        destruct (Hn2 eq_refl) as [Ht Hts]. apply bool_decide_eq_true in Ek.
        constructor; [done|]. constructor; [done|done|]. cbn. apply Forall2_app; [done|]. constructor; [|constructor].
        split; [done|]. cbn. destruct Ht as [_ ->|src n _ _ H4 H5|k' q q' H4 H5 H6]; [by left| |].
        -- right. split_and!; try done. eauto 10.
        -- rewrite H5 in Ek. rewrite Ek in H4. repeat (apply elem_of_cons in H4 as [H4|H4]; [done|]). by apply elem_of_nil in H4.
  - cbn [walk] in Hw. destruct (b && forallb blank gs) eqn:Eb; [done|].
    eapply beside_weaken; [| |apply (seq_beside _ _ _) with (b := b) (c := c); [|done|done| |done|done]]; [done| | |].
    + intros l l' (H1 & H2 & H3). split; [split; [done|]|done]. intros E. by apply H2.
    + cbn [caps_ok] in Hg. rewrite forallb_forall in Hg. apply Forall_forall. intros g Hin. rewrite Forall_forall in IH.
      apply IH; [done| | |by apply Hg, elem_of_list_In].
      * intros k' Hk'. apply Hs. cbn. apply elem_of_list_In, in_flat_map. exists g. by rewrite <- !elem_of_list_In.
      * intros a Ha'. apply Ha. cbn. apply elem_of_list_In, in_flat_map. exists g. by rewrite <- !elem_of_list_In.
    + intros -> _. exact Eb.
  - apply alt_beside; [|done|done]. cbn [caps_ok] in Hg. rewrite forallb_forall in Hg. apply Forall_forall. intros g Hin.
    rewrite Forall_forall in IH. apply IH; [done| | |by apply Hg, elem_of_list_In].
    + intros k' Hk'. apply Hs. cbn. apply elem_of_list_In, in_flat_map. exists g. by rewrite <- !elem_of_list_In.
    + intros a Ha'. apply Ha. cbn. apply elem_of_list_In, in_flat_map. exists g. by rewrite <- !elem_of_list_In.
  - cbn [walk] in Hw. destruct (wlk b g) as [p|] eqn:Ew; [|done]. injection Hw as <-.
    eapply beside_weaken; [| |apply (opt_beside (same_for g)); [|done|done]]; [done| |].
    + intros l l' H. split; [exact H|done].
    + eapply beside_weaken; [| |apply IH; [done|done|done|exact Ew|by apply beside_branch]]; [done|by intros ? ? [? _]].
  - cbn [walk] in Hw. destruct (negb b || free) eqn:Eb; [|done]. destruct (wlk false g) as [p|] eqn:Ew; [|done]. injection Hw as <-.
    apply beside_free; [done|].
    eapply beside_weaken; [| |apply (many_beside g _ _ p); [|eapply beside_mono; [|done]; apply to_false|done]]; [done| |].
    + intros l l' (H1 & H2 & _). split; [split; [done|]|done]. intros E. by apply H2.
    + intros y y' Hy. by apply IH.
  - cbn [walk] in Hw. destruct (negb b || free) eqn:Eb; [|done]. destruct (wlk false g) as [p|] eqn:Ew; [|done]. injection Hw as <-.
    apply beside_free; [done|].
    eapply beside_weaken; [| |apply (many_beside g _ _ p); [|eapply beside_mono; [|done]; apply to_false|done]]; [done| |].
    + intros l l' (H1 & H2 & H3). split; [split; [done|]|]; [|intros E; apply H3; by right]. intros E. by apply H2.
    + intros y y' Hy. by apply IH.
Qed.
(** The end of a struct. *)
Lemma finish_beside eof eof' ts ts' b c R r r' :
  beside b c R r r' → beside_parsed (finish_struct eof k ts r) (finish_struct eof' k ts' r').
Proof.
  intros [l l' y y' _ [H1 H2 H3]|y y' Hy|y y' [H1 _ _]| | |]; cbn [finish_struct]; try (constructor; done).
  destruct (store_all_alike k (assigned y ++ waiting y) (assigned y' ++ waiting y') (Forall2_app H2 H3)
    (fields (zero no_pos k)) (fields (zero no_pos k)) eq_refl) as [fs fs' Hf| |]; constructor; try done;
    [unfold unplaced; cbn [tmap]; f_equal; exact Hf|by eapply to_false|by eapply Hok..].
Qed.
End kinds.
End beside.
