(** * One more line feed at the end, for the parser

    The tokens of a file that is accepted, with a line feed behind them, are accepted. *)
From stdpp Require Import base list option strings.
From Coq Require Import Ascii Lia.
From Verif Require Import GoBase EtxAst EtxHeap EtxHeapSpec EtxText EtxLex EtxUtil EtxGram EtxParse EtxParseBase EtxParseSpec EtxParseStore
  EtxParseTotal EtxNumProofs EtxRelex EtxSays EtxLook EtxLookProofs EtxBarrier.

(** ** Captures that can be assigned *)
Definition fine (t : token) : Prop :=
  (kind_of_token t = TNumber → is_Some (capture_number (value t))) ∧
  (kind_of_token t = THeredoc → is_Some (capture_delimiter (value t))).
Definition takes_text (o : option ftype) : bool := match o with Some (TStr | TBool | TStrs) => true | _ => false end.
Definition takes_struct (o : option ftype) : bool := match o with Some (TPtr _ | TEmb _ | TList _) => true | _ => false end.
Definition fits (k : kind) (c : capture) : Prop :=
  match c with
  | (f, Struct _) => takes_struct (assoc f (schema k)) = true
  | (f, Texts l) =>
      match k, f with
      | KHeredoc, FDelimiter => is_Some (capture_delimiter (default [] (head l)))
      | KValue, FBool => True
      | KValue, FNumber => is_Some (capture_number (default [] (head l)))
      | _, _ => takes_text (assoc f (schema k)) = true
      end
  end.
Definition is_tok (t : tname) (g : gexp) : bool := match g with GTok t' => bool_decide (t' = t) | _ => false end.
Fixpoint fits_g (k : kind) (g : gexp) : bool :=
  match g with
  | GLit _ | GTok _ => true
  | GSub f _ => takes_struct (assoc f (schema k))
  | GCap f g =>
      fits_g k g &&
      match k, f with
      | KHeredoc, FDelimiter => is_tok THeredoc g
      | KValue, FBool => true
      | KValue, FNumber => is_tok TNumber g
      | _, _ => takes_text (assoc f (schema k))
      end
  | GSeq gs | GAlt gs => forallb (fits_g k) gs
  | GOpt g | GMany g | GSome g => fits_g k g
  end.
Lemma grammar_fits k : fits_g k (grammar k) = true.
Proof. revert k. apply for_all_kinds. vm_compute. reflexivity. Qed.
Lemma captures_fit k ts g c : Forall fine ts → fits_g k g = true → captures ts g c → fits k c.
Proof.
  intros Hts. rewrite Forall_forall in Hts.
  induction g as [s|t|f k'|f g IH|gs IH|gs IH|g IH|g IH|g IH] using gexp_ind2; cbn [fits_g captures]; try done; try (by auto).
  - by intros H [t ->].
  - intros [Hg H]%andb_true_iff [Hc|(l & -> & Hl)]; [auto|]. cbn.
    assert (∀ t, is_tok t g = true → ∃ u, u ∈ ts ∧ kind_of_token u = t ∧ l = [value u]) as Htok.
    { intros t Ht. destruct g; try done. cbn in Ht. apply bool_decide_eq_true in Ht as ->. exact Hl. }
    destruct k; try exact H; destruct f; try exact H; try done.
    + destruct (Htok _ H) as (u & Hu & Hk & ->). cbn. by apply (Hts u Hu).
    + destruct (Htok _ H) as (u & Hu & Hk & ->). cbn. by apply (Hts u Hu).
  - rewrite captures_list. intros H Hc. rewrite forallb_forall in H. apply Exists_exists in Hc as (g & Hg & Hc).
    rewrite Forall_forall in IH. apply (IH g Hg); [|done]. by apply H, elem_of_list_In.
  - rewrite captures_list. intros H Hc. rewrite forallb_forall in H. apply Exists_exists in Hc as (g & Hg & Hc).
    rewrite Forall_forall in IH. apply (IH g Hg); [|done]. by apply H, elem_of_list_In.
Qed.
Definition of_type (ty : ftype) (v : aval) : Prop :=
  match ty, v with
  | TStr, VStr _ | TBool, VBool _ | TStrs, VStrs _ | TFloat, VFloat _ | TPtr _, VPtr _ | TEmb _, VEmb _ | TList _, VList _ => True
  | _, _ => False
  end.
Definition shaped (k : kind) (fs : list (fld * aval)) : Prop :=
  ∀ f ty, assoc f (schema k) = Some ty → ∃ v, assoc f fs = Some v ∧ of_type ty v.
Lemma shaped_set k f ty v fs : shaped k fs → assoc f (schema k) = Some ty → of_type ty v → shaped k (set_field f v fs).
Proof.
  intros H Hf Hv g ty' Hg. destruct (H _ _ Hg) as (w & Hw & Ht). destruct (decide (f = g)) as [<-|Hn].
  - rewrite Hf in Hg. injection Hg as <-. exists v. split; [|done]. by eapply assoc_set_same.
  - rewrite assoc_set_other by done. eauto.
Qed.
Lemma zero_shaped k : shaped k (fields (zero no_pos k)).
Proof.
  intros f ty H. assert ((f, ty) ∈ schema k) as Hin.
  { revert H. generalize (schema k). intros l. induction l as [|[g ty'] l IH]; [done|]. cbn. destruct (decide (f = g)) as [->|?].
    - intros [= ->]. by left.
    - intros H. right. by apply IH. }
  destruct (zero_assoc k f ty Hin) as (v & Hv & Hz). exists v. split; [done|]. by destruct ty, v.
Qed.
Lemma store_fits k fs c : shaped k fs → fits k c → ∃ fs', store k fs c = Stored fs' ∧ shaped k fs'.
Proof.
  intros Hs Hc. destruct c as [f c].
  assert (∀ (u : aval → option aval) (ok : ftype → bool), (∀ ty v, ok ty = true → of_type ty v → ∃ w, u v = Some w ∧ of_type ty w) →
    (∃ ty, assoc f (schema k) = Some ty ∧ ok ty = true) → ∃ fs', update f u fs = Stored fs' ∧ shaped k fs') as Hup.
  { intros u ok Hu (ty & Hty & Hok). destruct (Hs _ _ Hty) as (v & Hv & Ht). unfold update. rewrite Hv.
    destruct (Hu ty v Hok Ht) as (w & -> & Hw). eexists. split; [done|]. by eapply shaped_set. }
  destruct c as [l|t].
  - assert (takes_text (assoc f (schema k)) = true → special k (f, Texts l) = false → ∃ fs', store k fs (f, Texts l) = Stored fs' ∧ shaped k fs') as Hplain.
    { intros Ht Hsp. rewrite store_plain by done. apply (Hup _ (λ ty, takes_text (Some ty))).
      - intros ty v Hty Hv. destruct ty, v; try done; cbn; eauto.
      - destruct (assoc f (schema k)) as [ty|]; [|done]. eauto. }
    destruct k; try (by apply Hplain); destruct f; try (by apply Hplain); cbn [store fits] in *; clear Hplain Hup.
    + eexists. split; [done|]. by eapply shaped_set.
    + destruct Hc as [[src n] ->]. eexists. split; [done|]. by eapply shaped_set.
    + destruct Hc as [[dash u] ->]. eexists. split; [done|]. destruct dash; (eapply shaped_set; [|done|done]); [by eapply shaped_set|done].
  - rewrite store_plain by (by destruct k, f). apply (Hup _ (λ ty, takes_struct (Some ty))).
    + intros ty v Hty Hv. destruct ty, v; try done; cbn; eauto.
    + cbn in Hc. destruct (assoc f (schema k)) as [ty|]; [|done]. eauto.
Qed.
Lemma store_all_fits k cs : Forall (fits k) cs → ∀ fs, shaped k fs → ∃ fs', store_all k fs cs = Stored fs'.
Proof.
  induction 1 as [|c cs Hc _ IH]; intros fs Hs; cbn [store_all]; [by eexists|].
  destruct (store_fits k fs c Hs Hc) as (fs' & -> & Hs'). by apply IH.
Qed.
Lemma eval_stored sub k ts l y :
  (∀ k ts, moves_struct (negb (empty_struct k)) ts (sub k ts)) → Forall fine ts → eval sub (grammar k) (Ctx ts [] []) = Ret (Some l) y →
  ∃ fs, store_all k (fields (zero no_pos k)) (assigned y ++ waiting y) = Stored fs.
Proof.
  intros Hm Hts E.
  pose proof (eval_from sub ts Hm (fits k) (grammar k) (λ c, captures_fit k ts _ c Hts (grammar_fits k)) (Ctx ts [] [])) as H.
  rewrite E in H. destruct H as (_ & H1 & H2); [split; [done|]; split; constructor|].
  apply store_all_fits; [by apply Forall_app|apply zero_shaped].
Qed.

(** ** Two runs *)
(** What can match a line feed at the end, but not the end. *)
Definition picky_kind (k : kind) : bool :=
  match k with KRootItem | KFuncStatement | KTypeEnumItem | KTypeObjectItem | KBlockItem | KListItem | KMapItem => true | _ => false end.
Fixpoint picky (g : gexp) : bool :=
  match g with
  | GTok t => bool_decide (t = TLF)
  | GSub _ k => picky_kind k
  | GCap _ g | GSome g => picky g
  | GAlt gs => existsb picky gs
  | GLit _ | GSeq _ | GOpt _ | GMany _ => false
  end.
Fixpoint wf (g : gexp) : bool :=
  match g with
  | GLit s => bool_decide (chars s ≠ [lf])
  | GTok _ | GSub _ _ => true
  | GCap _ g | GSome g | GOpt g | GMany g => wf g
  | GAlt gs => forallb wf gs
  | GSeq gs => forallb wf gs && negb (existsb picky gs) && existsb (λ g, negb (blank g)) gs
  end.
Lemma grammar_wf k : wf (grammar k) && loops_ok (grammar k) && implb (picky (grammar k)) (picky_kind k) = true.
Proof. revert k. apply for_all_kinds. vm_compute. reflexivity. Qed.

Section runs.
Context (z : token) (Hz : kind_of_token z = TLF) (Hv : value z = [lf]).
Definition tied (ts ts' : list token) : Prop := Forall fine ts ∧ (ts' = ts ++ [z] ∨ ts = [] ∧ ts' = []).
Definition lost (ts : list token) (r : result) : Prop :=
  (∃ y, r = Err y ∧ 49 < length ts - length (todo y)) ∨ r = Crash ∨ r = NoFuel.
Definition fails (ts : list token) (r : result) (y : ctx) : Prop := r = Ret None y ∧ todo y = ts ∨ r = Err y.
Inductive sim (p b : bool) (ts ts' : list token) (r r' : result) : Prop :=
| sim_lost : lost ts r → sim p b ts ts' r r'
| sim_ok l l' y y' :
    r = Ret (Some l) y → r' = Ret (Some l') y' → tied (todo y) (todo y') → length (todo y) ≤ length ts →
    (b = false → l ≠ [] ∧ l' ≠ []) → sim p b ts ts' r r'
| sim_no y y' : fails ts r y → fails ts' r' y' → length (todo y) ≤ length (todo y') → sim p b ts ts' r r'
| sim_more l' y y' :
    p = true → ts = [] → ts' = [z] → fails ts r y → r' = Ret (Some l') y' → todo y' = [] → (b = false → l' ≠ []) → sim p b ts ts' r r'.
Lemma sim_weaken (p p' b b' : bool) ts ts' r r' : (p = true → p' = true) → (b' = false → b = false) → sim p b ts ts' r r' → sim p' b' ts ts' r r'.
Proof.
  intros Hp Hb [H|l l' y y' H1 H2 H3 H4 H5|y y' H1 H2 H3|l' y y' H1 H2 H3 H4 H5 H6 H7].
  - by apply sim_lost.
  - eapply sim_ok; eauto.
  - by eapply sim_no.
  - eapply sim_more; eauto.
Qed.
Lemma tied_length ts ts' : tied ts ts' → length ts ≤ length ts' ≤ S (length ts).
Proof. intros [_ [->|[-> ->]]]; [rewrite app_length|]; cbn; lia. Qed.
Lemma tied_end : tied [] [].
Proof. split; [constructor|by right]. Qed.
Lemma lost_later ts us r : length us ≤ length ts → lost us r → lost ts r.
Proof. intros H [(y & -> & Hy)|Hr]; [left|by right]. exists y. split; [done|]. lia. Qed.
Lemma stop_lost ts x y : todo x = ts → stop_at 49 x y = true → lost ts (Err (accept x y)).
Proof. unfold stop_at. rewrite Nat.ltb_lt. intros <- H. left. by exists (accept x y). Qed.
Lemma lost_stop ts x y : todo x = ts → 49 < length ts - length (todo y) → stop_at 49 x y = true.
Proof. intros <- H. by apply Nat.ltb_lt. Qed.
Lemma go_on x x' y y' :
  tied (todo x) (todo x') → length (todo y) ≤ length (todo y') → stop_at 49 x y = false → stop x' y' = false.
Proof. intros H%tied_length Hy. unfold stop_at, stop, lookahead. rewrite !Nat.ltb_ge. lia. Qed.
Lemma stay x y : todo y = todo x → stop_at 49 x y = false.
Proof. intros E. unfold stop_at. rewrite E. apply Nat.ltb_ge. lia. Qed.
Lemma at_end x y : todo x = [] → stop_at 49 x y = false.
Proof. intros E. unfold stop_at. by rewrite E. Qed.
Lemma at_end' x y : todo x = [] → stop x y = false.
Proof. intros E. unfold stop. by rewrite E. Qed.
Lemma end_not_lost r y : fails [] r y → ¬ lost [] r.
Proof. intros [[-> _]| ->] [(y' & E & Hy')|[E|E]]; try done. cbn in Hy'. lia. Qed.

Notation similar ev ev' g := (∀ x x', tied (todo x) (todo x') → sim (picky g) (blank g) (todo x) (todo x') (ev g x) (ev' g x')).
Lemma seq_rest ev ev' gs : Forall (λ g, similar ev ev' g) gs → existsb picky gs = false →
  ∀ acc acc' x x', tied (todo x) (todo x') → (acc ≠ [] ∧ acc' ≠ [] ∨ existsb (λ g, negb (blank g)) gs = true) →
  let r := run_seq ev false gs acc x in let r' := run_seq ev' false gs acc' x' in
  lost (todo x) r ∨
  (∃ l l' y y', r = Ret (Some l) y ∧ r' = Ret (Some l') y' ∧ tied (todo y) (todo y') ∧ length (todo y) ≤ length (todo x) ∧ l ≠ [] ∧ l' ≠ []) ∨
  (∃ y y', r = Err y ∧ r' = Err y' ∧ length (todo y) ≤ length (todo y')).
Proof.
  induction 1 as [|g gs Hg _ IH]; intros Hp acc acc' x x' Hx Hacc; cbn [run_seq].
  - destruct Hacc as [[H1 H2]|?]; [|done]. rewrite !bool_decide_eq_false_2 by done. right; left. eauto 10.
  - cbn in Hp. apply orb_false_iff in Hp as [Hp Hps]. rewrite Hp in Hg.
    destruct (Hg x x' Hx) as [H|l l' y y' -> -> H3 H4 H5|y y' H1 H2 H3|l' y y' H1 H2 H3 H4 H5 H6 H7].
    + left. destruct H as [(y & -> & Hy)|[-> | ->]]; [left; by exists y|right; by left|right; by right].
    + destruct (IH Hps (acc ++ l) (acc' ++ l') y y' H3) as [H|[(m & m' & w & w' & -> & -> & H6 & H7 & H8)|H]].
      * destruct (blank g) eqn:Eb.
        -- destruct Hacc as [[Ha Ha']|Hb].
           ++ left. split; [by intros [-> _]%app_eq_nil|by intros [-> _]%app_eq_nil].
           ++ right. cbn in Hb. by rewrite Eb in Hb.
        -- destruct (H5 eq_refl) as [Hl Hl']. left. split; [by intros [_ ->]%app_eq_nil|by intros [_ ->]%app_eq_nil].
      * left. by eapply lost_later.
      * right; left. exists m, m', w, w'. split_and!; try done; [lia|by destruct H8..].
      * by right; right.
    + right; right. exists y, y'. split_and!; [by destruct H1 as [[-> E]| ->]|by destruct H2 as [[-> E]| ->]|done].
    + done.
Qed.
Lemma seq_sim ev ev' gs x x' : Forall (λ g, similar ev ev' g) gs → existsb picky gs = false →
  tied (todo x) (todo x') → existsb (λ g, negb (blank g)) gs = true →
  sim false false (todo x) (todo x') (run_seq ev true gs [] x) (run_seq ev' true gs [] x').
Proof.
  intros Hgs Hp Hx Hb. destruct Hgs as [|g gs Hg Hgs]; [done|]. cbn in Hp. apply orb_false_iff in Hp as [Hp Hps]. rewrite Hp in Hg. cbn [run_seq].
  destruct (Hg x x' Hx) as [H|l l' y y' -> -> H3 H4 H5|y y' H1 H2 H3|l' y y' H1 H2 H3 H4 H5 H6 H7].
  - apply sim_lost. destruct H as [(y & -> & Hy)|[-> | ->]]; [left; by exists y|right; by left|right; by right].
  - destruct (seq_rest ev ev' gs Hgs Hps ([] ++ l) ([] ++ l') y y' H3) as [H|[(m & m' & w & w' & -> & -> & H6 & H7 & H8)|(w & w' & -> & -> & H)]].
    + cbn in Hb. destruct (blank g); [by right|left]. by apply H5.
    + apply sim_lost. by eapply lost_later.
    + eapply sim_ok; [done|done|done|lia|done].
    + eapply sim_no; [by right|by right|done].
  - eapply sim_no; [| |exact H3].
    + destruct H1 as [[-> E]| ->]; [by left|by right].
    + destruct H2 as [[-> E]| ->]; [by left|by right].
  - done.
Qed.
Lemma alt_sim ev ev' gs : Forall (λ g, similar ev ev' g) gs → ∀ failed failed' x x', tied (todo x) (todo x') →
  sim (existsb picky gs) (existsb blank gs) (todo x) (todo x') (run_alt_at 49 ev failed gs x) (run_alt ev' failed' gs x').
Proof.
  induction 1 as [|g gs Hg _ IH]; intros failed failed' x x' Hx; cbn [run_alt_at run_alt existsb].
  - pose proof (tied_length _ _ Hx). eapply (sim_no _ _ _ _ _ _ x x'); [destruct failed; [by right|by left]|destruct failed'; [by right|by left]|lia].
  - destruct (Hg (branch x) (branch x') Hx) as [H|l l' y y' -> -> H3 H4 H5|y y' H1 H2 H3|l' y y' H1 H2 H3 H4 -> H6 H7].
    + apply sim_lost. destruct H as [(y & -> & Hy)|[-> | ->]]; [|right; by left|right; by right].
      rewrite (lost_stop _ x y eq_refl Hy). apply stop_lost; [done|]. by eapply lost_stop.
    + eapply sim_ok; [done|done|done|done|]. intros [Hb _]%orb_false_iff. auto.
    + assert (∀ f f', sim (picky g || existsb picky gs) (blank g || existsb blank gs) (todo x) (todo x')
        (run_alt_at 49 ev f gs (drop_branch x y)) (run_alt ev' f' gs (drop_branch x' y'))) as Hnext.
      { intros f f'. eapply sim_weaken; [| |exact (IH f f' (drop_branch x y) (drop_branch x' y') Hx)].
        - intros ->. by rewrite orb_true_r.
        - by intros [_ ?]%orb_false_iff. }
      assert (stop_at 49 x y = false → stop x' y' = false) as Hst by (by eapply go_on).
      destruct H1 as [[-> E]| ->].
      * specialize (Hst (stay _ _ E)). destruct H2 as [[-> E']| ->]; [done|]. rewrite Hst. done.
      * destruct (stop_at 49 x y) eqn:Es; [apply sim_lost; by apply stop_lost|]. specialize (Hst eq_refl).
        destruct H2 as [[-> E']| ->]; [done|]. rewrite Hst. done.
    + cbn in H2, H3. assert (∃ f, run_alt_at 49 ev failed (g :: gs) x = run_alt_at 49 ev f gs (drop_branch x y)) as [f Hf].
      { cbn [run_alt_at]. destruct H4 as [[-> E]| ->]; [by eexists|]. rewrite at_end by done. by eexists. }
      cbn [run_alt_at] in Hf. rewrite Hf. rewrite H1. cbn [orb].
      destruct (IH f failed' (drop_branch x y) x' Hx) as [J|m m' w w' -> _ J3 J4 J5|w w' J1 _ J3|m' w w' J1 _ J3 J4 _ J6 J7].
      * by apply sim_lost.
      * eapply sim_ok; [done|done| |exact J4|].
        -- cbn [todo drop_branch] in J4. rewrite H2 in J4. destruct (todo w) eqn:Ew; [|cbn in J4; lia].
           cbn [accept todo]. rewrite H6. apply tied_end.
        -- intros [Hb Hb']%orb_false_iff. split; [by apply J5|by apply H7].
      * eapply sim_more; [done|done|done|exact J1|done|done|]. by intros [Hb _]%orb_false_iff; apply H7.
      * eapply sim_more; [done|done|done|exact J4|done|done|]. by intros [Hb _]%orb_false_iff; apply H7.
Qed.
Lemma opt_sim p b ev ev' x x' : (∀ x x', tied (todo x) (todo x') → sim p b (todo x) (todo x') (ev x) (ev' x')) → tied (todo x) (todo x') →
  sim false true (todo x) (todo x') (run_opt_at 49 ev x) (run_opt ev' x').
Proof.
  intros Hg Hx. unfold run_opt_at, run_opt.
  destruct (Hg (branch x) (branch x') Hx) as [H|l l' y y' -> -> H3 H4 H5|y y' H1 H2 H3|l' y y' H1 H2 H3 H4 -> H6 H7].
  - apply sim_lost. destruct H as [(y & -> & Hy)|[-> | ->]]; [|right; by left|right; by right].
    rewrite (lost_stop _ x y eq_refl Hy). apply stop_lost; [done|]. by eapply lost_stop.
  - by eapply sim_ok.
  - assert (stop_at 49 x y = false → stop x' y' = false) as Hst by (by eapply go_on).
    assert (stop_at 49 x y = false → ∃ w', todo w' = todo x' ∧ match ev' (branch x') with Ret o y0 => Ret (Some (default [] o)) (accept x' y0)
      | Err y0 => if stop x' y0 then Err (accept x' y0) else Ret (Some []) (drop_branch x' y0) | r => r end = Ret (Some []) w') as H2'.
    { intros E. destruct H2 as [[-> E']| ->]; [by exists (accept x' y')|]. rewrite (Hst E). by exists (drop_branch x' y'). }
    destruct H1 as [[-> E]| ->].
    + destruct (H2' (stay _ _ E)) as (w' & Hw & ->). eapply sim_ok; [done|done| | |done]; cbn; rewrite E; [by rewrite Hw|done].
    + destruct (stop_at 49 x y) eqn:Es; [apply sim_lost; by apply stop_lost|].
      destruct (H2' eq_refl) as (w' & Hw & ->). eapply sim_ok; [done|done| |done|done]. cbn. by rewrite Hw.
  - cbn in H2. destruct H4 as [[-> E]| ->].
    + eapply sim_ok; [done|done| | |done]; cbn in *; rewrite E, H2; [rewrite H6; apply tied_end|done].
    + rewrite at_end by done. eapply sim_ok; [done|done| |done|done]; cbn. rewrite H2, H6. apply tied_end.
Qed.
Lemma many_some ev some n acc x y : run_many ev some n acc x ≠ Ret None y.
Proof.
  revert some acc x. induction n as [|n IH]; intros some acc x; cbn [run_many]; [done|].
  destruct (ev (branch x)) as [[l|] w|w| |]; try done; [by destruct some|]. destruct (stop x w); [done|by destruct some].
Qed.
Lemma many_some_at ev some n acc x y : run_many_at 49 ev some n acc x ≠ Ret None y.
Proof.
  revert some acc x. induction n as [|n IH]; intros some acc x; cbn [run_many_at]; [done|].
  destruct (ev (branch x)) as [[l|] w|w| |]; try done; [by destruct some|]. destruct (stop_at 49 x w); [done|by destruct some].
Qed.
Lemma many_sim p b ev ev' bb : (∀ x x', tied (todo x) (todo x') → sim p b (todo x) (todo x') (ev x) (ev' x')) →
  ∀ n n' (some : bool) acc acc' x x', tied (todo x) (todo x') → run_many ev' some n' acc' x' ≠ NoFuel →
  (bb = false → acc ≠ [] ∧ acc' ≠ [] ∨ some = true ∧ b = false) →
  sim (some && p) bb (todo x) (todo x') (run_many_at 49 ev some n acc x) (run_many ev' some n' acc' x').
Proof.
  intros Hg n. induction n as [|n IH]; intros n' some acc acc' x x' Hx Hn Hb; [apply sim_lost; right; by right|].
  destruct n' as [|n']; [done|]. cbn [run_many_at run_many] in *.
  destruct (Hg (branch x) (branch x') Hx) as [H|l l' y y' E E' H3 H4 H5|y y' H1 H2 H3|l' y y' H1 H2 H3 H4 E' H6 H7].
  - apply sim_lost. destruct H as [(y & -> & Hy)|[-> | ->]]; [|right; by left|right; by right].
    rewrite (lost_stop _ x y eq_refl Hy). apply stop_lost; [done|]. by eapply lost_stop.
  - rewrite E, E' in *. cbn in H4.
    assert (sim (false && p) bb (todo y) (todo y') (run_many_at 49 ev false n (acc ++ l) (accept x y)) (run_many ev' false n' (acc' ++ l') (accept x' y'))) as HI.
    { apply (IH n' false (acc ++ l) (acc' ++ l') (accept x y) (accept x' y')); [done|done|].
      intros Hbb. left. destruct (Hb Hbb) as [[Ha Ha']|[_ Hbf]].
      - split; [by intros [-> _]%app_eq_nil|by intros [-> _]%app_eq_nil].
      - destruct (H5 Hbf) as [Hl Hl']. split; [by intros [_ ->]%app_eq_nil|by intros [_ ->]%app_eq_nil]. }
    destruct HI as [J|m m' w w' J1 J2 J3 J4 J5|w w' J1 J2 J3|]; [|eapply sim_ok; [exact J1|exact J2|done|lia|done]| |done].
    + apply sim_lost. by eapply lost_later.
    + eapply sim_no; [right; destruct J1 as [[J1 _]|J1]; [by apply many_some_at in J1|exact J1]
        |right; destruct J2 as [[J2 _]|J2]; [by apply many_some in J2|exact J2]|done].
  - assert (stop_at 49 x y = false → stop x' y' = false) as Hst by (by eapply go_on).
    pose proof (tied_length _ _ Hx) as Hlen.
    assert (stop_at 49 x y = false → ∃ w', todo w' = todo x' ∧ run_many ev' some (S n') acc' x' = if some then Err w' else Ret (Some acc') w') as H2'.
    { intros E. cbn [run_many]. destruct H2 as [[-> E']| ->]; [eexists (accept x' y'); by destruct some|]. rewrite (Hst E).
      eexists (drop_branch x' y'); by destruct some. }
    assert (∀ w w', todo w = todo x → todo w' = todo x' → sim (some && p) bb (todo x) (todo x') (if some then Err w else Ret (Some acc) w)
      (if some then Err w' else Ret (Some acc') w')) as Hfin.
    { intros w w' Hw Hw'. destruct some.
      - eapply sim_no; [by right|by right|]. rewrite Hw, Hw'. lia.
      - eapply sim_ok; [done|done|by rewrite Hw, Hw'|by rewrite Hw|]. intros Hbb. by destruct (Hb Hbb) as [?|[? _]]. }
    cbn [run_many] in H2'.
    destruct H1 as [[-> E]| ->].
    + destruct (H2' (stay _ _ E)) as (w' & Hw & ->). by apply Hfin.
    + destruct (stop_at 49 x y) eqn:Es; [apply sim_lost; by apply stop_lost|].
      destruct (H2' eq_refl) as (w' & Hw & ->). by apply Hfin.
  - cbn in H2, H3. rewrite E' in *.
    assert (∃ w, todo w = [] ∧ run_many_at 49 ev some (S n) acc x = if some then Err w else Ret (Some acc) w) as (w & Hw & Er).
    { cbn [run_many_at]. destruct H4 as [[-> E]| ->]; [exists (accept x y); split; [cbn; rewrite E; exact H2|by destruct some]|].
      rewrite at_end by done. exists (drop_branch x y). split; [exact H2|by destruct some]. }
    cbn [run_many_at] in Er. rewrite Er.
    assert (∃ w', todo w' = [] ∧ run_many ev' false n' (acc' ++ l') (accept x' y') = Ret (Some (acc' ++ l')) w') as (w' & Hw' & Er').
    { destruct n' as [|n']; [done|]. cbn [run_many].
      destruct (Hg (branch x) (branch (accept x' y'))) as [J|m m' v v' J1 J2 J3 J4 J5|v v' J1 J2 J3|m' v v' J1 J2 J3 J4 J5 J6 J7].
      - cbn. rewrite H2, H6. apply tied_end.
      - cbn [todo branch] in J, H4. rewrite H2 in J, H4. by destruct (end_not_lost _ _ H4).
      - exfalso. rewrite J1 in H4. by destruct H4 as [[? _]|?].
      - cbn in J2. destruct J2 as [[-> E]| ->]; [eexists; split; [|done]; cbn; by rewrite E|].
        rewrite at_end' by done. eexists; split; [|done]. done.
      - cbn in J3. by rewrite H6 in J3. }
    rewrite Er'. destruct some; cbn [andb].
    + eapply sim_more; [done|exact H2|exact H3|by right|done|done|].
      intros Hbb. destruct (Hb Hbb) as [[_ Ha]|[_ Hbf]]; [by intros [-> _]%app_eq_nil|]. specialize (H7 Hbf). by intros [_ ->]%app_eq_nil.
    + eapply sim_ok; [done|done|rewrite Hw, Hw'; apply tied_end|rewrite Hw; cbn; lia|].
      intros Hbb. destruct (Hb Hbb) as [[Ha Ha']|[? _]]; [|done]. split; [done|]. by intros [-> _]%app_eq_nil.
Qed.

Context (eof eof' : pos).
Definition pfails (ts : list token) (p : parsed) (us : list token) : Prop := p = PNone ∧ us = ts ∨ p = PErr us.
Inductive psim (k : kind) (ts ts' : list token) (p p' : parsed) : Prop :=
| psim_lost : (∃ us, p = PErr us ∧ 49 < length ts - length us) ∨ p = PCrash ∨ p = PNoFuel → psim k ts ts' p p'
| psim_ok t t' us us' : p = PNode t us → p' = PNode t' us' → tied us us' → length us ≤ length ts → psim k ts ts' p p'
| psim_no us us' : pfails ts p us → pfails ts' p' us' → length us ≤ length us' → psim k ts ts' p p'
| psim_more us t' : picky_kind k = true → ts = [] → ts' = [z] → pfails ts p us → p' = PNode t' [] → psim k ts ts' p p'.
Lemma parser_fueled g x : loops_ok g = true → eval (parser eof') g x ≠ NoFuel.
Proof.
  intros Hl. eapply (eval_fuel (parser eof') (parser_moves eof') (S (length (todo x))) 0); [intros; apply parser_not_out_of_fuel|done|]. left. lia.
Qed.
Lemma next_sim (f : token → bool) p b x x' : tied (todo x) (todo x') → (f z = true → p = true) → sim p b (todo x) (todo x') (next_is f x) (next_is f x').
Proof.
  intros [Hf H] Hp. unfold next_is. destruct (todo x) as [|t ts] eqn:E.
  - destruct H as [H|[_ H]]; rewrite H; cbn [app].
    + destruct (f z) eqn:Ez.
      * eapply sim_more; [auto|done|done|by left|done|done|done].
      * eapply (sim_no _ _ _ _ _ _ x x'); [by left|by left|]. rewrite E, H. cbn. lia.
    + eapply (sim_no _ _ _ _ _ _ x x'); [by left|by left|]. by rewrite E, H.
  - destruct H as [H|[H _]]; [|done]. rewrite H. cbn [app]. destruct (f t).
    + eapply sim_ok; [done|done| |cbn; lia|done]. cbn. apply Forall_cons in Hf as [_ Hf]. split; [done|by left].
    + eapply (sim_no _ _ _ _ _ _ x x'); [by left|by left|]. rewrite E, H. cbn. rewrite app_length. lia.
Qed.
Lemma eval_sim sub g : wf g = true → loops_ok g = true →
  (∀ k ts ts', tied ts ts' → psim k ts ts' (sub k ts) (parser eof' k ts')) →
  ∀ x x', tied (todo x) (todo x') → sim (picky g) (blank g) (todo x) (todo x') (eval_at 49 sub g x) (eval (parser eof') g x').
Proof.
  intros Hw Hl Hs. revert Hw Hl.
  induction g as [s|t|f k|f g IH|gs IH|gs IH|g IH|g IH|g IH] using gexp_ind2; intros Hw Hl x x' Hx; cbn [picky blank].
  - apply next_sim; [done|]. cbn in Hw. apply bool_decide_eq_true in Hw. intros H%bool_decide_eq_true. by rewrite Hv in H.
  - apply next_sim; [done|]. rewrite Hz. intros H%bool_decide_eq_true. by apply bool_decide_eq_true.
  - cbn [eval_at eval]. destruct (Hs k _ _ Hx) as [[(us & -> & H)|[-> | ->]]|t t' us us' -> -> H3 H4|us us' H1 H2 H3|us t' H1 H2 H3 H4 ->].
    + apply sim_lost. left. by eexists.
    + apply sim_lost. right. by left.
    + apply sim_lost. right. by right.
    + by eapply sim_ok.
    + destruct H1 as [[-> ->]| ->], H2 as [[-> ->]| ->]; (eapply sim_no; [by (left + right)|by (left + right)|done]).
    + destruct H4 as [[-> ->]| ->]; (eapply sim_more; [done|done|done|by (left + right)|done|done|done]).
  - cbn [eval_at eval]. destruct (IH Hw Hl x x' Hx) as [H|l l' y y' -> -> H3 H4 H5|y y' H1 H2 H3|l' y y' H1 H2 H3 H4 -> H6 H7].
    + apply sim_lost. destruct H as [(y & -> & Hy)|[-> | ->]]; [left; by exists y|right; by left|right; by right].
    + by eapply sim_ok.
    + eapply sim_no; [| |exact H3].
      * destruct H1 as [[-> E]| ->]; [by left|by right].
      * destruct H2 as [[-> E]| ->]; [by left|by right].
    + eapply sim_more; [done|done|done| |done|done|done]. destruct H4 as [[-> E]| ->]; [by left|by right].
  - cbn [wf loops_ok] in Hw, Hl. rewrite !andb_true_iff in Hw. destruct Hw as [[Hw Hp] Hb].
    eapply (sim_weaken false _ false); [done|done|]. cbn [eval_at eval]. apply seq_sim; [|by apply negb_true_iff|done|done].
    rewrite forallb_forall in Hw, Hl. rewrite Forall_forall in IH |- *. intros g Hg. apply IH; [done|apply Hw|apply Hl]; by apply elem_of_list_In.
  - cbn [wf loops_ok] in Hw, Hl. cbn [eval_at eval]. apply alt_sim; [|done].
    rewrite forallb_forall in Hw, Hl. rewrite Forall_forall in IH |- *. intros g Hg. apply IH; [done|apply Hw|apply Hl]; by apply elem_of_list_In.
  - cbn [eval_at eval]. eapply opt_sim; [|done]. by apply IH.
  - pose proof (parser_fueled _ x' Hl) as Hf. cbn [loops_ok] in Hl. apply andb_true_iff in Hl as [_ Hl].
    cbn [eval_at eval] in *. apply (many_sim (picky g) (blank g) _ _ true (IH Hw Hl) _ _ false [] []); done.
  - pose proof (parser_fueled _ x' Hl) as Hf. cbn [loops_ok] in Hl. apply andb_true_iff in Hl as [_ Hl].
    cbn [eval_at eval] in *. apply (many_sim (picky g) (blank g) _ _ (blank g) (IH Hw Hl) _ _ true [] []); [done|done|by right].
Qed.
Lemma struct_sim m : ∀ k ts ts', tied ts ts' → psim k ts ts' (parse_struct_at 49 eof m k ts) (parser eof' k ts').
Proof.
  induction m as [|m IH]; intros k ts ts' Hts; cbn [parse_struct_at]; [apply psim_lost; right; by right|].
  pose proof (grammar_wf k) as Hw. rewrite !andb_true_iff in Hw. destruct Hw as [[Hw Hl] Hp].
  rewrite parser_unfold.
  assert (fine z) as Hfz by (split; rewrite Hz; done).
  assert (Forall fine ts') as Hf'.
  { destruct Hts as [Hf [->|[-> ->]]]; [|constructor]. apply Forall_app. split; [done|]. by constructor. }
  destruct (eval_sim _ _ Hw Hl IH (Ctx ts [] []) (Ctx ts' [] []) Hts) as [H|l l' y y' E E' H3 H4 H5|y y' H1 H2 H3|l' y y' H1 H2 H3 H4 E' H6 H7]; cbn [todo] in *.
  - apply psim_lost. destruct H as [(y & -> & Hy)|[-> | ->]]; [left; by exists (todo y)|right; by left|right; by right].
  - rewrite E, E'. cbn [finish_struct].
    destruct (eval_stored _ _ _ _ _ (parser_moves eof') Hf' E') as [fs' ->].
    destruct (eval_stored (parse_struct eof m) k ts l y) as [fs ->]; [apply parse_struct_moves|by destruct Hts| |].
    + destruct (close_eval 49 50 ltac:(lia) _ _ (grammar k) (close_struct 49 50 ltac:(lia) eof m) (Ctx ts [] [])) as [[Hc _]|(w & Hc & _)].
      * by rewrite <- E, Hc.
      * by rewrite E in Hc.
    + by eapply psim_ok.
  - eapply psim_no; [| |exact H3].
    + destruct H1 as [[-> E]| ->]; [by left|by right].
    + destruct H2 as [[-> E]| ->]; [by left|by right].
  - rewrite E'. cbn [finish_struct]. destruct (eval_stored _ _ _ _ _ (parser_moves eof') Hf' E') as [fs' ->]. rewrite H6.
    eapply (psim_more _ _ _ _ _ (todo y)); [by rewrite H1 in Hp|done|done| |done].
    destruct H4 as [[-> E]| ->]; [by left|by right].
Qed.
Lemma many_ends ev some n acc x l w : (∀ x y, ev x = Ret None y → todo y = todo x) → run_many ev some n acc x = Ret (Some l) w →
  ∃ v, todo v = todo w ∧ ∀ m y, ev v ≠ Ret (Some m) y.
Proof.
  intros Hn. revert some acc x. induction n as [|n IH]; intros some acc x; cbn [run_many]; [done|].
  destruct (ev (branch x)) as [[m|] y|y| |] eqn:E; try done; [by apply IH| |].
  - destruct some; [done|]. intros [= _ <-]. exists (branch x). rewrite E. split; [|done]. symmetry. by apply (Hn (branch x) y).
  - destruct (stop x y); [done|]. destruct some; [done|]. intros [= _ <-]. exists (branch x). by rewrite E.
Qed.
Lemma line_item : ∃ t, parser eof' KRootItem [z] = PNode t [].
Proof.
  rewrite parser_unfold. cbn [grammar eval run_alt g_empty_line run_many length]. unfold next_is. cbn [branch todo]. rewrite Hz, bool_decide_eq_true_2 by done.
  cbn. by eexists.
Qed.
Lemma nothing_left ts t : parser eof' KAST ts ≠ PNode t [z].
Proof.
  rewrite parser_unfold. cbn [grammar eval].
  destruct (run_many _ _ _ _ _) as [[l|] w|w| |] eqn:E; cbn [finish_struct]; try done.
  destruct (store_all _ _ _); try done. intros [= _ Hw].
  apply many_ends in E; [destruct E as (u & Huw & Hno)|].
  - destruct line_item as [i Hi]. specialize (Hno [[]] (Ctx [] (assigned u ++ waiting u) [(FItems, Struct i)])). by rewrite Huw, Hw, Hi in Hno.
  - intros x y. by destruct (parser eof' KRootItem (todo x)); intros [= <-].
Qed.
Lemma tokens_accepted ts r : Forall fine ts → parse_tokens_at 49 eof ts = Ok (Some r) → ∃ r', parse_tokens eof' (ts ++ [z]) = Ok (Some r').
Proof.
  intros Hf. unfold parse_tokens_at. rewrite parse_tokens_parser.
  destruct (struct_sim (struct_fuel ts) KAST ts (ts ++ [z])) as [[(us & -> & H)|[-> | ->]]|t t' us us' -> H2 H3 H4|us us' H1 H2 H3|us t' H1 H2 H3 H4 ->]; try done.
  - split; [done|by left].
  - destruct us; [|done]. intros _. destruct H3 as [_ [->|[_ ->]]]; [by apply nothing_left in H2|]. rewrite H2. eauto.
  - by destruct H1 as [[-> _]| ->].
Qed.
End runs.
