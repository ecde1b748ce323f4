(** * The nodes of a parsed tree are results of the parser *)
From stdpp Require Import base list option strings.
From Coq Require Import Ascii Lia.
From Verif Require Import GoBase EtxAst EtxHeap EtxHeapSpec EtxText EtxLex EtxUtil EtxGram EtxParse EtxParseBase
  EtxParseSpec EtxParseStore EtxParseTyped EtxParseFirst EtxParseClean EtxFind EtxFormat.

Definition tail_of (ts ts0 : list token) : Prop := ∃ us, ts0 = us ++ ts.
Lemma tail_of_trans a b c : tail_of a b → tail_of b c → tail_of a c.
Proof. intros [u ->] [v ->]. exists (v ++ u). by rewrite (assoc_L _). Qed.
Section captures.
Context (sub : kind → list token → parsed) (ts0 : list token).
Context (Hmoves : ∀ k ts, moves_struct (negb (empty_struct k)) ts (sub k ts)).
Definition came (t : ast) : Prop := ∃ k ts ts', tail_of ts ts0 ∧ sub k ts = PNode t ts'.
Definition came_capture (c : capture) : Prop := match c.2 with Struct t => came t | Texts _ => True end.
Definition came_ctx (x : ctx) : Prop :=
  Forall came_capture (assigned x) ∧ Forall came_capture (waiting x).
Definition came_result (r : result) : Prop :=
  match r with Ret _ y | Err y => came_ctx y | _ => True end.
Lemma came_branch x : came_ctx x → came_ctx (branch x).
Proof. intros [H _]. by split; [|constructor]. Qed.
Lemma came_accept x y : came_ctx x → came_ctx y → came_ctx (accept x y).
Proof. intros [_ H] [H1 H2]. split; [done|]. by apply Forall_app. Qed.
Lemma came_drop x y : came_ctx x → came_ctx y → came_ctx (drop_branch x y).
Proof. intros [_ H] [H1 _]. by split. Qed.
Lemma eval_tail g x o y : eval sub g x = Ret o y → tail_of (todo x) ts0 → tail_of (todo y) ts0.
Proof.
  intros E Hx. pose proof (eval_moves sub Hmoves g x) as H. rewrite E in H. destruct H as (us & Hus & _).
  eapply tail_of_trans; [|exact Hx]. by exists us.
Qed.
Lemma many_came g some n acc x :
  (∀ x, tail_of (todo x) ts0 → came_ctx x → came_result (eval sub g x)) →
  tail_of (todo x) ts0 → came_ctx x → came_result (run_many (eval sub g) some n acc x).
Proof.
  intros Hg. revert some acc x. induction n as [|n IH]; intros some acc x Ht Hx; [done|]. cbn [run_many].
  pose proof (Hg (branch x) Ht (came_branch _ Hx)) as H. destruct (eval sub g (branch x)) as [[l|] y|y| |] eqn:E; try done; cbn in H.
  - apply IH; [|by apply came_accept]. exact (eval_tail g (branch x) (Some l) y E Ht).
  - destruct some; cbn; by apply came_accept.
  - destruct (stop x y); [by apply came_accept|]. destruct some; cbn; by apply came_drop.
Qed.
Lemma eval_came g : ∀ x, tail_of (todo x) ts0 → came_ctx x → came_result (eval sub g x).
Proof.
  induction g as [s|t|f k|f g IH|gs IH|gs IH|g IH|g IH|g IH] using gexp_ind2; intros x Ht Hx; cbn [eval].
  - unfold next_is. repeat case_match; done.
  - unfold next_is. repeat case_match; done.
  - destruct Hx as [H1 H2]. destruct (sub k (todo x)) eqn:E; try done.
    + split; cbn; [by apply Forall_app|]. constructor; [|constructor]. by exists k, (todo x), ts.
    + split; cbn; [by apply Forall_app|constructor].
  - specialize (IH x Ht Hx). destruct (eval sub g x) as [[l|] y|y| |]; try done. destruct IH as [H1 H2]. split; [done|]. cbn.
    apply Forall_app. split; [done|]. by constructor; [|constructor].
  - revert x Ht Hx. generalize true, (@nil text). induction IH as [|g gs Hg _ IHs]; intros first acc x Ht Hx; [done|]. cbn [run_seq].
    specialize (Hg x Ht Hx). destruct (eval sub g x) as [[l|] y|y| |] eqn:E; try done.
    + apply IHs; [by eapply eval_tail|done].
    + by destruct first.
  - revert x Ht Hx. generalize false. induction IH as [|g gs Hg _ IHs]; intros failed x Ht Hx; [by destruct failed|]. cbn [run_alt].
    specialize (Hg (branch x) Ht (came_branch _ Hx)). destruct (eval sub g (branch x)) as [[l|] y|y| |] eqn:E; try done.
    + by apply came_accept.
    + apply IHs; [done|by apply came_drop].
    + destruct (stop x y); [by apply came_accept|]. apply IHs; [done|by apply came_drop].
  - unfold run_opt. specialize (IH (branch x) Ht (came_branch _ Hx)). destruct (eval sub g (branch x)) as [o y|y| |]; try done.
    + by apply came_accept.
    + destruct (stop x y); [by apply came_accept|by apply came_drop].
  - by apply many_came.
  - by apply many_came.
Qed.
End captures.

(** ** What is in the fields *)
Definition leaf (t : ast) : Prop := kind_of t ∈ [KValueBool; KValueNumber] ∧ nodes t = [t].
Lemma set_field_elem f (v : aval) fs g w : (g, w) ∈ set_field f v fs → (g, w) ∈ fs ∨ w = v.
Proof.
  induction fs as [|[f' y] fs IH]; cbn; [by intros ?%elem_of_nil|]. destruct (decide (f = f')).
  - intros [E|H]%elem_of_cons; [injection E as -> ->; by right|left; by right].
  - intros [E|H]%elem_of_cons; [left; rewrite E; by left|]. destruct (IH H); [left; by right|by right].
Qed.
Lemma store_subs k fs c fs' f v t :
  store k fs c = Stored fs' → (f, v) ∈ fs' → t ∈ val_subs v →
  (∃ f v, (f, v) ∈ fs ∧ t ∈ val_subs v) ∨ c.2 = Struct t ∨ leaf t.
Proof.
  assert (∀ g w, update g w fs = Stored fs' →
    (∀ old new, w old = Some new → t ∈ val_subs new → t ∈ val_subs old ∨ c.2 = Struct t ∨ leaf t) →
    (f, v) ∈ fs' → t ∈ val_subs v → (∃ f v, (f, v) ∈ fs ∧ t ∈ val_subs v) ∨ c.2 = Struct t ∨ leaf t) as Hup.
  { intros g w H Hw Hv Ht. unfold update in H. destruct (assoc g fs) as [old|] eqn:Eo; [|done].
    destruct (w old) as [new|] eqn:En; [|done]. injection H as <-. apply set_field_elem in Hv as [Hv| ->]; [by left; exists f, v|].
    destruct (Hw _ _ En Ht) as [Ho|Ho]; [left; exists g, old; split; [by apply assoc_elem|done]|by right]. }
  destruct c as [g [l|m]]; cbn [store].
  - intros H Hv Ht.
    assert (update g (λ old,
            match old with
            | VStr s => Some (VStr (s +:+ str (concat l)))
            | VBool _ => Some (VBool true)
            | VStrs o => Some (VStrs (Some (tt, match o with Some (_, l') => l' | None => [] end ++ map str l)))
            | _ => None
            end) fs = Stored fs' → (∃ f v, (f, v) ∈ fs ∧ t ∈ val_subs v) ∨ (g, Texts l).2 = Struct t ∨ leaf t) as Hu.
    { intros Hs. eapply Hup; [exact Hs| |done|done]. intros old new E Hn. destruct old; try done; injection E as <-; by apply elem_of_nil in Hn. }
    destruct k; try (by apply Hu); destruct g; try (by apply Hu).
    + injection H as <-. apply set_field_elem in Hv as [Hv| ->]; [by left; exists f, v|]. right; right.
      apply elem_of_list_singleton in Ht as ->. split; [apply (bool_decide_unpack _); reflexivity|reflexivity].
    + destruct (capture_number _) as [[src n]|]; [|done]. injection H as <-.
      apply set_field_elem in Hv as [Hv| ->]; [by left; exists f, v|]. right; right.
      apply elem_of_list_singleton in Ht as ->. split; [apply (bool_decide_unpack _); reflexivity|reflexivity].
    + destruct (capture_delimiter _) as [[dash u]|]; [|done]. injection H as <-.
      apply set_field_elem in Hv as [Hv| ->]; [|by apply elem_of_nil in Ht].
      destruct dash; [|by left; exists f, v]. apply set_field_elem in Hv as [Hv| ->]; [by left; exists f, v|by apply elem_of_nil in Ht].
  - intros H Hv Ht. eapply Hup; [exact H| |done|done]. intros old new E Hn. destruct old as [| | | |o|x|o]; try done; injection E as <-.
    + apply elem_of_list_singleton in Hn as ->. by right; left.
    + apply elem_of_list_singleton in Hn as ->. by right; left.
    + change (t ∈ omap id ((match o with Some (_, l') => l' | None => [] end) ++ [Some m])) in Hn.
      rewrite omap_app in Hn. apply elem_of_app in Hn as [Hn|Hn].
      * left. destruct o as [[[] l]|]; [exact Hn|by apply elem_of_nil in Hn].
      * apply elem_of_list_singleton in Hn as ->. by right; left.
Qed.
Lemma store_all_subs k fs cs fs' f v t :
  store_all k fs cs = Stored fs' → (f, v) ∈ fs' → t ∈ val_subs v →
  (∃ f v, (f, v) ∈ fs ∧ t ∈ val_subs v) ∨ (∃ c, c ∈ cs ∧ c.2 = Struct t) ∨ leaf t.
Proof.
  revert fs. induction cs as [|c cs IH]; intros fs H Hv Ht; cbn [store_all] in H.
  - injection H as <-. left. by exists f, v.
  - destruct (store k fs c) as [fs1| |] eqn:E; try done. destruct (IH fs1 H Hv Ht) as [(g & w & Hw & Ht')|[(c' & Hc & Ht')|Hl]].
    + destruct (store_subs _ _ _ _ _ _ _ E Hw Ht') as [H1|[H1|H1]]; [by left|right; left; exists c; split; [by left|done]|by do 2 right].
    + right; left. exists c'. split; [by right|done].
    + by do 2 right.
Qed.
(** The zero value of an embedded struct has nothing in it. *)
Definition blank_node (t : ast) : Prop := ptr_of FPost t = None ∧ ptr_of FIdent t = None.
Lemma zero_blank k f (v : aval) c m : (f, v) ∈ fields (zero no_pos k) → c ∈ val_subs v → m ∈ nodes c → blank_node m.
Proof.
  intros H1 H2 H3. assert (forallb (λ k, forallb (λ q : fld * aval, forallb (λ c, forallb (λ m, is_nil (ptr_of FPost m) && is_nil (ptr_of FIdent m)) (nodes c)) (val_subs q.2))
    (fields (zero no_pos k))) all_kinds = true) as H by (vm_compute; reflexivity).
  pose proof (for_all_kinds _ H k) as Hk. cbn beta in Hk. rewrite forallb_forall in Hk. apply elem_of_list_In, Hk in H1.
  cbn [snd] in H1. rewrite forallb_forall in H1. apply elem_of_list_In, H1 in H2. rewrite forallb_forall in H2.
  apply elem_of_list_In, H2, andb_true_iff in H3 as [H3 H4]. split; [by destruct (ptr_of FPost m)|by destruct (ptr_of FIdent m)].
Qed.
Definition ran (eof : pos) (ts0 : list token) (m : ast) : Prop :=
  ∃ k ts ts', tail_of ts ts0 ∧ parser eof k ts = PNode m ts'.
Lemma nodes_ran eof k ts t ts' :
  parser eof k ts = PNode t ts' → ∀ m, m ∈ nodes t → ran eof ts m ∨ blank_node m ∨ leaf m.
Proof.
  enough (∀ k ts, match parser eof k ts with PNode t _ => ∀ m, m ∈ nodes t → m = t ∨ ran eof ts m ∨ blank_node m ∨ leaf m | _ => True end) as H.
  { intros E m Hm. specialize (H k ts). rewrite E in H. destruct (H m Hm) as [->|H']; [|done]. left.
    exists k, ts, ts'. split; [by exists []|done]. }
  clear. apply (parser_ind eof (λ k ts r, match r with PNode t _ => ∀ m, m ∈ nodes t → m = t ∨ ran eof ts m ∨ blank_node m ∨ leaf m | _ => True end)); [done|].
  intros sub Hp Hm IH k ts.
  pose proof (eval_came sub ts Hm (grammar k) (Ctx ts [] []) ltac:(by exists []) ltac:(by split; constructor)) as H.
  destruct (eval _ _ _) as [[l|] y|y| |]; cbn [finish_struct]; try done. destruct (store_all _ _ _) as [fs| |] eqn:E; try done.
  intros m Hn. apply nodes_inv in Hn as [->|(f & v & c & Hv & Hc & Hn)]; [by left|right]. cbn [fields] in Hv.
  destruct (store_all_subs _ _ _ _ _ _ _ E Hv Hc) as [(g & w & Hw & Hc')|[(d & Hd & Ed)|[Hl1 Hl2]]].
  - right; left. by eapply zero_blank.
  - destruct H as [H1 H2]. assert (came_capture sub ts d) as Hcame.
    { apply elem_of_app in Hd as [Hd|Hd]; rewrite Forall_forall in H1, H2; auto. }
    unfold came_capture in Hcame. rewrite Ed in Hcame. destruct Hcame as (k' & ts1 & ts2 & Htail & Es).
    assert (parser eof k' ts1 = PNode c ts2) as Ep by (rewrite <- Hp; congruence).
    specialize (IH k' ts1). rewrite Es in IH. destruct (IH m Hn) as [->|[(k2 & ts3 & ts4 & Ht & E2)|Hx]].
    + left. by exists k', ts1, ts2.
    + left. exists k2, ts3, ts4. split; [by eapply tail_of_trans|done].
    + by right.
  - do 2 right. rewrite Hl2 in Hn. apply elem_of_list_singleton in Hn as ->. by split.
Qed.
