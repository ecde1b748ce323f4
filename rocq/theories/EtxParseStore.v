(** * Assigning the captures of a struct *)
From stdpp Require Import base list option strings.
From Coq Require Import Ascii Lia.
From Verif Require Import GoBase EtxAst EtxHeap EtxHeapSpec EtxText EtxLex EtxUtil EtxGram EtxParse EtxParseBase
  EtxParseSpec.

Lemma str_app a b : str (a ++ b) = str a +:+ str b.
Proof. induction a as [|c a IH]; [done|]. change (String c (str (a ++ b)) = String c (str a +:+ str b)). by rewrite IH. Qed.
Lemma string_app_assoc (a b c : string) : a +:+ (b +:+ c) = (a +:+ b) +:+ c.
Proof.
  induction a as [|x a IH]; [done|]. change (String x (a +:+ (b +:+ c)) = String x ((a +:+ b) +:+ c)). by rewrite IH. Qed.
Lemma string_app_nil (a : string) : a +:+ "" = a.
Proof. induction a as [|x a IH]; [done|]. change (String x (a +:+ "") = String x a). by rewrite IH. Qed.

Definition upd (old : aval) (c : captured) : option aval :=
  match c with
  | Texts l =>
      match old with
      | VStr s => Some (VStr (s +:+ str (concat l)))
      | VBool _ => Some (VBool true)
      | VStrs o => Some (VStrs (Some (tt, match o with Some (_, l') => l' | None => [] end ++ map str l)))
      | _ => None
      end
  | Struct t =>
      match old with
      | VPtr _ => Some (VPtr (Some t))
      | VEmb _ => Some (VEmb t)
      | VList o => Some (VList (Some (tt, match o with Some (_, l') => l' | None => [] end ++ [Some t])))
      | _ => None
      end
  end.
Fixpoint upds (old : aval) (cs : list captured) : option aval :=
  match cs with [] => Some old | c :: cs => v ← upd old c; upds v cs end.
Definition special (k : kind) (c : capture) : bool :=
  match k, c with
  | KHeredoc, (FDelimiter, Texts _) | KValue, (FBool, Texts _) | KValue, (FNumber, Texts _) => true
  | _, _ => false
  end.
Lemma store_plain k fs f c : special k (f, c) = false → store k fs (f, c) = update f (λ old, upd old c) fs.
Proof.
  intros H. destruct c as [l|t]; cbn [store]; [|done].
  destruct k; try reflexivity; destruct f; try reflexivity; done.
Qed.

Lemma set_field_names {X} f (x : X) fs : map fst (set_field f x fs) = map fst fs.
Proof. induction fs as [|[f' y] fs IH]; [done|]. cbn. destruct (decide _); cbn; congruence. Qed.
Lemma assoc_set_same {X} f (x y : X) fs : assoc f fs = Some y → assoc f (set_field f x fs) = Some x.
Proof.
  induction fs as [|[f' z] fs IH]; [done|]. cbn. destruct (decide (f = f')) as [->|Hf]; cbn.
  - by rewrite decide_True.
  - by rewrite decide_False.
Qed.
Lemma assoc_set_other {X} f g (x : X) fs : f ≠ g → assoc g (set_field f x fs) = assoc g fs.
Proof.
  intros Hfg. induction fs as [|[f' z] fs IH]; [done|]. cbn. destruct (decide (f = f')) as [->|Hf]; cbn.
  - by rewrite !(decide_False (P := g = f')) by congruence.
  - by destruct (decide (g = f')).
Qed.

Lemma captures_of_cons f g c cs :
  captures_of f ((g, c) :: cs) = if decide (g = f) then c :: captures_of f cs else captures_of f cs.
Proof. unfold captures_of. rewrite filter_cons. cbn. by destruct (decide (g = f)). Qed.
Lemma captures_of_app f cs ds : captures_of f (cs ++ ds) = captures_of f cs ++ captures_of f ds.
Proof. unfold captures_of. by rewrite filter_app, map_app. Qed.

Lemma store_all_plain k cs fs fs' :
  Forall (λ c, special k c = false) cs → store_all k fs cs = Stored fs' →
  map fst fs' = map fst fs ∧
  ∀ f v, assoc f fs = Some v → ∃ v', assoc f fs' = Some v' ∧ upds v (captures_of f cs) = Some v'.
Proof.
  intros Hs. revert fs. induction Hs as [|[g c] cs Hc Hs IH]; intros fs H.
  - injection H as <-. split; [done|]. intros f v Hv. by exists v.
  - cbn [store_all] in H. rewrite store_plain in H by done. unfold update in H.
    destruct (assoc g fs) as [old|] eqn:E; [|done]. destruct (upd old c) as [x|] eqn:Ex; [|done].
    destruct (IH _ H) as [H1 H2]. split; [by rewrite H1, set_field_names|].
    intros f v Hv. rewrite captures_of_cons. destruct (decide (g = f)) as [->|Hf].
    + destruct (H2 f x) as (v' & ? & ?); [by eapply assoc_set_same|]. exists v'. split; [done|].
      assert (old = v) as -> by congruence. cbn. by rewrite Ex.
    + apply H2. by rewrite assoc_set_other.
Qed.
(** The converse. *)
Lemma store_all_stored k cs fs :
  Forall (λ c, special k c = false) cs →
  (∀ f v, assoc f fs = Some v → is_Some (upds v (captures_of f cs))) →
  Forall (λ c, is_Some (assoc c.1 fs)) cs → ∃ fs', store_all k fs cs = Stored fs'.
Proof.
  intros Hs. revert fs. induction Hs as [|[g c] cs Hc Hs IH]; intros fs H Ha; [by eexists|].
  apply Forall_cons in Ha as [[old Hold] Ha]. cbn [store_all]. rewrite store_plain by done. unfold update.
  cbn in Hold. rewrite Hold. pose proof (H g old Hold) as Hg. rewrite captures_of_cons, decide_True in Hg by done.
  cbn in Hg. destruct (upd old c) as [x|] eqn:Ex; [|by destruct Hg]. apply IH.
  - intros f v Hv. destruct (decide (g = f)) as [<-|Hf].
    + rewrite (assoc_set_same _ _ _ _ Hold) in Hv. by injection Hv as <-.
    + rewrite assoc_set_other in Hv by done. specialize (H f v Hv). by rewrite captures_of_cons, decide_False in H.
  - eapply Forall_impl; [exact Ha|]. intros [f' c'] [v Hv]. cbn in *. destruct (decide (g = f')) as [<-|Hf].
    + by rewrite (assoc_set_same _ _ _ _ Hold).
    + rewrite assoc_set_other by done. by eexists.
Qed.

Definition zero_of (ty : ftype) (v : aval) : bool :=
  match ty, v with
  | TStr, VStr s => bool_decide (s = "")
  | TBool, VBool b => negb b
  | TStrs, VStrs None | TFloat, VFloat None | TPtr _, VPtr None | TList _, VList None => true
  | TEmb _, VEmb _ => true
  | _, _ => false
  end.
Lemma zero_assoc k f ty :
  (f, ty) ∈ schema k → ∃ v, assoc f (fields (zero no_pos k)) = Some v ∧ zero_of ty v = true.
Proof.
  intros H. assert (forallb (λ p : fld * ftype, match assoc p.1 (fields (zero no_pos k) : list (fld * aval)) with
    Some v => zero_of p.2 v | None => false end) (schema k) = true) as Hk.
  { revert k H. intros k _. revert k. apply for_all_kinds. vm_compute. reflexivity. }
  rewrite forallb_forall in Hk. specialize (Hk (f, ty) ltac:(by apply elem_of_list_In)). cbn [fst snd] in Hk.
  destruct (assoc f _) as [v|]; [|done]. by exists v.
Qed.
Lemma zero_names k : map fst (fields (zero no_pos k) : list (fld * aval)) = map fst (schema k).
Proof.
  assert (forallb (λ k, bool_decide (map fst (fields (zero no_pos k) : list (fld * aval)) = map fst (schema k)))
    all_kinds = true) as H by (vm_compute; reflexivity).
  exact (proj1 (bool_decide_eq_true _) (for_all_kinds _ H k)).
Qed.

Lemma upds_value k f ty v cs v' :
  assoc f (fields (zero no_pos k)) = Some v → zero_of ty v = true → upds v cs = Some v' →
  plain_value k f ty cs = Some v'.
Proof.
  intros Hf Hz H. destruct ty, v as [s|b|o|o|o|t|o]; try done; cbn in Hz.
  - apply bool_decide_eq_true in Hz as ->. cbn.
    enough (∀ s, upds (VStr s) cs = Some v' → v' = VStr (s +:+ str (concat (texts_of cs)))) as E.
    { by rewrite (E _ H). }
    clear. induction cs as [|[l|t] cs IH]; intros s; cbn; [|intros ->%IH|done].
    + intros [= <-]. by rewrite string_app_nil.
    + by rewrite concat_app, str_app, string_app_assoc.
  - destruct b; [done|]. cbn. destruct cs as [|[l|t] cs]; [by injection H as <-| |done].
    rewrite bool_decide_true by done. cbn in H. clear -H. induction cs as [|[l'|t] cs IH]; cbn in H; [congruence|auto|done].
  - destruct o; [done|]. cbn. destruct cs as [|[l|t] cs]; [by injection H as <-| |done].
    rewrite decide_False by done. cbn in *. 
    enough (∀ o, upds (VStrs (Some (tt, o))) cs = Some v' → v' = VStrs (Some (tt, o ++ map str (texts_of cs)))) as E.
    { by rewrite (E _ H), map_app. }
    clear. induction cs as [|[l|t] cs IH]; intros o; cbn; [|intros ->%IH|done].
    + intros [= <-]. by rewrite app_nil_r.
    + by rewrite map_app, (assoc_L _).
  - destruct o; [done|]. destruct cs as [|[l|t] cs]; [|done|done]. cbn in *. by rewrite Hf.
  - destruct o; [done|]. cbn [plain_value].
    enough (∀ o, upds (VPtr o) cs = Some v' → v' = VPtr (match last (trees_of cs) with Some t => Some t | None => o end)) as E.
    { rewrite (E _ H). by destruct (last _). }
    clear. induction cs as [|[l|t] cs IH]; intros o; [|done|].
    + by intros [= <-].
    + cbn [upds upd mbind option_bind]. intros ->%IH. change (trees_of (Struct t :: cs)) with (t :: trees_of cs).
      rewrite last_cons. by destruct (last (trees_of cs)).
  - cbn [plain_value]. rewrite Hf.
    enough (∀ t, upds (VEmb t) cs = Some v' → v' = VEmb (match last (trees_of cs) with Some t => t | None => t end)) as E.
    { rewrite (E _ H). by destruct (last _). }
    clear. induction cs as [|[l|t] cs IH]; intros o; [|done|].
    + by intros [= <-].
    + cbn [upds upd mbind option_bind]. intros ->%IH. change (trees_of (Struct t :: cs)) with (t :: trees_of cs).
      rewrite last_cons. by destruct (last (trees_of cs)).
  - destruct o; [done|]. cbn. destruct cs as [|[l|t] cs]; [by injection H as <-|done|].
    rewrite decide_False by done. cbn in *. 
    enough (∀ o, upds (VList (Some (tt, o))) cs = Some v' → v' = VList (Some (tt, o ++ map Some (trees_of cs)))) as E.
    { by rewrite (E _ H). }
    clear. induction cs as [|[l|t] cs IH]; intros o; cbn; [|done|intros ->%IH].
    + intros [= <-]. by rewrite app_nil_r.
    + by rewrite <- (assoc_L _).
Qed.

(** ** The captures of a derivation *)
Lemma derives_alt_inv p gs us cs l : derives p (GAlt gs) us cs l → ∃ g, g ∈ gs ∧ derives p g us cs l.
Proof. inversion 1; subst. eauto. Qed.
Lemma derives_cap_inv p f g us cs l :
  derives p (GCap f g) us cs l → ∃ cs' l', derives p g us cs' l' ∧ cs = cs' ++ [(f, Texts l')].
Proof. inversion 1; subst. eauto. Qed.
Lemma derives_sub_inv p f k us cs l :
  derives p (GSub f k) us cs l → ∃ t, builds p k us t ∧ cs = [(f, Struct t)].
Proof. inversion 1; subst. eauto. Qed.
Lemma derives_lit_inv p s us cs l : derives p (GLit s) us cs l → ∃ t, us = [t] ∧ cs = [] ∧ l = [value t].
Proof. inversion 1; subst. eauto. Qed.
Lemma derives_tok_inv p k us cs l :
  derives p (GTok k) us cs l → ∃ t, us = [t] ∧ cs = [] ∧ l = [value t] ∧ kind_of_token t = k.
Proof. inversion 1; subst. eauto 6. Qed.
Lemma derives_cons_inv p g gs us cs l :
  derives p (GSeq (g :: gs)) us cs l →
  ∃ us1 us2 cs1 cs2 l1 l2, derives (first_pos p us2) g us1 cs1 l1 ∧ derives p (GSeq gs) us2 cs2 l2 ∧
    us = us1 ++ us2 ∧ cs = cs1 ++ cs2 ∧ l = l1 ++ l2.
Proof. inversion 1; subst. eauto 14. Qed.
Lemma derives_nil_inv p us cs l : derives p (GSeq []) us cs l → us = [] ∧ cs = [] ∧ l = [].
Proof. by inversion 1. Qed.

(** The captures of the fields of a grammar; a static over-approximation. *)
Fixpoint may_capture (g : gexp) (c : capture) : Prop :=
  match g with
  | GLit _ | GTok _ => False
  | GSub f k => ∃ t, c = (f, Struct t)
  | GCap f g => may_capture g c ∨ ∃ l, c = (f, Texts l)
  | GSeq gs | GAlt gs => (fix go gs := match gs with [] => False | g :: gs => may_capture g c ∨ go gs end) gs
  | GOpt g | GMany g | GSome g => may_capture g c
  end.
Lemma may_capture_list gs c :
  (fix go gs := match gs with [] => False | g :: gs => may_capture g c ∨ go gs end) gs ↔
  Exists (λ g, may_capture g c) gs.
Proof.
  induction gs as [|g gs IH]; [by rewrite Exists_nil|]. by rewrite Exists_cons, IH.
Qed.
Lemma derives_may_capture p g us cs l : derives p g us cs l → Forall (may_capture g) cs.
Proof.
  intros H. revert p g us cs l H. 
  apply (derives_ind2 (λ p g us cs l, Forall (may_capture g) cs) (λ _ _ _ _, True)); try done.
  - intros p f k us t _ _. constructor; [by exists t|done].
  - intros p f g us cs l _ H. apply Forall_app. split; [|constructor; [right; by exists l|done]].
    eapply Forall_impl; [exact H|]. by left.
  - intros p g gs us vs cs ds l m _ H1 _ H2. apply Forall_app. split.
    + eapply Forall_impl; [exact H1|]. by left.
    + eapply Forall_impl; [exact H2|]. by right.
  - intros p g gs us cs l Hg _ H. eapply Forall_impl; [exact H|]. intros c Hc. cbn. apply may_capture_list.
    apply Exists_exists. eauto.
  - intros p g us vs cs ds l m _ H1 _ H2. apply Forall_app. done.
  - intros p g us vs cs ds l m _ H1 _ H2. apply Forall_app. done.
Qed.

(** ** The fields of the node *)
Definition special_kind (k : kind) : bool := match k with KHeredoc | KValue => true | _ => false end.
Lemma special_kind_false k c : special_kind k = false → special k c = false.
Proof. by destruct k. Qed.
Lemma field_value_plain k f ty cs :
  special_kind k = false → field_value k f ty cs = plain_value k f ty (captures_of f cs).
Proof. by destruct k. Qed.
Lemma filled_plain k cs cs' fs :
  special_kind k = false → (∀ f, captures_of f cs' = captures_of f cs) →
  store_all k (fields (zero no_pos k)) cs' = Stored fs → filled k cs fs.
Proof.
  intros Hk Hcs H. apply store_all_plain in H as [H1 H2]; [|apply Forall_forall; intros; by apply special_kind_false].
  split; [by rewrite H1, zero_names|]. intros f ty Hf. rewrite field_value_plain by done.
  destruct (zero_assoc k f ty Hf) as (v & Hv & Hz). destruct (H2 f v Hv) as (v' & Hv' & Hu). rewrite Hcs in Hu.
  rewrite (upds_value k f ty v _ v' Hv Hz Hu). split; [eauto|done].
Qed.

Lemma derives_value_inv p us cs l :
  derives p (grammar KValue) us cs l →
  (∃ v, cs = [(FNull, Texts [v])] ∨ cs = [(FBool, Texts [v])] ∨ cs = [(FNumber, Texts [v])]) ∨
  (∃ t, cs = [(FStr, Struct t)] ∨ cs = [(FHeredoc, Struct t)] ∨ cs = [(FList, Struct t)] ∨ cs = [(FMap, Struct t)]).
Proof.
  intros (g & Hg & H)%derives_alt_inv. rewrite !elem_of_cons, elem_of_nil in Hg.
  destruct Hg as [->|[->|[->|[->|[->|[->|[->|[]]]]]]]].
  - apply derives_cap_inv in H as (cs' & l' & H & ->). apply derives_lit_inv in H as (t & -> & -> & ->). left. eauto.
  - apply derives_cap_inv in H as (cs' & l' & H & ->). apply derives_alt_inv in H as (g & Hg & H).
    assert (∃ s, g = GLit s) as [s ->].
    { rewrite !elem_of_cons, elem_of_nil in Hg. destruct Hg as [->|[->|[]]]; eauto. }
    apply derives_lit_inv in H as (t & -> & -> & ->). left. eauto.
  - apply derives_cap_inv in H as (cs' & l' & H & ->). apply derives_tok_inv in H as (t & -> & -> & -> & _). left. eauto.
  - apply derives_sub_inv in H as (t & _ & ->). right. eauto.
  - apply derives_sub_inv in H as (t & _ & ->). right. eauto.
  - apply derives_sub_inv in H as (t & _ & ->). right. eauto.
  - apply derives_sub_inv in H as (t & _ & ->). right. eauto 6.
Qed.
Lemma derives_heredoc_inv p us cs l :
  derives p (grammar KHeredoc) us cs l →
  ∃ t ds, t ∈ us ∧ kind_of_token t = THeredoc ∧ cs = (FDelimiter, Texts [value t]) :: ds ∧
    Forall (λ c, ∃ t, c = (FFragments, Struct t)) ds.
Proof.
  intros (us1 & us2 & cs1 & cs2 & l1 & l2 & H1 & H2 & -> & -> & ->)%derives_cons_inv.
  apply derives_cap_inv in H1 as (cs' & l' & H & ->). apply derives_tok_inv in H as (t & -> & -> & -> & Ht).
  exists t, cs2. split; [by left|]. split; [done|]. split; [done|]. apply derives_may_capture in H2.
  eapply Forall_impl; [exact H2|]. intros c. cbn. intuition.
Qed.
Ltac cases_of_schema H :=
  repeat (apply elem_of_cons in H as [H|H]; [injection H as -> ->|]); [..|by apply elem_of_nil in H].
Lemma filled_stored p k us cs l fs :
  derives p (grammar k) us cs l → store_all k (fields (zero no_pos k)) cs = Stored fs → filled k cs fs.
Proof.
  intros Hd H. destruct (special_kind k) eqn:Hk; [|by eapply filled_plain].
  assert (k = KValue ∨ k = KHeredoc) as [-> | ->] by (destruct k; auto; done).
  - apply derives_value_inv in Hd as [(v & [->|[->| ->]])|(t & [->|[->|[->| ->]]])];
      cbn [store_all store] in H.
    1: { cbn in H. injection H as <-. split; [done|]. intros f ty Hf. cbn [schema] in Hf.
         cases_of_schema Hf; (split; [eexists; reflexivity|reflexivity]). }
    1: { injection H as <-. split; [done|]. intros f ty Hf. cbn [schema] in Hf.
         cases_of_schema Hf; (split; [eexists; reflexivity|reflexivity]). }
    1: { destruct (capture_number (default [] (head [v]))) as [[src n]|] eqn:E; [|done]. injection H as <-.
         split; [done|]. intros f ty Hf. cbn [schema] in Hf. change (capture_number v = Some (src, n)) in E.
         cases_of_schema Hf; try (split; [eexists; reflexivity|reflexivity]).
         change (field_value KValue FNumber (TPtr KValueNumber) [(FNumber, Texts [v])]) with
           (n ← capture_number v; Some (VPtr (Some (T no_pos KValueNumber
              [(FValue, VFloat (Some (tt, str n.1))); (FSource, VStr (str n.1))]))) : option aval).
         rewrite E. split; [eexists; reflexivity|reflexivity]. }
    all: injection H as <-; split; [done|]; intros f ty Hf; cbn [schema] in Hf;
         cases_of_schema Hf; (split; [eexists; reflexivity|reflexivity]).
  - apply derives_heredoc_inv in Hd as (t & ds & _ & _ & -> & Hds). cbn [store_all store] in H.
    destruct (capture_delimiter (default [] (head [value t]))) as [[dash u]|] eqn:E; [|done].
    apply store_all_plain in H as [H1 H2].
    2: { eapply Forall_impl; [exact Hds|]. by intros c [t' ->]. }
    change (capture_delimiter (value t) = Some (dash, u)) in E.
    assert (∀ f, f ≠ FFragments → captures_of f ds = []) as Hno.
    { intros f Hf. clear -Hds Hf. induction Hds as [|c ds [t' ->] _ IH]; [done|].
      rewrite captures_of_cons, decide_False; done. }
    split; [rewrite H1; by destruct dash|]. intros f ty Hf. cbn [schema] in Hf. cases_of_schema Hf.
    + destruct (H2 FLeadingTabs (VBool dash)) as (v' & Hv' & Hu); [by destruct dash|].
      rewrite Hno in Hu by done. injection Hu as <-. rewrite Hv'. unfold field_value.
      rewrite captures_of_cons, decide_True, Hno by done.
      rewrite E. split; [eexists; reflexivity|reflexivity].
    + destruct (H2 FDelimiter (VStr (str u))) as (v' & Hv' & Hu); [by destruct dash|].
      rewrite Hno in Hu by done. injection Hu as <-. rewrite Hv'. unfold field_value.
      rewrite captures_of_cons, decide_True, Hno by done. rewrite E. split; [eexists; reflexivity|reflexivity].
    + destruct (H2 FFragments (VList None)) as (v' & Hv' & Hu); [by destruct dash|].
      unfold field_value. rewrite captures_of_cons, decide_False by done.
      rewrite (upds_value KHeredoc FFragments (TList KHeredocFragment) (VList None) _ v'); [|done..].
      split; [eexists; reflexivity|done].
Qed.
