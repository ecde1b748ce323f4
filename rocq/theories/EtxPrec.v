(** * Operators: proofs *)
From stdpp Require Import base list option strings.
From Coq Require Import Ascii Lia.
From Verif Require Import GoBase EtxAst EtxHeap EtxHeapSpec EtxText EtxLex EtxUtil EtxGram EtxParse EtxParseBase
  EtxParseSpec EtxParseStore EtxParseFirst EtxParseClean EtxParseLevel EtxParseTyped EtxParseParts EtxPrecSpec.

Definition rank_of (k : kind) : nat :=
  match k with
  | KExprLogicalOr => 1 | KExprLogicalAnd => 2 | KExprBitwiseOr => 3 | KExprBitwiseXor => 4 | KExprBitwiseAnd => 5
  | KExprEquality => 6 | KExprRelational => 7 | KExprShift => 8 | KExprAdditive => 9 | KExprMultiplicative => 10
  | KExprUnary => 11 | _ => 0
  end.
Lemma level_rank k lft my :
  level k = Some (lft, my) → rank_of lft = S (rank_of k) ∧ (rank_of lft = 11 ∨ is_Some (level lft)) ∧
    (lft = KExprUnary ∨ is_Some (level lft)) ∧ ∀ t, t ∈ my → strength (op_text t) = rank_of k.
Proof.
  intros H. assert (Hm : forallb (λ t, bool_decide (strength (op_text t) = rank_of k)) my = true).
  { destruct k; try done; injection H as <- <-; vm_compute; reflexivity. }
  rewrite forallb_forall in Hm.
  assert (∀ t, t ∈ my → strength (op_text t) = rank_of k) by (intros t Ht; by apply elem_of_list_In, Hm, bool_decide_eq_true in Ht).
  destruct k; try done; injection H as <- <-; (split; [done|]); (split; [first [by left|by right; eexists]|]); (split; [first [by left|by right; eexists]|done]).
Qed.
Lemma level_rank_pos k lft my : level k = Some (lft, my) → 0 < rank_of k.
Proof. destruct k; try done; cbn; lia. Qed.
Lemma derives_ops my us p l cs :
  derives p (g_ops my) us cs l → ∃ u, us = [u] ∧ l = [value u] ∧ cs = [] ∧ kind_of_token u ∈ my.
Proof.
  destruct my as [|t [|t' my]]; cbn [g_ops].
  - intros (g & Hg & _)%derives_alt_inv. by apply elem_of_nil in Hg.
  - intros (u & -> & -> & -> & Hu)%derives_tok_inv. exists u. split_and!; try done. rewrite Hu. by left.
  - intros (g & Hg & H)%derives_alt_inv. apply elem_of_list_fmap in Hg as (t0 & -> & Ht).
    apply derives_tok_inv in H as (u & -> & -> & -> & Hu). exists u. split_and!; try done. by rewrite Hu.
Qed.
Lemma derives_opt_inv p g us cs l :
  derives p (GOpt g) us cs l → (us = [] ∧ cs = [] ∧ l = []) ∨ derives p g us cs l.
Proof. inversion 1; subst; eauto. Qed.
Lemma level_schema k lft my :
  level k = Some (lft, my) → schema k = [(FLeft, TEmb lft); (FOp, TStr); (FRight, TPtr k)] ∧ special_kind k = false.
Proof. destruct k; try done; by intros [= <- <-]. Qed.
Lemma filled_get k cs fs f ty q :
  special_kind k = false → filled k cs fs → (f, ty) ∈ schema k →
  get f (T q k fs : ast) = plain_value k f ty (captures_of f cs).
Proof. intros Hs [_ H] Hf. destruct (H f ty Hf) as [_ Ha]. by rewrite field_value_plain in Ha. Qed.
Lemma level_builds p k lft my us t :
  level k = Some (lft, my) → builds p k us t →
  ∃ l, get FLeft t = Some (VEmb l) ∧
    ((builds p lft us l ∧ get FOp t = Some (VStr "") ∧ get FRight t = Some (VPtr None)) ∨
     ∃ lus u vs m, us = lus ++ u :: vs ∧ kind_of_token u ∈ my ∧ builds (start u) lft lus l ∧ builds p k vs m ∧
       get FOp t = Some (VStr (str (value u))) ∧ get FRight t = Some (VPtr (Some m))).
Proof.
  intros Hl Hb. pose proof (level_grammar _ _ _ Hl) as Hg. destruct (level_schema _ _ _ Hl) as [Hsc Hsp].
  destruct Hb as [p k us cs l fs Hd Hf]. rewrite Hg in Hd. unfold g_binary in Hd.
  assert (Hget : ∀ f ty q, (f, ty) ∈ schema k → get f (T q k fs : ast) = plain_value k f ty (captures_of f cs))
    by (intros; by eapply filled_get).
  rewrite Hsc in Hget.
  pose proof (λ q, Hget FLeft (TEmb lft) q ltac:(by left)) as G1.
  pose proof (λ q, Hget FOp TStr q ltac:(by right; left)) as G2.
  pose proof (λ q, Hget FRight (TPtr k) q ltac:(by right; right; left)) as G3. clear Hget.
  apply derives_cons_inv in Hd as (us1 & us2 & cs1 & cs2 & l1 & l2 & H1 & H2 & -> & -> & ->).
  apply derives_sub_inv in H1 as (tl & H1 & ->).
  apply derives_cons_inv in H2 as (us3 & us4 & cs3 & cs4 & l3 & l4 & H2 & H3 & -> & -> & ->).
  apply derives_nil_inv in H3 as (-> & -> & ->). rewrite !app_nil_r in *.
  exists tl. rewrite G1, G2, G3. clear G1 G2 G3.
  apply derives_opt_inv in H2 as [(-> & -> & ->)|H2].
  - split; [done|]. left. rewrite app_nil_r. done.
  - apply derives_cons_inv in H2 as (us5 & us6 & cs5 & cs6 & l5 & l6 & H4 & H5 & -> & -> & ->).
    apply derives_cap_inv in H4 as (cs7 & l7 & H4 & ->). apply derives_ops in H4 as (u & -> & -> & -> & Hu).
    apply derives_cons_inv in H5 as (us8 & us9 & cs8 & cs9 & l8 & l9 & H5 & H6 & -> & -> & ->).
    apply derives_nil_inv in H6 as (-> & -> & ->). apply derives_sub_inv in H5 as (tr & H5 & ->).
    rewrite !app_nil_r in *. split; [done|]. right. exists us1, u, us8, tr. split_and!; try done.
    cbn [app]. replace (captures_of FOp _) with [Texts [value u]] by reflexivity. cbn. by rewrite app_nil_r.
Qed.

Lemma regular_op u my k lft :
  regular u → level k = Some (lft, my) → kind_of_token u ∈ my → str (value u) = op_text (kind_of_token u) ∧ strength (str (value u)) = rank_of k.
Proof.
  intros [Hr _] Hl Hu. assert (kind_of_token u ∈ ops_lor) as Ho.
  { assert (forallb (λ t, bool_decide (t ∈ ops_lor)) my = true) as H.
    { destruct k; try done; injection Hl as <- <-; vm_compute; reflexivity. }
    rewrite forallb_forall in H. by apply elem_of_list_In, H, bool_decide_eq_true in Hu. }
  assert (kind_of_token u ∈ signs ++ ops_lor) as Hs by (apply elem_of_app; by right).
  rewrite (Hr Hs), str_chars. split; [done|]. destruct (level_rank _ _ _ Hl) as (_ & _ & _ & H). by apply H.
Qed.
(** What a level means. *)
Lemma level_binary k x : level k = Some x → k ∈ binary_levels.
Proof. intros H. apply (bool_decide_unpack _). destruct k; done. Qed.
Definition level_reading (k : kind) (us : list token) (t : ast) : Prop :=
  ∃ r, reads t r ∧ spells r us ∧ follows_precedence r ∧ right_to_left r ∧ ∀ o, o ∈ operators_of r → rank_of k ≤ strength o.
Lemma level_reads p k us t :
  k = KExprUnary ∨ is_Some (level k) → Forall regular us → builds p k us t → level_reading k us t.
Proof.
  assert (Hm : ∃ n, (60 * length us + (12 - rank_of k) <= n)%nat) by eauto. destruct Hm as [n Hn].
  revert p k us t Hn. induction n as [|n IH]; intros p k us t Hn Hk Hr Hb.
  { exfalso. assert (rank_of k <= 11)%nat by (destruct k; cbn; lia). lia. }
  destruct Hk as [->|[[lft my] Hl]].
  { exists (Operand t). split_and!; try done.
    - constructor. by eapply builds_kind.
    - by econstructor.
    - by intros o ?%elem_of_nil. }
  pose proof (level_rank _ _ _ Hl) as (Hrk & _ & Hlft & Hstr). pose proof (level_rank_pos _ _ _ Hl) as Hpos.
  destruct (level_builds _ _ _ _ _ _ Hl Hb) as (l & G1 & [(Hbl & G2 & G3)|(lus & u & vs & m & -> & Hu & Hbl & Hbr & G2 & G3)]).
  - assert (rank_of lft <= 11)%nat by (destruct lft; cbn; lia).
    destruct (IH p lft us l ltac:(lia) Hlft Hr Hbl) as (r & H1 & H2 & H3 & H4 & H5).
    exists r. split_and!; try done; [by eapply reads_single; [by rewrite (builds_kind _ _ _ _ Hb); eapply level_binary|..]|]. intros o Ho. specialize (H5 o Ho). lia.
  - apply Forall_app in Hr as [Hr1 [Hr2 Hr3]%Forall_cons]. rewrite app_length in Hn. cbn [length] in Hn.
    assert (rank_of lft <= 11)%nat by (destruct lft; cbn; lia).
    destruct (IH _ lft lus l ltac:(lia) Hlft Hr1 Hbl) as (a & H1 & H2 & H3 & H4 & H5).
    destruct (IH _ k vs m ltac:(lia) ltac:(by right; eexists) Hr3 Hbr) as (b & I1 & I2 & I3 & I4 & I5).
    destruct (regular_op _ _ _ _ Hr2 Hl Hu) as [Ht Hs].
    exists (Binary a (str (value u)) b). split_and!.
    + by eapply reads_binary; [by rewrite (builds_kind _ _ _ _ Hb); eapply level_binary|..].
    + apply spells_binary; try done; [|lia]. rewrite Ht. destruct Hr2 as [Hv _]. rewrite Hv; [done|].
      apply elem_of_app. right. assert (forallb (λ t, bool_decide (t ∈ ops_lor)) my = true) as H'.
      { destruct k; try done; injection Hl as <- <-; vm_compute; reflexivity. }
      rewrite forallb_forall in H'. by apply elem_of_list_In, H', bool_decide_eq_true in Hu.
    + cbn [follows_precedence]. split; [|done]. intros o [Ho|Ho]%elem_of_app; [specialize (H5 o Ho)|specialize (I5 o Ho)]; lia.
    + cbn [right_to_left]. split; [|done]. intros o Ho. specialize (H5 o Ho). lia.
    + intros o. cbn [operators_of]. intros [Ho|[->|Ho]%elem_of_cons]%elem_of_app;
        [specialize (H5 o Ho)| |specialize (I5 o Ho)]; lia.
Qed.

(** ** The table and the direction determine the reading *)
Lemma reading_unique a b :
  follows_precedence a → right_to_left a → follows_precedence b → right_to_left b →
  operands_of a = operands_of b → operators_of a = operators_of b → a = b.
Proof.
  assert (Hlen : ∀ r, length (operands_of r) = S (length (operators_of r))).
  { induction r as [|a' IHa o b' IHb]; [done|]. cbn. rewrite !app_length. cbn. lia. }
  revert b. induction a as [t|a1 IH1 o a2 IH2]; intros b Ha1 Ha2 Hb1 Hb2 Hd Ho.
  - destruct b as [t'|b1 o' b2]; [cbn in Hd; congruence|]. cbn in Ho. by apply app_cons_not_nil in Ho.
  - destruct b as [t'|b1 o' b2]; [cbn in Ho; symmetry in Ho; by apply app_cons_not_nil in Ho|].
    cbn in *. destruct Ha1 as (P1 & P2 & P3), Ha2 as (R1 & R2 & R3), Hb1 as (Q1 & Q2 & Q3), Hb2 as (S1 & S2 & S3).
    (* the operators at the top are the first of the weakest *)
    assert (operators_of a1 = operators_of b1 ∧ o = o' ∧ operators_of a2 = operators_of b2) as (E1 & -> & E2).
    { assert (T1 : ∀ x, x ∈ operators_of a1 → strength o < strength x).
      { intros x Hx. specialize (R1 x Hx). specialize (P1 x ltac:(apply elem_of_app; by left)). lia. }
      assert (T2 : ∀ x, x ∈ operators_of b1 → strength o' < strength x).
      { intros x Hx. specialize (S1 x Hx). specialize (Q1 x ltac:(apply elem_of_app; by left)). lia. }
      assert (U1 : ∀ x, x ∈ operators_of a2 → strength o ≤ strength x) by (intros x Hx; apply P1; apply elem_of_app; by right).
      assert (U2 : ∀ x, x ∈ operators_of b2 → strength o' ≤ strength x) by (intros x Hx; apply Q1; apply elem_of_app; by right).
      clear -Ho T1 T2 U1 U2. revert Ho T1 T2. generalize (operators_of a1) (operators_of b1). intros l1. induction l1 as [|x l1 IH]; intros [|y l2] Ho T1 T2; cbn in Ho.
      - by injection Ho as -> ->.
      - injection Ho as -> Ho. exfalso. specialize (T2 y ltac:(by left)).
        assert (o' ∈ operators_of a2) as Hin by (rewrite Ho; apply elem_of_app; right; by left). specialize (U1 _ Hin). lia.
      - injection Ho as -> Ho. exfalso. specialize (T1 o' ltac:(by left)).
        assert (o ∈ operators_of b2) as Hin by (rewrite <- Ho; apply elem_of_app; right; by left). specialize (U2 _ Hin). lia.
      - injection Ho as -> Ho. destruct (IH l2 Ho) as (-> & -> & ->); [| |done].
        + intros z Hz. apply T1. by right.
        + intros z Hz. apply T2. by right. }
    apply app_inj_1 in Hd as [D1 D2]; [|rewrite !Hlen; by rewrite E1].
    by rewrite (IH1 b1), (IH2 b2).
Qed.

(** ** A node has one reading *)
Lemma unary_not_binary : KExprUnary ∉ binary_levels.
Proof. apply (bool_decide_unpack _). by vm_compute. Qed.
Lemma reads_functional t a b : reads t a → reads t b → a = b.
Proof.
  intros H. revert b. induction H as [t Ht|t l a Ht H1 H2 H3 H IH|t l o m a b Ht H1 H2 H3 Ha IHa Hb IHb]; intros c Hc.
  - destruct Hc as [?|? ? ? Hk|? ? ? ? ? ? Hk]; [done|..]; rewrite Ht in Hk; by destruct unary_not_binary.
  - destruct Hc as [? Hk|? l' c Hk G1 G2 G3 G|? l' o' m' c d Hk G1 G2 G3 Gc Gd].
    + rewrite Hk in Ht. by destruct unary_not_binary.
    + apply IH. congruence.
    + congruence.
  - destruct Hc as [? Hk|? l' c Hk G1 G2 G3 G|? l' o' m' c d Hk G1 G2 G3 Gc Gd].
    + rewrite Hk in Ht. by destruct unary_not_binary.
    + congruence.
    + simplify_eq. f_equal; [by apply IHa|by apply IHb].
Qed.

(** ** Two operators of one level in a row are not read left to right *)
Lemma adjacent_not_left_to_right r l1 o1 o2 l2 :
  right_to_left r → operators_of r = l1 ++ o1 :: o2 :: l2 → strength o1 = strength o2 → ¬ left_to_right r.
Proof.
  revert l1 l2. induction r as [t|a IHa o b IHb]; intros l1 l2 Hr E Hs Hl; [by destruct l1|].
  cbn in *. destruct Hr as (R1 & R2 & R3), Hl as (L1 & L2 & L3).
  apply app_eq_app in E as [l [[Ea E]|[E1 E]]].
  - destruct l as [|x [|y l]].
    + cbn in E. injection E as <- Eb. apply (L1 o2); [rewrite <- Eb; by left|done].
    + cbn in E. injection E as -> -> Eb. apply (R1 x); [rewrite Ea; apply elem_of_app; right; by left|done].
    + cbn in E. injection E as -> -> E. by eapply IHa.
  - destruct l as [|x l].
    + cbn in E. injection E as -> Eb. apply (L1 o2); [rewrite Eb; by left|done].
    + cbn in E. injection E as -> Eb. by eapply IHb.
Qed.
