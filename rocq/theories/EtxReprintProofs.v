(** * Declarations that are printed as they were written: proofs *)
From stdpp Require Import base list option strings.
From Coq Require Import Ascii Lia.
From Verif Require Import GoBase EtxAst EtxHeap EtxHeapSpec EtxText EtxLex EtxLexSpec EtxLexFacts EtxLexNest EtxLexOps EtxLexIdent EtxLexString EtxUtil EtxUtilProofs EtxNumProofs EtxGram
  EtxParse EtxParseBase EtxParseSpec EtxParseStore EtxParseFirst EtxParseClean EtxParseLevel EtxParseLexed EtxParseTyped EtxParseParts EtxPrecSpec EtxPrec
  EtxShape EtxFormat EtxFormatSpec EtxFormatTotal EtxReprintSpec EtxParsePropProofs EtxOrder EtxLayout EtxRelex EtxReprint.

(** ** Characters *)
Definition lead (c : ascii) : bool := is_word c || is_quote c || one_of_chars "~!-+.(" c.
Definition gentle (c : ascii) : bool := is_alpha c || is_quote c.
Definition starts (P : ascii → bool) (u : text) : Prop := match u with c :: _ => P c = true | [] => False end.
Definition quiet_char (c : ascii) : bool := one_of_chars " )],[" c || Ascii.eqb c lf.
Definition calm_char (c : ascii) : bool := quiet_char c || one_of_chars ".(" c.
Definition upto (P : ascii → bool) (z : text) : Prop := match z with c :: _ => P c = true | [] => True end.
Notation quiet := (upto quiet_char).
Notation calm := (upto calm_char).
Lemma quiet_calm z : quiet z → calm z.
Proof. destruct z as [|c z]; [done|]. cbn. unfold calm_char. by intros ->. Qed.
Lemma implies_all (P Q : ascii → bool) : forallb (λ c, implb (P c) (Q c)) all_ascii = true → ∀ c, P c = true → Q c = true.
Proof. intros H c Hc. pose proof (for_all_ascii _ H c) as H'. cbn in H'. by rewrite Hc in H'. Qed.
Lemma gentle_lead c : gentle c = true → lead c = true.
Proof. apply implies_all. vm_compute. reflexivity. Qed.
Lemma starts_gentle u : starts gentle u → starts lead u.
Proof. destruct u as [|c u]; [done|]. apply gentle_lead. Qed.
Lemma starts_app P u v : starts P u → starts P (u ++ v).
Proof. by destruct u. Qed.
Lemma lead_blank u z : starts lead u → stops blank (u ++ z).
Proof.
  destruct u as [|c u]; [done|]. cbn. intros Hc. apply negb_true_iff. revert Hc.
  apply (implies_all lead (λ c, negb (blank c))). vm_compute. reflexivity.
Qed.
Lemma calm_ident z : calm z → ident_ends z.
Proof.
  destruct z as [|c z]; [done|]. cbn. intros Hc.
  assert (negb (is_word c) && negb (Ascii.eqb c "-") = true) as [H1%negb_true_iff H2%negb_true_iff]%andb_true_iff.
  { revert Hc. apply (implies_all calm_char (λ c, negb (is_word c) && negb (Ascii.eqb c "-"))). vm_compute. reflexivity. }
  split; [done|]. intros ->. done.
Qed.
Lemma quiet_number z : quiet z → number_ends z.
Proof.
  destruct z as [|c z]; [done|]. cbn. intros Hc.
  assert (negb (is_word c) && negb (Ascii.eqb c ".") = true) as [H1%negb_true_iff H2%negb_true_iff]%andb_true_iff.
  { revert Hc. apply (implies_all quiet_char (λ c, negb (is_word c) && negb (Ascii.eqb c "."))). vm_compute. reflexivity. }
  split; [done|]. intros ->. done.
Qed.

(** ** Putting texts together *)
Lemma respells_skip us s z : stops blank (s ++ z) → respells us s z → respells us (chars " " ++ s) z.
Proof. intros H1 H2. apply (respells_app [] us); [by apply respells_space|done]. Qed.
Lemma respells_lit o k t us s z :
  (o, k) ∈ operators → kind_of_token t = k → value t = chars o →
  match s ++ z with c :: _ => extends o c = false | [] => True end → respells us s z → respells (t :: us) (chars o ++ s) z.
Proof. intros Ho Hk Hv Hs H. apply (respells_app [t] us); [by eapply respells_op|done]. Qed.
Definition free (ok : string * tname) : bool := forallb (λ c, negb (extends ok.1 c)) all_ascii.
Lemma free_lit o k t us s z :
  (o, k) ∈ operators → free (o, k) = true → kind_of_token t = k → value t = chars o → respells us s z → respells (t :: us) (chars o ++ s) z.
Proof.
  intros Ho Hf Hk Hv H. eapply respells_lit; [done..| |done]. destruct (s ++ z) as [|c r]; [done|].
  pose proof (for_all_ascii _ Hf c) as Hc. by apply negb_true_iff in Hc.
Qed.
Lemma spaced_op : forallb (λ ok, negb (extends ok.1 " ")) operators = true.
Proof. vm_compute. reflexivity. Qed.
Lemma op_then_space o k t us s z :
  (o, k) ∈ operators → kind_of_token t = k → value t = chars o → stops blank (s ++ z) → respells us s z →
  respells (t :: us) (chars o ++ chars " " ++ s) z.
Proof.
  intros Ho Hk Hv Hs H. eapply respells_lit; [done..| |by apply respells_skip].
  pose proof spaced_op as Hf. rewrite forallb_forall in Hf. apply elem_of_list_In in Ho. specialize (Hf _ Ho). by apply negb_true_iff in Hf.
Qed.

(** ** Line feeds *)
Fixpoint may_have (r : re) (c : ascii) : bool :=
  match r with
  | RSet p => p c
  | RNot p => true
  | REps | RWordB => false
  | RCat r1 r2 | RAlt r1 r2 => may_have r1 c || may_have r2 c
  | RStar r | RLazy r | RGroup r => may_have r c
  end.
Lemma lang_has r v c : lang r v → c ∈ v → may_have r c = true.
Proof.
  revert v. induction r as [p|p| |r1 IH1 r2 IH2|r1 IH1 r2 IH2|r IH|r IH| |r IH]; intros v; cbn; try done.
  - intros (d & -> & _ & Hd) ->%elem_of_list_singleton. done.
  - by intros -> ?%elem_of_nil.
  - intros (v1 & v2 & -> & H1 & H2) [Hc|Hc]%elem_of_app; [by rewrite (IH1 _ H1 Hc)|by rewrite (IH2 _ H2 Hc), orb_true_r].
  - intros [H|H] Hc; [by rewrite (IH1 _ H Hc)|by rewrite (IH2 _ H Hc), orb_true_r].
  - intros (vs & -> & H) Hc. apply elem_of_list_In, in_concat in Hc as (u & Hu & Hc). apply elem_of_list_In in Hu, Hc.
    rewrite Forall_forall in H. by apply (IH u); [apply H|].
  - intros (vs & -> & H) Hc. apply elem_of_list_In, in_concat in Hc as (u & Hu & Hc). apply elem_of_list_In in Hu, Hc.
    rewrite Forall_forall in H. by apply (IH u); [apply H|].
  - by intros -> ?%elem_of_nil.
  - apply IH.
Qed.
Lemma from_no_lf t us :
  from root (t :: us) → kind_of_token t ∉ [TSingleLineComment; TMultilineComment; THeredoc; TLF] → lf ∉ value t.
Proof.
  intros (p & s & s' & st' & H & _)%from_root_cons Hk Hc. apply step_rule in H as (r & y & Hr & Hk' & Hl & _). cbn [rules] in Hr.
  assert (forallb (λ r, bool_decide (rname r ∈ [TSingleLineComment; TMultilineComment; THeredoc; TLF]) || negb (may_have (pattern r) lf)) core = true) as H
    by (vm_compute; reflexivity).
  rewrite forallb_forall in H. apply elem_of_list_In in Hr. specialize (H r Hr). rewrite bool_decide_false in H by (by rewrite <- Hk').
  cbn in H. apply negb_true_iff in H. by rewrite (lang_has _ _ _ Hl Hc) in H.
Qed.
Definition no_lf (us : list token) : Prop := match last us with Some t => lf ∉ value t | None => True end.
Lemma no_lf_app us vs : no_lf us → no_lf vs → no_lf (us ++ vs).
Proof. unfold no_lf. rewrite last_app. by destruct (last vs). Qed.
Lemma no_lf_cons u us : lf ∉ value u → no_lf us → no_lf (u :: us).
Proof. intros H1 H2. by apply (no_lf_app [u] us). Qed.

(** ** What is shown of a node *)
Definition soft (k : kind) (t : ast) : bool :=
  match k with KIdent => true | KValue | KExprPrimary | KExprPostfix => negb (numeric t) | _ => false end.
Definition begins (k : kind) (t : ast) (u : text) : Prop :=
  match k with KExprInvocationParams => True | _ => starts (if soft k t then gentle else lead) u end.
Definition follows (k : kind) (t : ast) (z : text) : Prop := if soft k t then calm z else quiet z.
Record says (k : kind) (t : ast) (us rest : list token) : Prop := Says {
  s_from : from root rest;
  s_last : no_lf us;
  s_text : ∃ u, format t = Ok u ∧ begins k t u ∧ ∀ z, follows k t z → respells us u z }.
Definition claim (n : nat) (k : kind) : Prop :=
  ∀ p us t rest, (size t <= n)%nat → builds p k us t → plain t → from root (us ++ rest) → says k t us rest.
Lemma plain_self t : plain t → plain_node t.
Proof. intros H. apply H. destruct t. by left. Qed.
Lemma get_field (t : ast) f v : get f t = Some v → (f, v) ∈ fields t.
Proof.
  unfold get. induction (fields t) as [|[f' w] l IH]; [done|]. cbn.
  destruct (decide _) as [->|]; [|right; by apply IH]. intros [= ->]. by left.
Qed.
Lemma plain_get t f v c : plain t → get f t = Some v → c ∈ val_subs v → plain c.
Proof.
  intros H Hv Hc m Hm. apply H. eapply (proj1 nodes_trans); [|exact Hm]. eapply sub_node; [by apply get_field|done].
Qed.
Lemma plain_ptr t f c : plain t → ptr_of f t = Some c → plain c.
Proof.
  unfold ptr_of. intros H E. destruct (get f t) as [[| | | |o| |]|] eqn:G; try done. subst o. eapply plain_get; [done..|by left].
Qed.
Lemma plain_emb t f c : plain t → emb_of f t = Some c → plain c.
Proof.
  unfold emb_of. intros H E. destruct (get f t) as [[| | | | |x|]|] eqn:G; try done. injection E as ->. eapply plain_get; [done..|by left].
Qed.
Lemma plain_list t f c : plain t → Some c ∈ list_of f t → plain c.
Proof.
  unfold list_of. intros H E. destruct (get f t) as [[| | | | | |[[b l]|]]|] eqn:G; try (by apply elem_of_nil in E).
  eapply plain_get; [done..|]. cbn. apply elem_of_list_omap. by exists (Some c).
Qed.

Definition printable : list kind :=
  [KDecl; KParameterType; KFuncSignature; KIdent; KExpr; KExprConditional; KExprLogicalOr; KExprLogicalAnd; KExprBitwiseOr;
   KExprBitwiseXor; KExprBitwiseAnd; KExprEquality; KExprRelational; KExprShift; KExprAdditive; KExprMultiplicative;
   KExprUnary; KExprPostfix; KExprPrimary; KExprInvocationParams; KValue; KValueString].
Ltac is_printable := apply (bool_decide_unpack _); reflexivity.
Ltac lit_in := apply (bool_decide_unpack _); reflexivity.

Lemma ident_says p us t rest : builds p KIdent us t → from root (us ++ rest) → says KIdent t us rest.
Proof.
  intros Hb Hfrom. pose proof (builds_kind _ _ _ _ Hb) as Hk.
  destruct (ident_builds _ _ _ Hb) as (u & ds & -> & Hu & Hds & Hp).
  cbn [app] in Hfrom. pose proof (from_no_lf _ _ Hfrom ltac:(rewrite Hu; by apply (bool_decide_unpack _))) as Hlf.
  apply from_ident in Hfrom as [Hfrom (w & vs & Hv & Hid & Hkw)]; [|done].
  assert (∃ v, join (chars ".") (value u :: map (λ d : token * token, value d.2) ds) = value u ++ v ∧ from root rest ∧
    no_lf (flat_map (λ d : token * token, [d.1; d.2]) ds) ∧
    ∀ z, calm z → calm (v ++ z) ∧ respells (flat_map (λ d : token * token, [d.1; d.2]) ds) v z) as (v & Ev & Hr & Hl & Hz).
  { clear Hp Hb Hid Hv Hlf Hu Hk Hkw. revert u Hfrom. induction Hds as [|[d a] ds [Hd Ha] Hds IH]; intros u Hfrom.
    - exists []. cbn in *. rewrite app_nil_r. split_and!; try done. intros z Hz. split; [done|apply respells_nil].
    - cbn [flat_map app fst snd] in *. destruct (from_lit "." TDot _ _ Hfrom) as [Hdk Hfrom']; [lit_in|done|].
      pose proof (from_no_lf _ _ Hfrom' ltac:(rewrite Ha; by apply (bool_decide_unpack _))) as Hlf.
      apply from_ident in Hfrom' as [Hfrom' (w' & vs' & Hv & Hid & Hkw)]; [|done].
      destruct (IH a Hfrom') as (v & Ev & Hr & Hl & Hz). exists (chars "." ++ value a ++ v). split_and!; try done.
      + change (value u ++ chars "." ++ join (chars ".") (value a :: map (λ d : token * token, value d.2) ds) = value u ++ chars "." ++ value a ++ v).
        by rewrite Ev.
      + apply no_lf_cons; [rewrite Hd; by apply (bool_decide_unpack _)|]. by apply no_lf_cons.
      + intros z Hcz. destruct (Hz z Hcz) as [H1 H2]. split; [done|]. eapply (respells_lit "." TDot); [lit_in|done|done| |].
        * rewrite Hv. destruct Hid as ((Hne & Hw) & (c & Hc & Hc') & _). destruct w' as [|c' w']; [done|]. injection Hc as ->. cbn.
          apply negb_true_iff. revert Hc'. apply (implies_all is_alpha (λ c, negb (extends "." c))). vm_compute. reflexivity.
        * apply (respells_app [a]); [|done]. eapply respells_ident; [done..|]. by apply calm_ident. }
  split; [done|by apply no_lf_cons|]. exists (value u ++ v). split_and!.
  - rewrite format_unfold. unfold format_node. by rewrite Hk, Hp, Ev.
  - apply starts_app. rewrite Hv. destruct Hid as ((Hne & Hw) & (c & Hc & Hc') & _). destruct w as [|c' w]; [done|]. injection Hc as ->.
    cbn. unfold gentle. by rewrite Hc'.
  - intros z Hcz. destruct (Hz z Hcz) as [H1 H2]. apply (respells_app [u]); [|done]. eapply respells_ident; [done..|]. by apply calm_ident.
Qed.

Lemma op_no_blank o k r : (o, k) ∈ operators → stops blank (chars o ++ r).
Proof.
  assert (forallb (λ ok, match chars ok.1 with c :: _ => negb (blank c) | [] => false end) operators = true) as H by (vm_compute; reflexivity).
  intros Ho%elem_of_list_In. rewrite forallb_forall in H. specialize (H _ Ho). cbn [fst] in H. destruct (chars o); [done|]. by apply negb_true_iff in H.
Qed.

Section step.
Context (n : nat) (IH : ∀ k, k ∈ printable → claim n k).

Lemma listed_says k us ts rest :
  k ∈ [KParameterType; KExpr] → listed k us ts → (∀ t, t ∈ ts → (size t <= n)%nat ∧ plain t) → from root (us ++ rest) →
  from root rest ∧ no_lf us ∧ ∃ l, fmt_all format (map Some ts) = Ok l ∧ starts lead (join (chars ", ") l) ∧
    ∀ z, quiet z → respells us (join (chars ", ") l) z.
Proof.
  intros Hk H. revert rest. assert (k ∈ printable ∧ (∀ t, soft k t = false) ∧ k ≠ KExprInvocationParams) as (Hp & Hs & Hi).
  { rewrite !elem_of_cons, elem_of_nil in Hk. destruct Hk as [->|[->|[]]]; (split; [is_printable|done]). }
  assert (∀ t u, begins k t u → starts lead u) as Hbeg.
  { intros t u. unfold begins. rewrite Hs. by destruct k. }
  assert (∀ t z, quiet z → follows k t z) as Hfol by (intros t z; unfold follows; by rewrite Hs).
  induction H as [p us t Hb|p us t c vs ts Hb Hc H IHl]; intros rest Ht Hfrom.
  - destruct (Ht t ltac:(by left)) as [Hn Hpl]. destruct (IH k Hp p us t rest Hn Hb Hpl Hfrom) as [H1 H2 (u & H3 & H4 & H5)].
    split_and!; [done..|]. exists [u]. cbn. rewrite H3. cbn. split_and!; [done|by eapply Hbeg|]. intros z Hz. apply H5. by apply Hfol.
  - destruct (Ht t ltac:(by left)) as [Hn Hpl]. rewrite <- (assoc_L (++)) in Hfrom. cbn [app] in Hfrom.
    destruct (IH k Hp p us t _ Hn Hb Hpl Hfrom) as [H1 H2 (u & H3 & H4 & H5)].
    destruct (from_lit "," TOpComma _ _ H1) as [Hck Hfrom']; [lit_in|done|].
    destruct (IHl rest) as (I1 & I2 & l & I3 & I4 & I5); [intros; apply Ht; by right|done|].
    split_and!; [done| |].
    + apply no_lf_app; [done|]. apply no_lf_cons; [rewrite Hc; by apply (bool_decide_unpack _)|done].
    + exists (u :: l). assert (fmt_all format (map Some (t :: ts)) = Ok (u :: l)) as ->.
      { cbn [map fmt_all fmt_of]. by rewrite H3; cbn; rewrite I3. }
      destruct l as [|v l]; [by apply (Hbeg t) in H4|].
      change (join (chars ", ") (u :: v :: l)) with (u ++ (chars "," ++ chars " ") ++ join (chars ", ") (v :: l)).
      rewrite <- (assoc_L (++) (chars ",")). split_and!; [done|apply starts_app; by eapply Hbeg|].
      intros z Hz. apply respells_app; [by apply H5, Hfol|]. eapply (op_then_space "," TOpComma); [lit_in|done|done|by apply lead_blank|by apply I5].
Qed.
Lemma listed0_says k us ts rest :
  k ∈ [KParameterType; KExpr] → listed0 k us ts → (∀ t, t ∈ ts → (size t <= n)%nat ∧ plain t) → from root (us ++ rest) →
  from root rest ∧ no_lf us ∧ ∃ l, fmt_all format (map Some ts) = Ok l ∧
    ∀ z, quiet z → respells us (join (chars ", ") l) z.
Proof.
  intros Hk [[-> ->]|H] Ht Hfrom.
  - split_and!; [done..|]. exists []. split; [done|]. intros z _. apply respells_nil.
  - destruct (listed_says _ _ _ _ Hk H Ht Hfrom) as (H1 & H2 & l & H3 & _ & H4). split_and!; try done. by exists l.
Qed.
Lemma params_says p us t rest :
  (size t <= S n)%nat → builds p KExprInvocationParams us t → plain t → from root (us ++ rest) → says KExprInvocationParams t us rest.
Proof.
  intros Hn Hb Hpl Hfrom. pose proof (builds_kind _ _ _ _ Hb) as Hk. apply params_builds in Hb as (ts & Hts & Hl).
  destruct (listed0_says KExpr us ts rest) as (H1 & H2 & l & H3 & H4); [lit_in|done| |done|].
  { intros c Hc. assert (Some c ∈ list_of FValues t) as Hin by (rewrite Hl; by apply elem_of_list_fmap_1).
    split; [apply size_list in Hin; lia|by eapply plain_list]. }
  split; [done..|]. exists (join (chars ", ") l). split_and!; [|done|done]. rewrite format_unfold. unfold format_node. rewrite Hk, Hl. by rewrite H3.
Qed.
Lemma signature_says p us t rest :
  (size t <= S n)%nat → builds p KFuncSignature us t → plain t → from root (us ++ rest) → says KFuncSignature t us rest.
Proof.
  intros Hn Hb Hpl Hfrom. pose proof (builds_kind _ _ _ _ Hb) as Hk.
  apply signature_builds in Hb as (o & ups & c & a & ur & ps & q & r & -> & Ho & Hps & Hc & Ha & Hr & Hl & Hret).
  cbn [app] in Hfrom. rewrite <- (assoc_L (++)) in Hfrom. cbn [app] in Hfrom.
  destruct (from_lit "(" TOpLParen _ _ Hfrom) as [Hok Hfrom1]; [lit_in|done|].
  destruct (listed0_says KParameterType ups ps (c :: a :: ur ++ rest) ltac:(lit_in) Hps) as (H1 & H2 & l & H3 & H4).
  { intros x Hx. assert (Some x ∈ list_of FParameters t) as Hin by (rewrite Hl; by apply elem_of_list_fmap_1).
    split; [apply size_list in Hin; lia|by eapply plain_list]. }
  { done. }
  destruct (from_lit ")" TOpRParen _ _ H1) as [Hck Hfrom2]; [lit_in|done|].
  destruct (from_op "->" TOpLambdaDef _ _ Hfrom2) as [Hav Hfrom3]; [lit_in|done|].
  destruct (IH KParameterType ltac:(is_printable) q ur r rest) as [R1 R2 (u & R3 & R4 & R5)]; [apply size_emb in Hret; lia|done|by eapply plain_emb|done|].
  split; [done| |].
  - apply no_lf_cons; [rewrite Ho; by apply (bool_decide_unpack _)|]. apply no_lf_app; [done|].
    apply no_lf_cons; [rewrite Hc; by apply (bool_decide_unpack _)|]. apply no_lf_cons; [rewrite Hav; by apply (bool_decide_unpack _)|done].
  - exists (chars "(" ++ join (chars ", ") l ++ chars ")" ++ chars " " ++ chars "->" ++ chars " " ++ u). split_and!.
    + rewrite format_unfold. unfold format_node. rewrite Hk, Hl, Hret. rewrite H3. cbn [mbind res_bind fmt_of]. by rewrite R3.
    + done.
    + intros z Hz. eapply (free_lit "(" TOpLParen); [lit_in|vm_compute; reflexivity|done|done|].
      apply respells_app; [by apply H4|]. eapply (op_then_space ")" TOpRParen); [lit_in|done|done|done|].
      eapply (op_then_space "->" TOpLambdaDef); [lit_in|done|done|by apply lead_blank|by apply R5].
Qed.
Lemma type_says p us t rest :
  (size t <= S n)%nat → builds p KParameterType us t → plain t → from root (us ++ rest) → says KParameterType t us rest.
Proof.
  intros Hn Hb Hpl Hfrom. pose proof (builds_kind _ _ _ _ Hb) as Hk.
  apply type_builds in Hb as [(q & i & Hi & E1)|(q & s & Hs & E1 & E2)].
  - destruct (ident_says _ _ _ _ Hi Hfrom) as [H1 H2 (u & H3 & H4 & H5)]. split; [done..|]. exists u. split_and!.
    + rewrite format_unfold. unfold format_node. rewrite Hk, E1. done.
    + by apply starts_gentle.
    + intros z Hz. apply H5. by apply quiet_calm.
  - destruct (IH KFuncSignature ltac:(is_printable) q us s rest) as [H1 H2 (u & H3 & H4 & H5)]; [apply size_ptr in E2; lia|done|by eapply plain_ptr|done|].
    split; [done..|]. exists u. split_and!; [|done|done]. rewrite format_unfold. unfold format_node. rewrite Hk, E1, E2. done.
Qed.
Lemma word_says t us w :
  from root (t :: us) → value t = chars w → w ∈ ["null"; "true"; "false"; "input"; "output"; "const"; "val"] →
  from root us ∧ lf ∉ value t ∧ starts gentle (value t) ∧ ∀ z, calm z → respells [t] (value t) z.
Proof.
  intros Hfrom Hv Hw.
  assert (starts is_alpha (chars w) ∧ ¬ is_keyword (chars w)) as [Ha Hkw].
  { rewrite !elem_of_cons, elem_of_nil in Hw. decompose [or] Hw; subst; try done; (split; [done|by apply (bool_decide_unpack _)]). }
  destruct (chars w) as [|c v] eqn:Ew; [done|]. cbn in Ha.
  pose proof (from_word _ _ _ _ Hfrom Hv Ha Hkw) as Hk.
  pose proof (from_no_lf _ _ Hfrom ltac:(rewrite Hk; by apply (bool_decide_unpack _))) as Hlf.
  apply from_ident in Hfrom as [Hfrom (u & vs & Hv' & Hid & Hkw')]; [|done]. split_and!; try done.
  - rewrite Hv. cbn. unfold gentle. by rewrite Ha.
  - intros z Hz. eapply respells_ident; [done..|]. by apply calm_ident.
Qed.
Lemma string_says p us t rest :
  builds p KValueString us t → plain t → from root (us ++ rest) →
  from root rest ∧ no_lf us ∧ ∃ u, format t = Ok u ∧ starts gentle u ∧ ∀ z, respells us u z.
Proof.
  intros Hb Hpl Hfrom. pose proof (builds_kind _ _ _ _ Hb) as Hk.
  assert (∀ m, Some m ∈ list_of FFragment t → kind_of m = KStringFragment → str_of FText m ≠ [] ∧ quote ∉ str_of FText m) as Hm.
  { intros m Hin Hkm. apply plain_list in Hin as Hm; [|done]. apply plain_self in Hm. unfold plain_node in Hm. by rewrite Hkm in Hm. }
  destruct (string_builds _ _ _ Hb) as (o & frs & c & ms & -> & Ho & Hc & Hfk & Hl & H2); [intros m H1 H2; by apply Hm|].
  rewrite Hl in Hm. cbn [app] in Hfrom. rewrite <- (assoc_L (++)) in Hfrom. cbn [app] in Hfrom.
  destruct (from_string _ _ _ _ Hfrom Ho Hfk Hc) as (q & Hq & Hvo & Hf & Hd & Hvc & Hr).
  split_and!; [done| |].
  { unfold no_lf. rewrite app_comm_cons, last_snoc, Hvc. intros E%elem_of_list_singleton. by rewrite <- E in Hq. }
  assert (Forall (λ x, quote ∉ value x) frs ∧ fmt_all format (map Some ms) = Ok (map value frs)) as [Hnq Hfmt].
  { clear -H2 Hm. induction H2 as [|x m frs ms (Hk & Hx & Hs) H2 IH]; [by split|].
    destruct IH as [IH1 IH2]; [intros m' H1 H3; apply Hm; [by right|done]|]. split.
    - constructor; [|done]. rewrite <- Hs. by apply Hm; [left|].
    - cbn [map fmt_all fmt_of]. rewrite Hx. cbn [mbind res_bind]. by rewrite IH2. }
  exists (quote :: text_of frs ++ [quote]). split_and!; [|done|].
  - rewrite format_unfold. unfold format_node. rewrite Hk, Hl, Hfmt. reflexivity.
  - intros z. by eapply respells_string.
Qed.
Lemma value_says p us t rest :
  builds p KValue us t → plain t → from root (us ++ rest) → says KValue t us rest.
Proof.
  intros Hb Hpl Hfrom. pose proof (builds_kind _ _ _ _ Hb) as Hk.
  assert (other_value t) as Ho.
  { pose proof (plain_self _ Hpl) as H. unfold plain_node in H. rewrite Hk in H. intros f Hf.
    rewrite !elem_of_cons, elem_of_nil in Hf. destruct H as (H1 & H2 & H3). by destruct Hf as [->|[->|[->|[]]]]. }
  assert (∀ u, ptr_of FNumber t = None → begins KValue t u = starts gentle u ∧ ∀ z, follows KValue t z = calm z) as Hsoft.
  { intros u E. assert (soft KValue t = true) as Hs. { cbn. unfold numeric. rewrite Hk. unfold number_value. by rewrite E. }
    unfold begins, follows. by rewrite Hs. }
  destruct (value_builds _ _ _ Hb Ho) as [(u & -> & Hv & E1 & E2)|[(u & b & m & -> & Hv & E1 & E2 & E3 & E4)|
    [(u & src & num & m & -> & Hku & Hcap & E1 & E2 & E3 & E4)|(m & Hm & E1 & E2 & E3 & E4)]]].
  - destruct (word_says u rest "null" Hfrom Hv) as (H1 & H2 & H3 & H4); [by apply (bool_decide_unpack _)|].
    split; [done|by apply no_lf_cons|]. exists (value u). destruct (Hsoft (value u) E2) as [-> Hz]. split_and!; [|done|].
    + rewrite format_unfold. unfold format_node. by rewrite Hk, E1, Hv.
    + intros z. rewrite Hz. apply H4.
  - destruct (word_says u rest (if b then "true" else "false") Hfrom Hv) as (H1 & H2 & H3 & H4); [destruct b; by apply (bool_decide_unpack _)|].
    split; [done|by apply no_lf_cons|]. exists (value u). destruct (Hsoft (value u) E4) as [-> Hz]. split_and!; [|done|].
    + rewrite format_unfold. unfold format_node. rewrite Hk, E1, E2. done.
    + intros z. rewrite Hz. apply H4.
  - pose proof (from_no_lf _ _ Hfrom ltac:(rewrite Hku; by apply (bool_decide_unpack _))) as Hlf.
    apply from_number in Hfrom as [Hnt Hfrom]; [|done]. pose proof (capture_text _ _ _ Hnt Hcap) as Hst.
    split; [done|by apply no_lf_cons|]. exists src. destruct (number_head _ Hst) as (c & v & -> & Hc).
    assert (soft KValue t = false) as Hs. { cbn. unfold numeric. rewrite Hk. unfold number_value. by rewrite E3. }
    unfold begins, follows. rewrite Hs. split_and!.
    + rewrite format_unfold. unfold format_node. rewrite Hk, E1, E2, E3. by apply E4.
    + cbn. revert Hc. apply (implies_all (λ c, number_class c || Ascii.eqb "." c) lead). vm_compute. reflexivity.
    + intros z Hz. eapply respells_number; [done..|]. by apply quiet_number.
  - destruct (string_says p us m rest Hm) as (H1 & H2 & u & H3 & H4 & H5); [by eapply plain_ptr|done|].
    split; [done..|]. exists u. destruct (Hsoft u E3) as [-> Hz]. split_and!; [|done|intros z _; apply H5].
    rewrite format_unfold. unfold format_node. rewrite Hk, E1, E2, E3, E4. done.
Qed.
Lemma called_says us ms rest :
  called KExprInvocationParams us ms → (∀ t, t ∈ ms → (size t <= n)%nat ∧ plain t) → from root (us ++ rest) →
  from root rest ∧ no_lf us ∧ ∃ l, fmt_all format (map Some ms) = Ok l ∧
    ∀ z, calm z → calm (concat (map (λ a, chars "(" ++ a ++ chars ")") l) ++ z) ∧ respells us (concat (map (λ a, chars "(" ++ a ++ chars ")") l)) z.
Proof.
  intros H. revert rest. induction H as [|p o us t c vs ts Ho Hb Hc H IHl]; intros rest Ht Hfrom.
  - split_and!; [done..|]. exists []. split; [done|]. intros z Hz. split; [done|apply respells_nil].
  - cbn [app] in Hfrom. rewrite <- (assoc_L (++)) in Hfrom. cbn [app] in Hfrom.
    destruct (from_lit "(" TOpLParen _ _ Hfrom) as [Hok Hfrom1]; [lit_in|done|].
    destruct (Ht t ltac:(by left)) as [Hn Hpl].
    destruct (IH KExprInvocationParams ltac:(is_printable) p us t _ Hn Hb Hpl Hfrom1) as [H1 H2 (u & H3 & _ & H5)].
    destruct (from_lit ")" TOpRParen _ _ H1) as [Hck Hfrom2]; [lit_in|done|].
    destruct (IHl rest) as (I1 & I2 & l & I3 & I4); [intros; apply Ht; by right|done|].
    split_and!; [done| |].
    + apply no_lf_cons; [rewrite Ho; by apply (bool_decide_unpack _)|]. apply no_lf_app; [done|].
      apply no_lf_cons; [rewrite Hc; by apply (bool_decide_unpack _)|done].
    + exists (u :: l). split; [cbn [map fmt_all fmt_of]; by rewrite H3; cbn; rewrite I3|]. intros z Hz. destruct (I4 z Hz) as [J1 J2].
      split; [done|]. cbn [map concat]. rewrite <- !(assoc_L (++)).
      eapply (free_lit "(" TOpLParen); [lit_in|vm_compute; reflexivity|done|done|]. apply respells_app; [by apply H5|].
      eapply (free_lit ")" TOpRParen); [lit_in|vm_compute; reflexivity|done|done|done].
Qed.
Lemma post_says t up rest :
  (size t <= S n)%nat → plain t → (∀ c, ptr_of FPost t = Some c → numeric c = false) →
  ((up = [] ∧ ptr_of FPost t = None) ∨
     ∃ qp d vs e, up = d :: vs ∧ value d = chars "." ∧ builds qp KExprPostfix vs e ∧ ptr_of FPost t = Some e) →
  from root (up ++ rest) →
  from root rest ∧ no_lf up ∧ ∃ w, match ptr_of FPost t with Some e => s ← format e; Ok (chars "." ++ s) | None => Ok [] end = Ok w ∧
    (w = [] ∧ ptr_of FPost t = None ∨ starts (Ascii.eqb ".") w ∧ ptr_of FPost t ≠ None) ∧ ∀ z, calm z → calm (w ++ z) ∧ respells up w z.
Proof.
  intros Hn Hpl Hnum [[-> E]|(q & d & vs & e & -> & Hd & He & E)] Hfrom; rewrite E.
  - split_and!; [done..|]. exists []. split; [done|]. split; [by left|]. intros z Hz. split; [done|apply respells_nil].
  - cbn [app] in Hfrom. destruct (from_lit "." TDot _ _ Hfrom) as [Hdk Hfrom1]; [lit_in|done|].
    destruct (IH KExprPostfix ltac:(is_printable) q vs e rest) as [H1 H2 (u & H3 & H4 & H5)]; [apply size_ptr in E; lia|done|by eapply plain_ptr|done|].
    assert (soft KExprPostfix e = true) as Hs by (cbn; by rewrite (Hnum e E)). unfold begins, follows in *. rewrite Hs in *.
    split_and!; [done|apply no_lf_cons; [rewrite Hd; by apply (bool_decide_unpack _)|done]|].
    exists (chars "." ++ u). split; [by rewrite H3|]. split; [by right|]. intros z Hz. split; [done|].
    eapply (respells_lit "." TDot); [lit_in|done|done| |by apply H5]. destruct u as [|c u]; [done|]. cbn in H4 |- *.
    apply negb_true_iff. revert H4. apply (implies_all gentle (λ c, negb (extends "." c))). vm_compute. reflexivity.
Qed.
Lemma primary_says p us t rest :
  (size t <= S n)%nat → builds p KExprPrimary us t → plain t → from root (us ++ rest) → says KExprPrimary t us rest.
Proof.
  intros Hn Hb Hpl Hfrom. pose proof (builds_kind _ _ _ _ Hb) as Hk.
  pose proof (plain_self _ Hpl) as Hp. unfold plain_node in Hp. rewrite Hk in Hp. destruct Hp as [Hsub Hpost].
  destruct (primary_builds _ _ _ Hb Hsub) as [(v & Hv & E1 & E2)|(q & ui & i & uc & ms & up & -> & Hi & E1 & E2 & Hms & Hl & Hup)].
  - pose proof (builds_kind _ _ _ _ Hv) as Hkv.
    destruct (value_says p us v rest Hv) as [H1 H2 (u & H3 & H4 & H5)]; [by eapply plain_ptr|done|].
    assert (soft KExprPrimary t = soft KValue v) as Hs.
    { cbn. unfold numeric. rewrite Hk, Hkv. unfold number_primary. by rewrite E1. }
    unfold begins, follows in *. rewrite <- Hs in *. split; [done..|]. exists u. unfold begins, follows. split_and!; [|done|done].
    rewrite format_unfold. unfold format_node. rewrite Hk, Hsub, E1. done.
  - rewrite <- !(assoc_L (++)) in Hfrom. destruct (ident_says _ _ _ _ Hi Hfrom) as [H1 H2 (u & H3 & H4 & H5)].
    destruct (called_says uc ms (up ++ rest) Hms) as (I1 & I2 & l & I3 & I4).
    { intros m Hm. assert (Some m ∈ list_of FMonads t) as Hin by (rewrite Hl; by apply elem_of_list_fmap_1).
      split; [apply size_list in Hin; lia|by eapply plain_list]. }
    { done. }
    destruct (post_says t up rest Hn Hpl Hpost Hup I1) as (J1 & J2 & w & J3 & _ & J4).
    split; [done|by apply no_lf_app; [|apply no_lf_app]|].
    assert (soft KExprPrimary t = true) as Hs. { cbn. unfold numeric. rewrite Hk. unfold number_primary. by rewrite E1. }
    unfold begins, follows. rewrite Hs. eexists. split_and!.
    + rewrite format_unfold. unfold format_node. rewrite Hk, Hsub, E1, E2, Hl. rewrite H3. cbn [mbind res_bind]. rewrite I3. cbn [mbind res_bind].
      rewrite J3. cbn [mbind res_bind]. reflexivity.
    + by apply starts_app.
    + intros z Hz. destruct (J4 z Hz) as [K1 K2]. destruct (I4 _ K1) as [K3 K4].
      apply respells_app; [apply H5; unfold follows; cbn; by rewrite <- (assoc_L (++))|]. by apply respells_app.
Qed.
Lemma postfix_says p us t rest :
  (size t <= S n)%nat → builds p KExprPostfix us t → plain t → from root (us ++ rest) → says KExprPostfix t us rest.
Proof.
  intros Hn Hb Hpl Hfrom. pose proof (builds_kind _ _ _ _ Hb) as Hk.
  pose proof (plain_self _ Hpl) as Hp. unfold plain_node in Hp. rewrite Hk in Hp.
  destruct (postfix_builds _ _ _ Hb) as (q & uv & v & ui & up & -> & Ev & Hv & Hi & Hup).
  pose proof (builds_kind _ _ _ _ Hv) as Hkv.
  rewrite <- !(assoc_L (++)) in Hfrom.
  destruct (IH KExprPrimary ltac:(is_printable) q uv v _ ltac:(apply size_emb in Ev; lia) Hv ltac:(by eapply plain_emb) Hfrom) as [H1 H2 (u & H3 & H4 & H5)].
  assert (numeric t = numeric v) as Hnv. { unfold numeric. by rewrite Hk, Hkv, Ev. }
  assert (soft KExprPostfix t = soft KExprPrimary v) as Hs by (cbn; by rewrite Hnv).
  unfold begins, follows in H4, H5. rewrite <- Hs in H4, H5.
  assert (∃ x, match ptr_of FIndex t with Some e => s ← format e; Ok (chars "[" ++ s ++ chars "]") | None => Ok [] end = Ok x ∧
    from root (up ++ rest) ∧ no_lf ui ∧
    (x = [] ∧ ptr_of FIndex t = None ∨ starts (Ascii.eqb "[") x) ∧ ∀ z, respells ui x z) as (x & X1 & X2 & X3 & X4 & X5).
  { destruct Hi as [[-> E]|(qi & o & vs & c & i & -> & Ho & Hc & Hi & E)]; rewrite E.
    - exists []. split_and!; try done; [by left|]. intros z. apply respells_nil.
    - cbn [app] in H1. rewrite <- (assoc_L (++)) in H1. cbn [app] in H1.
      destruct (from_lit "[" TOpLBracket _ _ H1) as [Hok Hfrom1]; [lit_in|done|].
      destruct (IH KExpr ltac:(is_printable) qi vs i _ ltac:(apply size_ptr in E; lia) Hi ltac:(by eapply plain_ptr) Hfrom1) as [I1 I2 (y & I3 & I4 & I5)].
      destruct (from_lit "]" TOpRBracket _ _ I1) as [Hck Hfrom2]; [lit_in|done|].
      exists (chars "[" ++ y ++ chars "]"). split_and!; [by rewrite I3|done| |by right|].
      + apply no_lf_cons; [rewrite Ho; by apply (bool_decide_unpack _)|]. apply no_lf_app; [done|].
        apply no_lf_cons; [rewrite Hc; by apply (bool_decide_unpack _)|done].
      + intros z. eapply (free_lit "[" TOpLBracket); [lit_in|vm_compute; reflexivity|done|done|]. apply respells_app; [by apply I5|].
        rewrite <- (app_nil_r (chars "]")). eapply (free_lit "]" TOpRBracket); [lit_in|vm_compute; reflexivity|done|done|apply respells_nil]. }
  destruct (post_says t up rest Hn Hpl (λ c Hc, proj1 (Hp c Hc)) Hup X2) as (J1 & J2 & w & J3 & J4 & J5).
  split; [done|by apply no_lf_app; [|apply no_lf_app]|].
  exists (u ++ x ++ w). unfold begins, follows. split_and!.
  - rewrite format_unfold. unfold format_node. rewrite Hk, Ev. cbn [fmt_of]. rewrite H3. cbn [mbind res_bind]. rewrite X1. cbn [mbind res_bind].
    rewrite J3. done.
  - by apply starts_app.
  - intros z Hz. assert (calm z) as Hcz by (destruct (soft KExprPostfix t); [done|by apply quiet_calm]). destruct (J5 z Hcz) as [K1 K2].
    apply respells_app; [|by apply respells_app]. apply H5. rewrite <- (assoc_L (++)).
    destruct X4 as [[-> Ex]|X4].
    2: { destruct x as [|a x]; [done|]. apply Ascii.eqb_eq in X4 as <-. by destruct (soft KExprPostfix t). }
    destruct J4 as [[-> Ew]|[J4 Ew]]; [done|].
    destruct (ptr_of FPost t) as [c|] eqn:Ec; [|done]. destruct (Hp c eq_refl) as [_ Hnum]. cbn [soft]. rewrite (Hnum Ex). done.
Qed.
Lemma unary_says p us t rest :
  (size t <= S n)%nat → builds p KExprUnary us t → plain t → from root (us ++ rest) → says KExprUnary t us rest.
Proof.
  intros Hn Hb Hpl Hfrom. pose proof (builds_kind _ _ _ _ Hb) as Hk.
  destruct (unary_builds _ _ _ Hb) as (q & r & Er & [[Eo Hr]|(o & vs & -> & Ho & Eo & Hr)]).
  - destruct (IH KExprPostfix ltac:(is_printable) q us r rest ltac:(apply size_emb in Er; lia) Hr ltac:(by eapply plain_emb) Hfrom) as [H1 H2 (u & H3 & H4 & H5)].
    split; [done..|]. exists u. split_and!.
    + rewrite format_unfold. unfold format_node. rewrite Hk, Er, Eo. cbn [fmt_of]. rewrite H3. done.
    + unfold begins in *. destruct (soft KExprPostfix r); [by apply starts_gentle|done].
    + intros z Hz. apply H5. unfold follows in *. cbn [soft] in Hz. destruct (soft KExprPostfix r); [by apply quiet_calm|done].
  - assert (∃ w, (w, kind_of_token o) ∈ operators ∧ forallb (λ c, implb (lead c) (negb (extends w c))) all_ascii = true ∧ starts lead (chars w)) as (w & Hw & Hx & Hl).
    { rewrite !elem_of_cons, elem_of_nil in Ho. destruct Ho as [->|[->|[->|[->|[]]]]]; [exists "~"|exists "!"|exists "-"|exists "+"];
        (split; [lit_in|split; [vm_compute; reflexivity|done]]). }
    cbn [app] in Hfrom. destruct (from_op w _ _ _ Hfrom Hw eq_refl) as [Hv Hfrom1].
    destruct (IH KExprPostfix ltac:(is_printable) q vs r rest ltac:(apply size_emb in Er; lia) Hr ltac:(by eapply plain_emb) Hfrom1) as [H1 H2 (u & H3 & H4 & H5)].
    assert (starts lead u) as Hlu. { unfold begins in H4. destruct (soft KExprPostfix r); [by apply starts_gentle|done]. }
    split; [done| |].
    { apply no_lf_cons; [|done]. apply (from_no_lf _ _ Hfrom). rewrite !elem_of_cons, elem_of_nil in Ho |- *. naive_solver congruence. }
    exists (chars w ++ u). split_and!.
    + rewrite format_unfold. unfold format_node. rewrite Hk, Er, Eo, Hv. cbn [fmt_of]. by rewrite H3.
    + by apply starts_app.
    + intros z Hz. eapply respells_lit; [exact Hw|done|done| |].
      * destruct u as [|c u]; [done|]. cbn in Hlu |- *. apply negb_true_iff. by apply (implies_all lead (λ c, negb (extends w c)) Hx).
      * apply H5. unfold follows in *. cbn [soft] in Hz. destruct (soft KExprPostfix r); [by apply quiet_calm|done].
Qed.
Lemma level_says k lft my p us t rest :
  level k = Some (lft, my) → (size t <= S n)%nat → builds p k us t → plain t → from root (us ++ rest) → says k t us rest.
Proof.
  intros Hl Hn Hb Hpl Hfrom. pose proof (builds_kind _ _ _ _ Hb) as Hk.
  assert (format t = format_binary format t) as Hfmt.
  { rewrite format_unfold. unfold format_node. rewrite Hk. by destruct k. }
  assert (lft ∈ printable ∧ k ∈ printable ∧ (∀ t, soft k t = false) ∧ (∀ t, soft lft t = false) ∧
    k ≠ KExprInvocationParams ∧ lft ≠ KExprInvocationParams ∧ forallb (λ o, match text_of_op o with Some _ => true | None => false end) my = true)
    as (Hpl1 & Hpl2 & Hs1 & Hs2 & Hi1 & Hi2 & Hops).
  { destruct k; try done; injection Hl as <- <-; (split; [is_printable|split; [is_printable|done]]). }
  assert (∀ x u, begins lft x u → starts lead u) as Hb2. { intros x u. unfold begins. rewrite Hs2. by destruct lft. }
  assert (∀ x u, begins k x u → starts lead u) as Hb1. { intros x u. unfold begins. rewrite Hs1. by destruct k. }
  assert (∀ u, starts lead u → begins k t u) as Hb3. { intros u. unfold begins. rewrite Hs1. by destruct k. }
  assert (∀ x z, quiet z → follows lft x z) as F2. { intros x z. unfold follows. by rewrite Hs2. }
  assert (∀ x z, quiet z ↔ follows k x z) as F1. { intros x z. unfold follows. by rewrite Hs1. }
  destruct (level_builds _ _ _ _ _ _ Hl Hb) as (l & G1 & [(Hbl & G2 & G3)|(lus & u & vs & m & -> & Hu & Hbl & Hbr & G2 & G3)]).
  - assert (emb_of FLeft t = Some l) as El by (unfold emb_of; by rewrite G1).
    destruct (IH lft Hpl1 p us l rest ltac:(apply size_emb in El; lia) Hbl ltac:(by eapply plain_emb) Hfrom) as [H1 H2 (x & H3 & H4 & H5)].
    split; [done..|]. exists x. split_and!.
    + rewrite Hfmt. unfold format_binary. assert (str_of FOp t = []) as -> by (unfold str_of; by rewrite G2). rewrite decide_True by done.
      by rewrite El.
    + eapply Hb3, Hb2, H4.
    + intros z Hz. apply H5, F2. by apply (F1 t).
  - assert (emb_of FLeft t = Some l) as El by (unfold emb_of; by rewrite G1).
    assert (ptr_of FRight t = Some m) as Er by (unfold ptr_of; by rewrite G3).
    rewrite <- (assoc_L (++)) in Hfrom. cbn [app] in Hfrom.
    destruct (IH lft Hpl1 _ lus l _ ltac:(apply size_emb in El; lia) Hbl ltac:(by eapply plain_emb) Hfrom) as [H1 H2 (x & H3 & H4 & H5)].
    assert (∃ w, (w, kind_of_token u) ∈ operators) as [w Hw].
    { rewrite forallb_forall in Hops. apply elem_of_list_In in Hu. specialize (Hops _ Hu).
      destruct (text_of_op (kind_of_token u)) as [w|] eqn:E; [|done]. exists w. by apply text_of_op_elem. }
    destruct (from_op w _ _ _ H1 Hw eq_refl) as [Hv Hfrom1].
    destruct (IH k Hpl2 _ vs m _ ltac:(apply size_ptr in Er; lia) Hbr ltac:(by eapply plain_ptr) Hfrom1) as [I1 I2 (y & I3 & I4 & I5)].
    assert (str_of FOp t = chars w) as Eo by (unfold str_of; rewrite G2, chars_str; done).
    split; [done| |].
    { apply no_lf_app; [done|]. apply no_lf_cons; [|done]. apply (from_no_lf _ _ H1). intros Hbad.
      assert (forallb (λ o, negb (bool_decide (o ∈ [TSingleLineComment; TMultilineComment; THeredoc; TLF]))) my = true) as Hmy.
      { destruct k; try done; injection Hl as <- <-; vm_compute; reflexivity. }
      rewrite forallb_forall in Hmy. apply elem_of_list_In in Hu. specialize (Hmy _ Hu). by rewrite bool_decide_true in Hmy. }
    exists (x ++ chars " " ++ chars w ++ chars " " ++ y). split_and!.
    + rewrite Hfmt. unfold format_binary. rewrite Eo, El, Er. rewrite decide_False.
      * cbn [is_nil fmt_of]. rewrite H3. cbn [mbind res_bind]. by rewrite I3.
      * intros E. rewrite E in Hv. apply from_root_cons in H1 as (p' & s & s' & st' & Hs & _). apply step_rule in Hs as (r & yy & _ & _ & _ & Hne & _). done.
    + apply Hb3, starts_app. by eapply Hb2.
    + intros z Hz. apply respells_app; [apply H5, F2; done|]. apply respells_skip.
      * rewrite <- (assoc_L (++)). by eapply op_no_blank.
      * eapply op_then_space; [exact Hw|done|done|apply lead_blank; by eapply Hb1|]. apply I5. by apply F1, (F1 t).
Qed.
Lemma conditional_says p us t rest :
  (size t <= S n)%nat → builds p KExprConditional us t → plain t → from root (us ++ rest) → says KExprConditional t us rest.
Proof.
  intros Hn Hb Hpl Hfrom. pose proof (builds_kind _ _ _ _ Hb) as Hk.
  destruct (conditional_builds _ _ _ Hb) as (q & uc & c & Ec & Hc & [[-> Eb]|(qa & qb & o & ua & s & ub & a & b & -> & Ho & Hs & Ha & Hbb & Eb & Ea & Ebb)]).
  - destruct (IH KExprLogicalOr ltac:(is_printable) _ uc c rest ltac:(apply size_emb in Ec; lia) Hc ltac:(by eapply plain_emb) Hfrom) as [H1 H2 (x & H3 & H4 & H5)].
    split; [done..|]. exists x. split_and!; [|done|done]. rewrite format_unfold. unfold format_node. rewrite Hk, Ec, Eb. cbn [fmt_of]. by rewrite H3.
  - rewrite <- (assoc_L (++)) in Hfrom. cbn [app] in Hfrom. rewrite <- (assoc_L (++)) in Hfrom. cbn [app] in Hfrom.
    destruct (IH KExprLogicalOr ltac:(is_printable) _ uc c _ ltac:(apply size_emb in Ec; lia) Hc ltac:(by eapply plain_emb) Hfrom) as [H1 H2 (x & H3 & H4 & H5)].
    destruct (from_lit "?" TOpCondition _ _ H1) as [Hok Hfrom1]; [lit_in|done|].
    destruct (IH KExpr ltac:(is_printable) _ ua a _ ltac:(apply size_ptr in Ea; lia) Ha ltac:(by eapply plain_ptr) Hfrom1) as [I1 I2 (y & I3 & I4 & I5)].
    destruct (from_lit ":" TOpColon _ _ I1) as [Hsk Hfrom2]; [lit_in|done|].
    destruct (IH KExpr ltac:(is_printable) _ ub b _ ltac:(apply size_ptr in Ebb; lia) Hbb ltac:(by eapply plain_ptr) Hfrom2) as [J1 J2 (z & J3 & J4 & J5)].
    split; [done| |].
    { apply no_lf_app; [done|]. apply no_lf_cons; [rewrite Ho; by apply (bool_decide_unpack _)|]. apply no_lf_app; [done|].
      apply no_lf_cons; [rewrite Hs; by apply (bool_decide_unpack _)|done]. }
    exists (x ++ chars " " ++ chars "?" ++ chars " " ++ y ++ chars " " ++ chars ":" ++ chars " " ++ z). split_and!.
    + rewrite format_unfold. unfold format_node. rewrite Hk, Ec, Eb, Ea, Ebb. cbn [fmt_of]. rewrite H3. cbn [mbind res_bind]. rewrite I3.
      cbn [mbind res_bind]. by rewrite J3.
    + by apply starts_app.
    + intros r Hr. apply respells_app; [by apply H5|]. apply respells_skip; [done|].
      eapply (op_then_space "?" TOpCondition); [lit_in|done|done|rewrite <- (assoc_L (++)); by apply lead_blank|].
      apply respells_app; [by apply I5|]. apply respells_skip; [done|].
      eapply (op_then_space ":" TOpColon); [lit_in|done|done|by apply lead_blank|by apply J5].
Qed.
Lemma expr_says p us t rest :
  (size t <= S n)%nat → builds p KExpr us t → plain t → from root (us ++ rest) → says KExpr t us rest.
Proof.
  intros Hn Hb Hpl Hfrom. pose proof (builds_kind _ _ _ _ Hb) as Hk.
  pose proof (plain_self _ Hpl) as Hp. unfold plain_node in Hp. rewrite Hk in Hp. destruct Hp as [N1 N2].
  destruct (expr_left _ _ _ Hb N1 N2) as [c Ec]. pose proof (expr_builds _ _ _ _ Hb Ec) as Hc.
  destruct (IH KExprConditional ltac:(is_printable) _ us c rest ltac:(apply size_ptr in Ec; lia) Hc ltac:(by eapply plain_ptr) Hfrom) as [H1 H2 (x & H3 & H4 & H5)].
  split; [done..|]. exists x. split_and!; [|done|done]. rewrite format_unfold. unfold format_node. rewrite Hk, Ec. done.
Qed.
Lemma decl_says p us t rest :
  (size t <= S n)%nat → builds p KDecl us t → plain t → from root (us ++ rest) → says KDecl t us rest ∧ us ≠ [].
Proof.
  intros Hn Hb Hpl Hfrom. pose proof (builds_kind _ _ _ _ Hb) as Hk.
  destruct (decl_builds _ _ _ Hb) as (d & u & uty & uv & -> & Hd & Hu & Ed & Eu & Hty & Hval). split; [|done].
  apply elem_of_list_fmap in Hd as (w & Hdw & Hw). cbn [app] in Hfrom.
  destruct (word_says d _ w Hfrom Hdw) as (D1 & D2 & D3 & D4).
  { rewrite !elem_of_cons, elem_of_nil in Hw. rewrite !elem_of_cons. tauto. }
  pose proof (from_no_lf _ _ D1 ltac:(rewrite Hu; by apply (bool_decide_unpack _))) as Hlf.
  apply from_ident in D1 as [U1 (iu & ius & Hv & Hid & Hkw)]; [|done]. rewrite <- (assoc_L (++)) in U1.
  assert (starts is_alpha (value u)) as Hal.
  { rewrite Hv. destruct Hid as ((Hne & Hww) & (c & Hc & Hc') & _). destruct iu as [|c' iu]; [done|]. by injection Hc as ->. }
  assert (∃ x, match ptr_of FType t with None => Ok [] | Some c => s ← format c; Ok (chars ": " ++ s) end = Ok x ∧
    from root (uv ++ rest) ∧ no_lf uty ∧ ((x = [] ∧ ∀ z, respells uty x z) ∨ starts (Ascii.eqb ":") x ∧ ∀ z, quiet z → respells uty x z)) as (x & X1 & X2 & X3 & X4).
  { destruct Hty as [[-> E]|(q & c & vs & ty & -> & Hc & Hty & E)]; rewrite E.
    - exists []. split_and!; try done. left. split; [done|]. intros z. apply respells_nil.
    - cbn [app] in U1. destruct (from_lit ":" TOpColon _ _ U1) as [Hck U2]; [lit_in|done|].
      destruct (IH KParameterType ltac:(is_printable) q vs ty _ ltac:(apply size_ptr in E; lia) Hty ltac:(by eapply plain_ptr) U2) as [H1 H2 (y & H3 & H4 & H5)].
      exists (chars ":" ++ chars " " ++ y). split_and!; [by rewrite H3|done|apply no_lf_cons; [rewrite Hc; by apply (bool_decide_unpack _)|done]|].
      right. split; [done|]. intros z Hz. eapply (op_then_space ":" TOpColon); [lit_in|done|done|by apply lead_blank|by apply H5]. }
  assert (∃ y, match ptr_of FValue t with None => Ok [] | Some c => s ← format c; Ok (chars " = " ++ s) end = Ok y ∧
    from root rest ∧ no_lf uv ∧ (∀ z, quiet z → quiet (y ++ z)) ∧ ∀ z, quiet z → respells uv y z) as (y & Y1 & Y2 & Y3 & Y4 & Y5).
  { destruct Hval as [[-> E]|(q & c & vs & e & -> & Hc & He & E)]; rewrite E.
    - exists []. split_and!; try done. intros z _. apply respells_nil.
    - cbn [app] in X2. destruct (from_lit "=" TOpAssign _ _ X2) as [Hck U2]; [lit_in|done|].
      destruct (IH KExpr ltac:(is_printable) q vs e _ ltac:(apply size_ptr in E; lia) He ltac:(by eapply plain_ptr) U2) as [H1 H2 (y & H3 & H4 & H5)].
      exists (chars " " ++ chars "=" ++ chars " " ++ y). split_and!; [by rewrite H3|done|apply no_lf_cons; [rewrite Hc; by apply (bool_decide_unpack _)|done]|done|].
      intros z Hz. apply respells_skip; [done|]. eapply (op_then_space "=" TOpAssign); [lit_in|done|done|by apply lead_blank|by apply H5]. }
  split; [done| |].
  { apply no_lf_cons; [done|]. apply no_lf_cons; [done|]. by apply no_lf_app. }
  exists (value d ++ chars " " ++ value u ++ x ++ y). split_and!.
  - rewrite format_unfold. unfold format_node. rewrite Hk. unfold format_decl. rewrite Eu, Ed. rewrite decide_False.
    + rewrite X1. cbn [mbind res_bind]. by rewrite Y1.
    + intros E. by rewrite E in Hal.
  - apply starts_app. by apply starts_gentle.
  - intros z Hz. apply (respells_app [d]); [by apply D4|]. apply respells_skip.
    { rewrite <- (assoc_L (++)). apply lead_blank. destruct (value u); [done|]. cbn in Hal |- *. unfold lead, is_word. rewrite Hal. by rewrite orb_true_r. }
    apply (respells_app [u]).
    + eapply respells_ident; [done..|]. destruct X4 as [[-> _]|[X4 _]].
      * apply calm_ident, quiet_calm. cbn. by apply Y4.
      * destruct x as [|a x]; [done|]. apply Ascii.eqb_eq in X4 as <-. done.
    + apply respells_app; [|by apply Y5]. destruct X4 as [[-> X4]|[_ X4]]; [done|]. apply X4. by apply Y4.
Qed.
End step.
Lemma size_pos t : (0 < size t)%nat.
Proof. unfold size. destruct t. cbn. lia. Qed.
Lemma claims n k : k ∈ printable → claim n k.
Proof.
  revert k. induction n as [|n IH]; intros k Hk p us t rest Hn Hb Hpl Hfrom.
  { exfalso. pose proof (size_pos t). lia. }
  destruct (level k) as [[lft my]|] eqn:El; [by eapply level_says|].
  unfold printable in Hk. rewrite !elem_of_cons, elem_of_nil in Hk. decompose [or] Hk; subst; try done.
  - by apply (decl_says n IH p).
  - by apply (type_says n IH p).
  - by apply (signature_says n IH p).
  - by apply (ident_says p).
  - by apply (expr_says n IH p).
  - by apply (conditional_says n IH p).
  - by apply (unary_says n IH p).
  - by apply (postfix_says n IH p).
  - by apply (primary_says n IH p).
  - by apply (params_says n IH p).
  - by apply (value_says p).
  - destruct (string_says p us t rest Hb Hpl Hfrom) as (H1 & H2 & u & H3 & H4 & H5). split; [done..|]. exists u.
    split_and!; [done|by apply starts_gentle|intros z _; apply H5].
Qed.

(** ** Files *)
Lemma space_no_lf st p s t s' st' : lex_step st p s = Some (t, s', st') → kind_of_token t = TWhitespace → lf ∉ value t.
Proof.
  intros H Hk Hc. destruct st as [|fr st]; [apply lex_step_inv in H as (fr & st0 & r & y & E & _); done|].
  apply step_rule in H as (r & y & Hr & Hk' & Hl & _). rewrite Hk in Hk'.
  assert (forallb (λ r, negb (bool_decide (rname r = TWhitespace)) || negb (may_have (pattern r) lf)) (rules fr) = true) as H.
  { destruct fr as [[] g]; cbn [rules]; vm_compute; reflexivity. }
  rewrite forallb_forall in H. apply elem_of_list_In in Hr. specialize (H r Hr). rewrite bool_decide_true in H by done.
  cbn in H. apply negb_true_iff in H. by rewrite (lang_has _ _ _ Hl Hc) in H.
Qed.
Lemma last_char st p s ts st' p' : lexes st p s ts st' p' [] → last s = Some lf → ∃ t us, elide ts = us ++ [t] ∧ lf ∈ value t.
Proof.
  intros H Hs. pose proof (lexes_text _ _ _ _ _ _ _ H) as E. rewrite app_nil_r in E. subst s.
  destruct ts as [|t ts _] using rev_ind; [done|]. apply lexes_app_inv in H as (st1 & p1 & s1 & _ & H).
  apply lexes_cons_inv in H as (s2 & st2 & H & _). pose proof (lex_step_inv _ _ _ _ _ _ H) as (fr & st0 & r & y & _ & _ & _ & _ & Hne & _).
  unfold text_of in Hs. rewrite map_app, concat_app in Hs. cbn in Hs. rewrite app_nil_r, last_app in Hs.
  destruct (last (value t)) as [c|] eqn:El; [|apply last_None in El; done]. injection Hs as ->.
  assert (lf ∈ value t) as Hc by (apply last_Some_elem_of in El; done).
  exists t, (elide ts). split; [|done]. rewrite elide_app. f_equal. unfold elide. rewrite filter_cons, decide_True; [done|].
  intros Hk. by eapply space_no_lf.
Qed.
Lemma lexed_to s ts p' : lexes root (start_pos "") s ts root p' [] → lex "" s = Ok (Lexed ts root).
Proof.
  intros H. unfold lex. change [(SRoot, [])] with root. rewrite (lexes_lex _ _ _ _ _ _ _ (Lexed [] root) H); [|done].
  by rewrite prepend_lexed, app_nil_r.
Qed.
(*P C32_one_declaration_partial *)
(** A file of one declaration that is written plainly is formatted, the formatted text
    is parsed, and the AST of it is that of the file, positions aside.  In full: the same
    for all files, blank lines aside; that is refuted in EtxFormatProps.v.  What is left
    out here though it may well be true: files of several items, functions, types and
    blocks, and files that do not end with a newline. *)
Lemma reprint s r :
  parse s = Ok (Some r) → last s = Some lf → one_declaration r → plain r →
  ∃ u r', format r = Ok u ∧ parse u = Ok (Some r') ∧ unplaced r' = unplaced r.
Proof.
  intros Hp Hs Hone Hpl. destruct (parse_built _ _ Hp) as (ts & st & Hl & Hb).
  destruct (lex_lexes _ _ _ _ _ _ Hl) as (p1 & Hlx). fold root in Hlx.
  destruct (last_char _ _ _ _ _ _ Hlx Hs) as (e & us0 & El & He).
  pose proof (builds_kind _ _ _ _ Hb) as Hkr.
  destruct (file_builds _ _ _ Hb Hone) as (q & i & d & ud & ul & Eus & Ei & Hki & Ed & Hd & Hul).
  assert (from root (ud ++ ul)) as Hfrom by (rewrite <- Eus; by eexists _, _, _, _, _, _).
  assert (plain d) as Hpd.
  { eapply plain_ptr; [|exact Ed]. eapply plain_list; [exact Hpl|]. rewrite Ei. by left. }
  destruct (claims (size d) KDecl ltac:(is_printable) q ud d ul ltac:(lia) Hd Hpd Hfrom) as [H1 H2 (u & H3 & H4 & H5)].
  destruct Hul as [->|(c & -> & Hc)].
  { exfalso. rewrite app_nil_r in Eus. rewrite Eus in El. unfold no_lf in H2. rewrite El, last_snoc in H2. done. }
  rewrite El in Eus. apply app_inj_tail in Eus as [-> ->].
  pose proof H1 as (p2 & s2 & s3 & st3 & Hstep & _)%from_root_cons.
  destruct (root_lf _ _ _ _ _ Hstep Hc) as [x Hx]. rewrite Hx in He. apply elem_of_list_singleton in He as <-.
  assert (respells (ud ++ [c]) (u ++ [lf]) []) as Hre.
  { apply respells_app; [apply H5; done|]. by apply respells_lf. }
  destruct (Hre (start_pos "")) as (ts' & p3 & Hlx' & Hal). rewrite app_nil_r in Hlx'. apply lexed_to in Hlx'.
  assert (format r = Ok (u ++ [lf])) as Hf.
  { rewrite format_unfold. unfold format_node. rewrite Hkr, Ei. cbn [fmt_all fmt_of]. rewrite format_unfold. unfold format_node at 1.
    rewrite Hki, Ed. cbn [first_set]. rewrite H3. cbn. done. }
  destruct (p68 s (u ++ [lf]) ts ts' st root Hl Hlx' ltac:(by rewrite El)) as (o & o' & Ho & Ho' & Hoo).
  rewrite Hp in Ho. injection Ho as <-. destruct o' as [r'|]; [|done]. injection Hoo as Hoo. by exists (u ++ [lf]), r'.
Qed.
(*P C33_one_declaration_partial *)
(** Two such files with the same formatted text have the same AST, positions aside.  In full:
    any two expressions; that is refuted in EtxFormatProps.v. *)
Lemma reprint_inj s s' r r' u :
  parse s = Ok (Some r) → last s = Some lf → one_declaration r → plain r →
  parse s' = Ok (Some r') → last s' = Some lf → one_declaration r' → plain r' →
  format r = Ok u → format r' = Ok u → unplaced r = unplaced r'.
Proof.
  intros P1 L1 O1 N1 P2 L2 O2 N2 F1 F2.
  destruct (reprint _ _ P1 L1 O1 N1) as (v & t & E1 & Q1 & U1). destruct (reprint _ _ P2 L2 O2 N2) as (v' & t' & E2 & Q2 & U2).
  rewrite F1 in E1. injection E1 as <-. rewrite F2 in E2. injection E2 as <-. rewrite Q1 in Q2. injection Q2 as <-. by rewrite <- U1, <- U2.
Qed.
