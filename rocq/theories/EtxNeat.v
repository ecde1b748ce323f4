(** * Plain declarations stay on their line

    The tokens of a plain declaration have no open brackets, strings or words that start a
    statement, so the parser does not look beyond the end of them. *)
From stdpp Require Import base list option strings.
From Coq Require Import Ascii Lia.
From Verif Require Import GoBase EtxAst EtxHeap EtxHeapSpec EtxText EtxLex EtxLexSpec EtxLexFacts EtxLexNest EtxLexOps EtxLexIdent EtxLexString EtxUtil EtxUtilProofs EtxNumProofs EtxGram
  EtxParse EtxParseBase EtxParseSpec EtxParseStore EtxParseFirst EtxParseClean EtxParseLevel EtxParseLexed EtxParseTyped EtxParseParts EtxPrecSpec EtxPrec
  EtxShape EtxFormat EtxFormatSpec EtxFormatTotal EtxReprintSpec EtxParsePropProofs EtxOrder EtxLayout EtxRelex EtxReprint EtxReprintProofs EtxBarrier EtxFlat.

Definition neat (v : list token) : Prop := flat v ∧ EtxFlat.ends v.
Lemma neat_nil : neat [].
Proof. split; [constructor|done]. Qed.
Lemma neat_app v w : neat v → neat w → neat (v ++ w).
Proof. intros [H1 H2] [H3 H4]. split; [by apply flat_app|by apply ends_app_intro]. Qed.
Lemma neat_cons t v : harmless t → neat v → v ≠ [] → neat (t :: v).
Proof.
  intros Ht [H1 H2] Hv. split; [by constructor|]. unfold EtxFlat.ends in *. rewrite last_cons.
  destruct (last v) eqn:E; [done|]. by apply last_None in E.
Qed.
Lemma neat_one t : harmless t → kind_of_token t ∈ closers → neat [t].
Proof. intros Ht Hk. split; [constructor; [done|constructor]|done]. Qed.
Lemma neat_index o v c :
  kind_of_token o = TOpLBracket → value o = chars "[" → neat v → v ≠ [] → kind_of_token c = TOpRBracket → value c = chars "]" →
  neat (o :: v ++ [c]).
Proof.
  intros H1 H2 [H3 H4] H5 H6 H7. split; [by apply flat_index; [..|constructor]|].
  unfold EtxFlat.ends. rewrite app_comm_cons, last_snoc, H6. lit_in.
Qed.
Lemma neat_string o q frs c :
  kind_of_token o = TString → value o = [q] → is_quote q = true → Forall (λ x, frag_kind (kind_of_token x)) frs →
  kind_of_token c = TStringEnd → neat (o :: frs ++ [c]).
Proof.
  intros H1 H2 H3 H4 H5. split; [by eapply flat_string; [..|constructor]|].
  unfold EtxFlat.ends. rewrite app_comm_cons, last_snoc, H5. lit_in.
Qed.

(** ** Tokens *)
Lemma harmless_kind t us :
  from root (t :: us) → kind_of_token t ∉ [TIf; TSwitch; THeredoc; TString] → value t ∉ map chars ["["; "]"; "{"] → harmless t.
Proof. intros Hf H1 H2. split_and!; [done..|]. intros o k Ho Hv. by destruct (from_lit o k t us Hf Ho Hv). Qed.
Lemma harmless_op o k t us :
  from root (t :: us) → (o, k) ∈ operators → kind_of_token t = k → o ∉ ["["; "]"; "{"] → harmless t.
Proof.
  intros Hf Ho Hk Hn. destruct (from_op o k t us Hf Ho Hk) as [Hv _]. apply (harmless_kind t us Hf).
  - rewrite Hk. assert (forallb (λ ok : string * tname, bool_decide (ok.2 ∉ [TIf; TSwitch; THeredoc; TString])) operators = true) as H by (vm_compute; reflexivity).
    rewrite forallb_forall in H. apply elem_of_list_In in Ho. specialize (H _ Ho). cbn [snd] in H. by apply bool_decide_eq_true in H.
  - rewrite Hv. intros H. apply Hn. apply elem_of_list_fmap in H as (o' & E & H). by apply chars_inj in E as ->.
Qed.
Lemma harmless_lit o k t us :
  from root (t :: us) → (o, k) ∈ lits → value t = chars o → o ∉ ["["; "]"; "{"] → harmless t.
Proof.
  intros Hf Ho Hv Hn. destruct (from_lit o k t us Hf Ho Hv) as [Hk _]. eapply harmless_op; [exact Hf|by apply lits_ops|exact Hk|done].
Qed.
Lemma harmless_ident t us : from root (t :: us) → kind_of_token t = TIdent → harmless t.
Proof.
  intros Hf Hk. apply (harmless_kind t us Hf); [rewrite Hk; lit_in|]. apply from_ident in Hf as [_ (w & vs & Hv & Hid & _)]; [|done].
  rewrite Hv. destruct Hid as ((Hne & _) & (c & Hc & Hc') & _). destruct w as [|c' w]; [done|]. injection Hc as ->.
  cbn. rewrite !elem_of_cons, elem_of_nil. intros [E|[E|[E|[]]]]; by injection E as -> _.
Qed.
Lemma harmless_number t us : from root (t :: us) → kind_of_token t = TNumber → harmless t.
Proof.
  intros Hf Hk. apply (harmless_kind t us Hf); [rewrite Hk; lit_in|]. apply from_number in Hf as [Hn _]; [|done].
  destruct (number_head _ Hn) as (c & v & -> & Hc). cbn. rewrite !elem_of_cons, elem_of_nil. intros [E|[E|[E|[]]]]; by injection E as -> _.
Qed.
Lemma neat_ident t us : from root (t :: us) → kind_of_token t = TIdent → neat [t].
Proof. intros Hf Hk. apply neat_one; [by eapply harmless_ident|rewrite Hk; lit_in]. Qed.
Lemma neat_close t us : from root (t :: us) → value t = chars ")" → neat [t].
Proof.
  intros Hf Hv. apply neat_one; [eapply (harmless_lit ")" TOpRParen); [exact Hf|lit_in|done|lit_in]|].
  destruct (from_lit ")" TOpRParen _ _ Hf) as [-> _]; [lit_in|done|lit_in].
Qed.

(** ** Nodes *)
Definition neat_claim (n : nat) (k : kind) : Prop :=
  ∀ p us t rest, (size t <= n)%nat → builds p k us t → plain t → from root (us ++ rest) →
  neat us ∧ (k ≠ KExprInvocationParams → us ≠ []).
Lemma goes k p us t rest : k ∈ printable → builds p k us t → plain t → from root (us ++ rest) → from root rest.
Proof. intros Hk Hb Hp Hf. exact (s_from _ _ _ _ (claims (size t) k Hk p us t rest (le_n _) Hb Hp Hf)). Qed.

Lemma ident_neat p us t rest : builds p KIdent us t → from root (us ++ rest) → neat us ∧ us ≠ [].
Proof.
  intros Hb Hfrom. destruct (ident_builds _ _ _ Hb) as (u & ds & -> & Hu & Hds & _). split; [|done]. cbn [app] in Hfrom.
  apply (neat_app [u]); [by eapply neat_ident|]. apply from_ident in Hfrom as [Hfrom _]; [|done].
  clear Hb Hu. induction Hds as [|[d a] ds [Hd Ha] Hds IH]; [apply neat_nil|]. cbn [flat_map app fst snd] in *.
  destruct (from_lit "." TDot _ _ Hfrom) as [_ Hf1]; [lit_in|done|]. apply neat_cons; [|apply (neat_app [a])|done].
  - eapply (harmless_lit "." TDot); [exact Hfrom|lit_in|done|lit_in].
  - by eapply neat_ident.
  - apply IH. by apply from_ident in Hf1 as [Hf1 _].
Qed.
Lemma word_neat t us w : from root (t :: us) → value t = chars w → w ∈ ["null"; "true"; "false"; "input"; "output"; "const"; "val"] → neat [t].
Proof.
  intros Hf Hv Hw.
  assert (starts is_alpha (chars w) ∧ ¬ is_keyword (chars w)) as [Ha Hkw].
  { rewrite !elem_of_cons, elem_of_nil in Hw. decompose [or] Hw; subst; try done; (split; [done|by apply (bool_decide_unpack _)]). }
  destruct (chars w) as [|c v] eqn:Ew; [done|]. eapply neat_ident; [exact Hf|]. by eapply from_word.
Qed.
Lemma string_neat p us t rest : builds p KValueString us t → plain t → from root (us ++ rest) → neat us ∧ us ≠ [].
Proof.
  intros Hb Hpl Hfrom.
  assert (∀ m, Some m ∈ list_of FFragment t → kind_of m = KStringFragment → str_of FText m ≠ []) as Hm.
  { intros m Hin Hkm. apply plain_list in Hin as Hm; [|done]. apply plain_self in Hm. unfold plain_node in Hm. rewrite Hkm in Hm. apply Hm. }
  destruct (string_builds _ _ _ Hb Hm) as (o & frs & c & ms & -> & Ho & Hc & Hfk & Hl & H2). split; [|done].
  cbn [app] in Hfrom. rewrite <- (assoc_L (++)) in Hfrom. cbn [app] in Hfrom.
  destruct (from_string _ _ _ _ Hfrom Ho Hfk Hc) as (q & Hq & Hvo & _). by eapply neat_string.
Qed.
Lemma value_neat p us t rest : builds p KValue us t → plain t → from root (us ++ rest) → neat us ∧ us ≠ [].
Proof.
  intros Hb Hpl Hfrom. pose proof (builds_kind _ _ _ _ Hb) as Hk.
  assert (other_value t) as Ho.
  { pose proof (plain_self _ Hpl) as H. unfold plain_node in H. rewrite Hk in H. intros f Hf.
    rewrite !elem_of_cons, elem_of_nil in Hf. destruct H as (H1 & H2 & H3). by destruct Hf as [->|[->|[->|[]]]]. }
  destruct (value_builds _ _ _ Hb Ho) as [(u & -> & Hv & _)|[(u & b & m & -> & Hv & _)|
    [(u & src & num & m & -> & Hku & _)|(m & Hm & E1 & E2 & E3 & E4)]]].
  - split; [|done]. eapply (word_neat u _ "null" Hfrom Hv). lit_in.
  - split; [|done]. eapply (word_neat u _ (if b then "true" else "false") Hfrom Hv). destruct b; lit_in.
  - split; [|done]. apply neat_one; [by eapply harmless_number|rewrite Hku; lit_in].
  - eapply string_neat; [exact Hm|by eapply plain_ptr|exact Hfrom].
Qed.

Section step.
Context (n : nat) (IH : ∀ k, k ∈ printable → neat_claim n k).
Lemma listed_neat k us ts rest :
  k ∈ [KParameterType; KExpr] → listed k us ts → (∀ t, t ∈ ts → (size t <= n)%nat ∧ plain t) → from root (us ++ rest) →
  from root rest ∧ neat us ∧ us ≠ [].
Proof.
  intros Hk H. revert rest. assert (k ∈ printable ∧ k ≠ KExprInvocationParams) as [Hp Hi].
  { rewrite !elem_of_cons, elem_of_nil in Hk. destruct Hk as [->|[->|[]]]; (split; [is_printable|done]). }
  induction H as [p us t Hb|p us t c vs ts Hb Hc H IHl]; intros rest Ht Hfrom.
  - destruct (Ht t ltac:(by left)) as [Hn Hpl]. destruct (IH k Hp p us t rest Hn Hb Hpl Hfrom) as [H1 H2].
    split_and!; [by eapply goes|done|by apply H2].
  - destruct (Ht t ltac:(by left)) as [Hn Hpl]. rewrite <- (assoc_L (++)) in Hfrom. cbn [app] in Hfrom.
    destruct (IH k Hp p us t _ Hn Hb Hpl Hfrom) as [H1 H2]. pose proof (goes _ _ _ _ _ Hp Hb Hpl Hfrom) as Hf1.
    destruct (from_lit "," TOpComma _ _ Hf1) as [Hck Hfrom']; [lit_in|done|].
    destruct (IHl rest) as (I1 & I2 & I3); [intros; apply Ht; by right|done|].
    split_and!; [done| |by intros [_ ?]%app_eq_nil]. apply neat_app; [done|]. apply neat_cons; [|done|done].
    eapply (harmless_lit "," TOpComma); [exact Hf1|lit_in|done|lit_in].
Qed.
Lemma listed0_neat k us ts rest :
  k ∈ [KParameterType; KExpr] → listed0 k us ts → (∀ t, t ∈ ts → (size t <= n)%nat ∧ plain t) → from root (us ++ rest) →
  from root rest ∧ neat us.
Proof.
  intros Hk [[-> ->]|H] Ht Hfrom; [split; [done|apply neat_nil]|]. by destruct (listed_neat _ _ _ _ Hk H Ht Hfrom) as (H1 & H2 & _).
Qed.
Lemma params_neat p us t rest :
  (size t <= S n)%nat → builds p KExprInvocationParams us t → plain t → from root (us ++ rest) → neat us.
Proof.
  intros Hn Hb Hpl Hfrom. apply params_builds in Hb as (ts & Hts & Hl).
  destruct (listed0_neat KExpr us ts rest) as [_ H]; [lit_in|done| |done|done].
  intros c Hc. assert (Some c ∈ list_of FValues t) as Hin by (rewrite Hl; by apply elem_of_list_fmap_1).
  split; [apply size_list in Hin; lia|by eapply plain_list].
Qed.
Lemma signature_neat p us t rest :
  (size t <= S n)%nat → builds p KFuncSignature us t → plain t → from root (us ++ rest) → neat us ∧ us ≠ [].
Proof.
  intros Hn Hb Hpl Hfrom.
  apply signature_builds in Hb as (o & ups & c & a & ur & ps & q & r & -> & Ho & Hps & Hc & Ha & Hr & Hl & Hret). split; [|done].
  cbn [app] in Hfrom. rewrite <- (assoc_L (++)) in Hfrom. cbn [app] in Hfrom.
  destruct (from_lit "(" TOpLParen _ _ Hfrom) as [Hok Hfrom1]; [lit_in|done|].
  destruct (listed0_neat KParameterType ups ps (c :: a :: ur ++ rest) ltac:(lit_in) Hps) as (H1 & H2).
  { intros x Hx. assert (Some x ∈ list_of FParameters t) as Hin by (rewrite Hl; by apply elem_of_list_fmap_1).
    split; [apply size_list in Hin; lia|by eapply plain_list]. }
  { done. }
  destruct (from_lit ")" TOpRParen _ _ H1) as [Hck Hfrom2]; [lit_in|done|].
  destruct (from_op "->" TOpLambdaDef _ _ Hfrom2) as [Hav Hfrom3]; [lit_in|done|].
  destruct (IH KParameterType ltac:(is_printable) q ur r rest) as [R1 R2]; [apply size_emb in Hret; lia|done|by eapply plain_emb|done|].
  apply neat_cons; [eapply (harmless_lit "(" TOpLParen); [exact Hfrom|lit_in|done|lit_in]| |by intros [_ ?]%app_eq_nil].
  apply neat_app; [done|]. apply (neat_app [c]); [by eapply neat_close|].
  apply neat_cons; [|done|by apply R2]. eapply (harmless_op "->" TOpLambdaDef); [exact Hfrom2|lit_in|done|lit_in].
Qed.
Lemma type_neat p us t rest :
  (size t <= S n)%nat → builds p KParameterType us t → plain t → from root (us ++ rest) → neat us ∧ us ≠ [].
Proof.
  intros Hn Hb Hpl Hfrom. apply type_builds in Hb as [(q & i & Hi & E1)|(q & s & Hs & E1 & E2)]; [by eapply ident_neat|].
  destruct (IH KFuncSignature ltac:(is_printable) q us s rest) as [H1 H2]; [apply size_ptr in E2; lia|done|by eapply plain_ptr|done|].
  split; [done|by apply H2].
Qed.
Lemma called_neat us ms rest :
  called KExprInvocationParams us ms → (∀ t, t ∈ ms → (size t <= n)%nat ∧ plain t) → from root (us ++ rest) →
  from root rest ∧ neat us.
Proof.
  intros H. revert rest. induction H as [|p o us t c vs ts Ho Hb Hc H IHl]; intros rest Ht Hfrom; [split; [done|apply neat_nil]|].
  cbn [app] in Hfrom. rewrite <- (assoc_L (++)) in Hfrom. cbn [app] in Hfrom.
  destruct (from_lit "(" TOpLParen _ _ Hfrom) as [Hok Hfrom1]; [lit_in|done|].
  destruct (Ht t ltac:(by left)) as [Hn Hpl].
  destruct (IH KExprInvocationParams ltac:(is_printable) p us t _ Hn Hb Hpl Hfrom1) as [H1 _].
  pose proof (goes KExprInvocationParams _ _ _ _ ltac:(is_printable) Hb Hpl Hfrom1) as Hf2.
  destruct (from_lit ")" TOpRParen _ _ Hf2) as [Hck Hfrom2]; [lit_in|done|].
  destruct (IHl rest) as (I1 & I2); [intros; apply Ht; by right|done|]. split; [done|].
  apply neat_cons; [eapply (harmless_lit "(" TOpLParen); [exact Hfrom|lit_in|done|lit_in]| |by intros [_ ?]%app_eq_nil].
  apply neat_app; [done|]. apply (neat_app [c]); [by eapply neat_close|done].
Qed.
Lemma post_neat t up rest :
  (size t <= S n)%nat → plain t →
  ((up = [] ∧ ptr_of FPost t = None) ∨
     ∃ qp d vs e, up = d :: vs ∧ value d = chars "." ∧ builds qp KExprPostfix vs e ∧ ptr_of FPost t = Some e) →
  from root (up ++ rest) → neat up.
Proof.
  intros Hn Hpl [[-> E]|(q & d & vs & e & -> & Hd & He & E)] Hfrom; [apply neat_nil|]. cbn [app] in Hfrom.
  destruct (from_lit "." TDot _ _ Hfrom) as [Hdk Hfrom1]; [lit_in|done|].
  destruct (IH KExprPostfix ltac:(is_printable) q vs e rest) as [H1 H2]; [apply size_ptr in E; lia|done|by eapply plain_ptr|done|].
  apply neat_cons; [|done|by apply H2]. eapply (harmless_lit "." TDot); [exact Hfrom|lit_in|done|lit_in].
Qed.
Lemma primary_neat p us t rest :
  (size t <= S n)%nat → builds p KExprPrimary us t → plain t → from root (us ++ rest) → neat us ∧ us ≠ [].
Proof.
  intros Hn Hb Hpl Hfrom. pose proof (builds_kind _ _ _ _ Hb) as Hk.
  pose proof (plain_self _ Hpl) as Hp. unfold plain_node in Hp. rewrite Hk in Hp. destruct Hp as [Hsub Hpost].
  destruct (primary_builds _ _ _ Hb Hsub) as [(v & Hv & E1 & E2)|(q & ui & i & uc & ms & up & -> & Hi & E1 & E2 & Hms & Hl & Hup)].
  - eapply value_neat; [exact Hv|by eapply plain_ptr|exact Hfrom].
  - rewrite <- !(assoc_L (++)) in Hfrom. destruct (ident_neat _ _ _ _ Hi Hfrom) as [H1 H2].
    pose proof (s_from _ _ _ _ (ident_says _ _ _ _ Hi Hfrom)) as Hf1.
    destruct (called_neat uc ms (up ++ rest) Hms) as (I1 & I2).
    { intros m Hm. assert (Some m ∈ list_of FMonads t) as Hin by (rewrite Hl; by apply elem_of_list_fmap_1).
      split; [apply size_list in Hin; lia|by eapply plain_list]. }
    { done. }
    split; [|by intros [? _]%app_eq_nil]. apply neat_app; [done|]. apply neat_app; [done|]. by eapply post_neat.
Qed.
Lemma postfix_neat p us t rest :
  (size t <= S n)%nat → builds p KExprPostfix us t → plain t → from root (us ++ rest) → neat us ∧ us ≠ [].
Proof.
  intros Hn Hb Hpl Hfrom. destruct (postfix_builds _ _ _ Hb) as (q & uv & v & ui & up & -> & Ev & Hv & Hi & Hup).
  rewrite <- !(assoc_L (++)) in Hfrom. assert (plain v) as Hpv by (by eapply plain_emb).
  destruct (IH KExprPrimary ltac:(is_printable) q uv v _ ltac:(apply size_emb in Ev; lia) Hv Hpv Hfrom) as [H1 H2].
  pose proof (goes KExprPrimary _ _ _ _ ltac:(is_printable) Hv Hpv Hfrom) as Hf1.
  assert (from root (up ++ rest) ∧ neat ui) as [Hf2 Hni].
  { destruct Hi as [[-> E]|(qi & o & vs & c & i & -> & Ho & Hc & Hi & E)]; [split; [done|apply neat_nil]|].
    cbn [app] in Hf1. rewrite <- (assoc_L (++)) in Hf1. cbn [app] in Hf1.
    destruct (from_lit "[" TOpLBracket _ _ Hf1) as [Hok Hfrom1]; [lit_in|done|]. assert (plain i) as Hpi by (exact (plain_ptr t _ i Hpl E)).
    destruct (IH KExpr ltac:(is_printable) qi vs i _ ltac:(apply size_ptr in E; lia) Hi Hpi Hfrom1) as [I1 I2].
    pose proof (goes KExpr _ _ _ _ ltac:(is_printable) Hi Hpi Hfrom1) as Hf2.
    destruct (from_lit "]" TOpRBracket _ _ Hf2) as [Hck Hfrom2]; [lit_in|done|]. split; [done|].
    apply neat_index; try done. by apply I2. }
  split; [|intros [? _]%app_eq_nil; by apply H2]. apply neat_app; [done|]. apply neat_app; [done|]. by eapply post_neat.
Qed.
Lemma unary_neat p us t rest :
  (size t <= S n)%nat → builds p KExprUnary us t → plain t → from root (us ++ rest) → neat us ∧ us ≠ [].
Proof.
  intros Hn Hb Hpl Hfrom. destruct (unary_builds _ _ _ Hb) as (q & r & Er & [[Eo Hr]|(o & vs & -> & Ho & Eo & Hr)]).
  - destruct (IH KExprPostfix ltac:(is_printable) q us r rest ltac:(apply size_emb in Er; lia) Hr ltac:(by eapply plain_emb) Hfrom) as [H1 H2].
    split; [done|by apply H2].
  - assert (∃ w, (w, kind_of_token o) ∈ operators ∧ w ∉ ["["; "]"; "{"]) as (w & Hw & Hn').
    { rewrite !elem_of_cons, elem_of_nil in Ho. destruct Ho as [->|[->|[->|[->|[]]]]]; [exists "~"|exists "!"|exists "-"|exists "+"];
        (split; lit_in). }
    cbn [app] in Hfrom. destruct (from_op w _ _ _ Hfrom Hw eq_refl) as [Hv Hfrom1].
    destruct (IH KExprPostfix ltac:(is_printable) q vs r rest ltac:(apply size_emb in Er; lia) Hr ltac:(by eapply plain_emb) Hfrom1) as [H1 H2].
    split; [|done]. apply neat_cons; [by eapply harmless_op|done|by apply H2].
Qed.
Lemma level_neat k lft my p us t rest :
  level k = Some (lft, my) → (size t <= S n)%nat → builds p k us t → plain t → from root (us ++ rest) → neat us ∧ us ≠ [].
Proof.
  intros Hl Hn Hb Hpl Hfrom.
  assert (lft ∈ printable ∧ k ∈ printable ∧
    k ≠ KExprInvocationParams ∧ lft ≠ KExprInvocationParams ∧
    forallb (λ o, match text_of_op o with Some w => bool_decide (w ∉ ["["; "]"; "{"]) | None => false end) my = true)
    as (Hpl1 & Hpl2 & Hi1 & Hi2 & Hops).
  { destruct k; try done; injection Hl as <- <-; (split; [is_printable|split; [is_printable|done]]). }
  destruct (level_builds _ _ _ _ _ _ Hl Hb) as (l & G1 & [(Hbl & G2 & G3)|(lus & u & vs & m & -> & Hu & Hbl & Hbr & G2 & G3)]).
  - assert (emb_of FLeft t = Some l) as El by (unfold emb_of; by rewrite G1).
    destruct (IH lft Hpl1 p us l rest ltac:(apply size_emb in El; lia) Hbl ltac:(by eapply plain_emb) Hfrom) as [H1 H2]. split; [done|by apply H2].
  - assert (emb_of FLeft t = Some l) as El by (unfold emb_of; by rewrite G1).
    assert (ptr_of FRight t = Some m) as Er by (unfold ptr_of; by rewrite G3).
    rewrite <- (assoc_L (++)) in Hfrom. cbn [app] in Hfrom. assert (plain l) as Hll by (by eapply plain_emb).
    destruct (IH lft Hpl1 _ lus l _ ltac:(apply size_emb in El; lia) Hbl Hll Hfrom) as [H1 H2].
    pose proof (goes _ _ _ _ _ Hpl1 Hbl Hll Hfrom) as Hf1.
    assert (∃ w, (w, kind_of_token u) ∈ operators ∧ w ∉ ["["; "]"; "{"]) as [w [Hw Hnw]].
    { rewrite forallb_forall in Hops. apply elem_of_list_In in Hu. specialize (Hops _ Hu).
      destruct (text_of_op (kind_of_token u)) as [w|] eqn:E; [|done]. exists w. apply bool_decide_eq_true in Hops.
      split; [by apply text_of_op_elem|done]. }
    destruct (from_op w _ _ _ Hf1 Hw eq_refl) as [Hv Hfrom1].
    destruct (IH k Hpl2 _ vs m _ ltac:(apply size_ptr in Er; lia) Hbr ltac:(eapply plain_ptr; [exact Hpl|eassumption]) Hfrom1) as [I1 I2].
    split; [|by intros [_ ?]%app_eq_nil]. apply neat_app; [done|]. apply neat_cons; [by eapply harmless_op|done|by apply I2].
Qed.
Lemma conditional_neat p us t rest :
  (size t <= S n)%nat → builds p KExprConditional us t → plain t → from root (us ++ rest) → neat us ∧ us ≠ [].
Proof.
  intros Hn Hb Hpl Hfrom.
  destruct (conditional_builds _ _ _ Hb) as (q & uc & c & Ec & Hc & [[-> Eb]|(qa & qb & o & ua & s & ub & a & b & -> & Ho & Hs & Ha & Hbb & Eb & Ea & Ebb)]).
  - destruct (IH KExprLogicalOr ltac:(is_printable) _ uc c rest ltac:(apply size_emb in Ec; lia) Hc ltac:(by eapply plain_emb) Hfrom) as [H1 H2].
    split; [done|by apply H2].
  - rewrite <- (assoc_L (++)) in Hfrom. cbn [app] in Hfrom. rewrite <- (assoc_L (++)) in Hfrom. cbn [app] in Hfrom.
    assert (plain c) as Hpc by (by eapply plain_emb). assert (plain a) as Hpa by (eapply plain_ptr; [exact Hpl|eassumption]).
    destruct (IH KExprLogicalOr ltac:(is_printable) _ uc c _ ltac:(apply size_emb in Ec; lia) Hc Hpc Hfrom) as [H1 H2].
    pose proof (goes KExprLogicalOr _ _ _ _ ltac:(is_printable) Hc Hpc Hfrom) as Hf1.
    destruct (from_lit "?" TOpCondition _ _ Hf1) as [Hok Hfrom1]; [lit_in|done|].
    destruct (IH KExpr ltac:(is_printable) _ ua a _ ltac:(apply size_ptr in Ea; lia) Ha Hpa Hfrom1) as [I1 I2].
    pose proof (goes KExpr _ _ _ _ ltac:(is_printable) Ha Hpa Hfrom1) as Hf2.
    destruct (from_lit ":" TOpColon _ _ Hf2) as [Hsk Hfrom2]; [lit_in|done|].
    destruct (IH KExpr ltac:(is_printable) _ ub b _ ltac:(apply size_ptr in Ebb; lia) Hbb ltac:(eapply plain_ptr; [exact Hpl|eassumption]) Hfrom2) as [J1 J2].
    split; [|by intros [_ ?]%app_eq_nil]. apply neat_app; [done|].
    apply neat_cons; [eapply (harmless_lit "?" TOpCondition); [exact Hf1|lit_in|done|lit_in]| |by intros [_ ?]%app_eq_nil].
    apply neat_app; [done|]. apply neat_cons; [|done|by apply J2]. eapply (harmless_lit ":" TOpColon); [exact Hf2|lit_in|done|lit_in].
Qed.
Lemma expr_neat p us t rest :
  (size t <= S n)%nat → builds p KExpr us t → plain t → from root (us ++ rest) → neat us ∧ us ≠ [].
Proof.
  intros Hn Hb Hpl Hfrom. pose proof (builds_kind _ _ _ _ Hb) as Hk.
  pose proof (plain_self _ Hpl) as Hp. unfold plain_node in Hp. rewrite Hk in Hp. destruct Hp as [N1 N2].
  destruct (expr_left _ _ _ Hb N1 N2) as [c Ec]. pose proof (expr_builds _ _ _ _ Hb Ec) as Hc.
  destruct (IH KExprConditional ltac:(is_printable) _ us c rest ltac:(apply size_ptr in Ec; lia) Hc ltac:(eapply plain_ptr; [exact Hpl|eassumption]) Hfrom) as [H1 H2].
  split; [done|by apply H2].
Qed.
(** A declaration is its first word and something neat. *)
Lemma decl_neat_tail p us t rest :
  (size t <= S n)%nat → builds p KDecl us t → plain t → from root (us ++ rest) →
  ∃ d vs, us = d :: vs ∧ value d ∈ decl_words ∧ kind_of_token d = TIdent ∧ neat vs ∧ vs ≠ [].
Proof.
  intros Hn Hb Hpl Hfrom. destruct (decl_builds _ _ _ Hb) as (d & u & uty & uv & -> & Hd & Hu & Ed & Eu & Hty & Hval).
  exists d, (u :: uty ++ uv). split_and!; [done|done| | |done].
  - apply elem_of_list_fmap in Hd as (w & Hdw & Hw). cbn [app] in Hfrom.
    assert (starts is_alpha (chars w) ∧ ¬ is_keyword (chars w)) as [Ha Hkw].
    { rewrite !elem_of_cons, elem_of_nil in Hw. decompose [or] Hw; subst; try done; (split; [done|by apply (bool_decide_unpack _)]). }
    destruct (chars w) as [|c v] eqn:Ew; [done|]. by eapply from_word.
  - apply elem_of_list_fmap in Hd as (w & Hdw & Hw). cbn [app] in Hfrom.
    destruct (word_says d _ w Hfrom Hdw) as (D1 & _).
    { rewrite !elem_of_cons, elem_of_nil in Hw. rewrite !elem_of_cons. tauto. }
    apply (neat_app [u]); [by eapply neat_ident|]. apply from_ident in D1 as [U1 _]; [|done]. rewrite <- (assoc_L (++)) in U1.
    assert (from root (uv ++ rest) ∧ neat uty) as [U2 Hnt].
    { destruct Hty as [[-> E]|(q & c & vs & ty & -> & Hc & Hty & E)]; [split; [done|apply neat_nil]|]. cbn [app] in U1.
      destruct (from_lit ":" TOpColon _ _ U1) as [Hck U2]; [lit_in|done|]. assert (plain ty) as Hpt by (by eapply plain_ptr).
      destruct (IH KParameterType ltac:(is_printable) q vs ty _ ltac:(apply size_ptr in E; lia) Hty Hpt U2) as [H1 H2].
      split; [by eapply (goes KParameterType); [is_printable|..]|]. apply neat_cons; [|done|by apply H2].
      eapply (harmless_lit ":" TOpColon); [exact U1|lit_in|done|lit_in]. }
    apply neat_app; [done|]. destruct Hval as [[-> E]|(q & c & vs & e & -> & Hc & He & E)]; [apply neat_nil|]. cbn [app] in U2.
    destruct (from_lit "=" TOpAssign _ _ U2) as [Hck U3]; [lit_in|done|].
    destruct (IH KExpr ltac:(is_printable) q vs e _ ltac:(apply size_ptr in E; lia) He ltac:(by eapply plain_ptr) U3) as [H1 H2].
    apply neat_cons; [|done|by apply H2]. eapply (harmless_lit "=" TOpAssign); [exact U2|lit_in|done|lit_in].
Qed.
Lemma decl_neat p us t rest :
  (size t <= S n)%nat → builds p KDecl us t → plain t → from root (us ++ rest) → neat us ∧ us ≠ [].
Proof.
  intros Hn Hb Hpl Hfrom. destruct (decl_neat_tail _ _ _ _ Hn Hb Hpl Hfrom) as (d & vs & -> & Hd & Hk & Hv & Hne).
  split; [|done]. apply (neat_app [d]); [by eapply neat_ident|done].
Qed.
End step.
Lemma neat_claims n k : k ∈ printable → neat_claim n k.
Proof.
  revert k. induction n as [|n IH]; intros k Hk p us t rest Hn Hb Hpl Hfrom.
  { exfalso. pose proof (size_pos t). lia. }
  assert (k = KExprInvocationParams ∨ neat us ∧ us ≠ []) as [->|[H1 H2]].
  { destruct (level k) as [[lft my]|] eqn:El; [right; by eapply level_neat|].
    unfold printable in Hk. rewrite !elem_of_cons, elem_of_nil in Hk. decompose [or] Hk; subst; try done; try (by left); right.
    - by eapply (decl_neat n IH p).
    - by eapply (type_neat n IH p).
    - by eapply (signature_neat n IH p).
    - by eapply (ident_neat p).
    - by eapply (expr_neat n IH p).
    - by eapply (conditional_neat n IH p).
    - by eapply (unary_neat n IH p).
    - by eapply (postfix_neat n IH p).
    - by eapply (primary_neat n IH p).
    - by eapply (value_neat p).
    - by eapply (string_neat p). }
  - split; [|done]. by eapply (params_neat n IH p).
  - done.
Qed.
Lemma decl_is_neat p us t rest :
  builds p KDecl us t → plain t → from root (us ++ rest) →
  ∃ d vs, us = d :: vs ∧ value d ∈ decl_words ∧ kind_of_token d = TIdent ∧ neat vs ∧ vs ≠ [].
Proof. apply (decl_neat_tail (size t)); [apply neat_claims|lia]. Qed.
