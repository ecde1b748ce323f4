(** * A file that can be parsed leaves no string, heredoc or interpolation open *)
From stdpp Require Import base list option strings.
From Coq Require Import Ascii Lia ZArith.
From Verif Require Import GoBase EtxAst EtxHeap EtxHeapSpec EtxText EtxLex EtxLexSpec EtxLexFacts EtxLexNest EtxLexOps
  EtxLexIdent EtxLexString EtxUtil EtxUtilProofs EtxGram EtxParse EtxParseBase EtxParseSpec EtxParseStore EtxParseLexed.

Local Open Scope Z_scope.
(** What a token does to the depth of the modes of the lexer. *)
Definition weight (k : tname) : Z :=
  match k with
  | TString | TUnicode | TExpr | TDirective | THeredoc => 1
  | TStringEnd | TUnicodeLong | TUnicodeShort | TExprEnd | THeredocEnd => -1
  | _ => 0
  end.
Fixpoint net (us : list token) : Z := match us with [] => 0 | u :: us => weight (kind_of_token u) + net us end.
Lemma net_app us vs : net (us ++ vs) = net us + net vs.
Proof. induction us as [|u us IH]; [done|]. cbn [app net]. rewrite IH. lia. Qed.

(** ** The lexer *)
Definition action_weight (a : action) : Z := match a with Stay => 0 | Push _ => 1 | Pop => -1 end.
Lemma rule_weight m g r :
  r ∈ rules (m, g) → weight (rname r) = action_weight (act r) ∧ (m = SRoot → act r ≠ Pop) ∧ act r ≠ Push SRoot.
Proof.
  set (ok := λ r, weight (rname r) = action_weight (act r) ∧ act r ≠ Pop ∧ act r ≠ Push SRoot).
  assert (Hc : Forall ok core).
  { unfold core. repeat (apply Forall_cons; split; [by split_and!|]). constructor. }
  intros Hr. destruct m.
  - rewrite Forall_forall in Hc. apply Hc in Hr as (H1 & H2 & H3). done.
  - simpl in Hr. repeat (apply elem_of_cons in Hr as [->|Hr]; [by split_and!|]). by apply elem_of_nil in Hr.
  - simpl in Hr. apply elem_of_cons in Hr as [->|Hr]; [by split_and!|]. rewrite Forall_forall in Hc.
    apply Hc in Hr as (H1 & H2 & H3). done.
  - simpl in Hr. repeat (apply elem_of_cons in Hr as [->|Hr]; [by split_and!|]). by apply elem_of_nil in Hr.
  - simpl in Hr. repeat (apply elem_of_cons in Hr as [->|Hr]; [by split_and!|]). by apply elem_of_nil in Hr.
Qed.
(** The root mode is at the bottom and only there. *)
Fixpoint rooted (st : list frame) : Prop :=
  match st with
  | [] => False
  | [(m, g)] => m = SRoot ∧ g = []
  | (m, _) :: st => m ≠ SRoot ∧ rooted st
  end.
Lemma step_rooted st p s t s' st' :
  rooted st → lex_step st p s = Some (t, s', st') →
  rooted st' ∧ Z.of_nat (length st') = Z.of_nat (length st) + weight (kind_of_token t).
Proof.
  intros Hst H. apply lex_step_first in H as ([m g] & st0 & r & y & -> & Hf & _ & _ & _ & Hr & ->).
  pose proof (first_match_elem _ _ _ _ Hf) as [Hin _]. destruct (rule_weight _ _ _ Hin) as (Hw & Hp & Hroot). rewrite Hr, Hw.
  destruct (act r) as [|m'|]; cbn [apply_action action_weight].
  - split; [done|lia].
  - split; [|cbn [length]; lia]. cbn. split; [congruence|done].
  - destruct st0 as [|[m0 g0] st0]; [destruct Hst; by destruct Hp|]. destruct Hst as [_ Hst].
    split; [done|]. cbn [tail length]. lia.
Qed.
Lemma lex_fuel_net n st p s ts st' :
  rooted st → lex_fuel n st p s = Ok (Lexed ts st') →
  rooted st' ∧ Z.of_nat (length st') = Z.of_nat (length st) + net ts.
Proof.
  revert st p s ts. induction n as [|n IH]; intros st p s ts Hst H.
  - destruct s; [|done]. injection H as <- <-. cbn. split; [done|lia].
  - destruct s as [|c s]; [injection H as <- <-; cbn; split; [done|lia]|]. cbn [lex_fuel] in H.
    destruct (lex_step st p (c :: s)) as [[[t' s'] st1]|] eqn:E; [|done].
    destruct (lex_fuel n st1 (advance p (value t')) s') as [[ts1 st2|]| |] eqn:E'; [|done..]. injection H as <- <-.
    destruct (step_rooted _ _ _ _ _ _ Hst E) as [H1 H2]. destruct (IH _ _ _ _ H1 E') as [H3 H4].
    split; [done|]. cbn [net]. lia.
Qed.
Lemma elide_net ts : net (elide ts) = net ts.
Proof.
  unfold elide. induction ts as [|t ts IH]; [done|]. rewrite filter_cons. destruct (decide _) as [H|H]; cbn [net]; [lia|].
  destruct (kind_of_token t); try (destruct H; done). cbn. lia.
Qed.

(** ** The grammar *)
Fixpoint literals (g : gexp) : list string :=
  match g with
  | GLit s => [s]
  | GTok _ | GSub _ _ => []
  | GCap _ g | GOpt g | GMany g | GSome g => literals g
  | GSeq gs | GAlt gs => flat_map literals gs
  end.
Definition all_literals : list string := flat_map (literals ∘ grammar) all_kinds.
(** A token that opens something reads like no literal. *)
Definition no_pun (u : token) : Prop := ∀ s, s ∈ all_literals → value u = chars s → weight (kind_of_token u) <= 0.
(** None: no bound. *)
Fixpoint bound (g : gexp) : option Z :=
  match g with
  | GLit _ | GSub _ _ => Some 0
  | GTok k => Some (weight k)
  | GCap _ g => bound g
  | GSeq gs =>
      (fix go gs := match gs with
         | [] => Some 0
         | g :: gs => match bound g, go gs with Some a, Some b => Some (a + b) | _, _ => None end
         end) gs
  | GAlt gs =>
      (fix go gs := match gs with
         | [] => Some (-1)
         | g :: gs => match bound g, go gs with Some a, Some b => Some (Z.max a b) | _, _ => None end
         end) gs
  | GOpt g => match bound g with Some a => Some (Z.max a 0) | None => None end
  | GMany g | GSome g => match bound g with Some a => if a <=? 0 then Some 0 else None | None => None end
  end.
Lemma grammar_bound k : ∃ b, bound (grammar k) = Some b ∧ b <= 0.
Proof.
  assert (forallb (λ k, match bound (grammar k) with Some b => b <=? 0 | None => false end) all_kinds = true) as H
    by (vm_compute; reflexivity).
  pose proof (for_all_kinds _ H k) as Hk. cbv beta in Hk. destruct (bound (grammar k)) as [b|]; [|done].
  exists b. split; [done|]. by apply Z.leb_le.
Qed.
Lemma literals_in k s : s ∈ literals (grammar k) → s ∈ all_literals.
Proof.
  intros H. apply elem_of_list_In, in_flat_map. exists k. split; [apply elem_of_list_In, all_kinds_complete|].
  by apply elem_of_list_In.
Qed.
Lemma derives_net :
  (∀ p g us cs l, derives p g us cs l → (∀ s, s ∈ literals g → s ∈ all_literals) → Forall no_pun us →
     ∀ b, bound g = Some b → net us <= b) ∧
  (∀ p k us t, builds p k us t → Forall no_pun us → net us <= 0).
Proof.
  apply (derivation_ind (λ p g us cs l, (∀ s, s ∈ literals g → s ∈ all_literals) → Forall no_pun us →
     ∀ b, bound g = Some b → net us <= b) (λ p k us t, Forall no_pun us → net us <= 0)).
  - intros p s t Ht Hl [Hu _]%Forall_cons b [= <-]. cbn [net]. unfold no_pun in Hu.
    assert (weight (kind_of_token t) <= 0) by (eapply Hu; [apply Hl; by left|done]). lia.
  - intros p k t Ht Hl Hu b [= <-]. cbn [net]. rewrite Ht. lia.
  - intros p f k us t _ IH Hl Hu b [= <-]. by apply IH.
  - intros p f g us cs l _ IH Hl Hu b Hb. by apply IH.
  - intros p Hl Hu b [= <-]. done.
  - intros p g gs us vs cs ds l m _ IH1 _ IH2 Hl [Hu1 Hu2]%Forall_app b Hb.
    change (match bound g, bound (GSeq gs) with Some a, Some b => Some (a + b) | _, _ => None end = Some b) in Hb.
    destruct (bound g) as [b1|]; [|done]. destruct (bound (GSeq gs)) as [b2|]; [|done]. injection Hb as <-.
    rewrite net_app. specialize (IH1 ltac:(intros s Hs; apply Hl; cbn; apply elem_of_app; by left) Hu1 b1 eq_refl).
    specialize (IH2 ltac:(intros s Hs; apply Hl; cbn; apply elem_of_app; by right) Hu2 b2 eq_refl). lia.
  - intros p g gs us cs l Hg _ IH Hl Hu b Hb.
    assert (∃ a, bound g = Some a ∧ a <= b) as (a & Ha & Hab).
    { clear IH Hl. revert b Hb. induction gs as [|g' gs IH]; intros b Hb; [by apply elem_of_nil in Hg|].
      change (match bound g', bound (GAlt gs) with Some a, Some b => Some (Z.max a b) | _, _ => None end = Some b) in Hb.
      destruct (bound g') as [b1|] eqn:E1; [|done]. destruct (bound (GAlt gs)) as [b2|] eqn:E2; [|done]. injection Hb as <-.
      apply elem_of_cons in Hg as [->|Hg]; [exists b1; split; [done|lia]|].
      destruct (IH Hg b2 eq_refl) as (a & Ha & Hab). exists a. split; [done|]. lia. }
    assert (net us <= a); [|lia]. apply IH; [|done|done]. intros s Hs. apply Hl. cbn.
    apply elem_of_list_In, in_flat_map. exists g. split; by apply elem_of_list_In.
  - intros p g Hl Hu b Hb. cbn in *. destruct (bound g); [|done]. injection Hb as <-. lia.
  - intros p g us cs l _ IH Hl Hu b Hb. cbn in Hb. destruct (bound g) as [a|]; [|done]. injection Hb as <-.
    specialize (IH Hl Hu a eq_refl). lia.
  - intros p g Hl Hu b Hb. cbn in *. destruct (bound g); [|done]. destruct (_ <=? _); [|done]. injection Hb as <-. lia.
  - intros p g us vs cs ds l m _ IH1 _ IH2 Hl [Hu1 Hu2]%Forall_app b Hb. specialize (IH2 Hl Hu2 b Hb).
    cbn in Hb. destruct (bound g) as [a|]; [|done]. destruct (a <=? 0) eqn:Ha; [|done]. injection Hb as <-.
    apply Z.leb_le in Ha. specialize (IH1 Hl Hu1 a eq_refl). rewrite net_app. lia.
  - intros p g us vs cs ds l m _ IH1 _ IH2 Hl [Hu1 Hu2]%Forall_app b Hb. specialize (IH2 Hl Hu2 b Hb).
    cbn in Hb. destruct (bound g) as [a|]; [|done]. destruct (a <=? 0) eqn:Ha; [|done]. injection Hb as <-.
    apply Z.leb_le in Ha. specialize (IH1 Hl Hu1 a eq_refl). rewrite net_app. lia.
  - intros p k us cs l fs _ IH _ Hu. destruct (grammar_bound k) as (b & Hb & ?).
    assert (net us <= b); [|lia]. by apply IH; [apply literals_in|done|].
Qed.

(** ** Tokens *)
Definition openers_differ (r : rule) : Prop :=
  weight (rname r) <= 0 ∨ ∀ s, s ∈ all_literals → ∀ c v, chars s = c :: v → may_start (pattern r) c = false.
Lemma literal_starts :
  forallb (λ s, match chars s with
    | c :: v => negb (may_start (RLit "\u") c) && negb (may_start (RLit "${") c) && negb (may_start (RLit "%{") c) &&
                negb (may_start re_heredoc c) && negb (may_start (RGroup (RSet is_quote)) c)
    | [] => false
    end) all_literals = true.
Proof. vm_compute. reflexivity. Qed.
Lemma rules_openers m g r : r ∈ rules (m, g) → openers_differ r.
Proof.
  assert (Hl : ∀ s, s ∈ all_literals → ∀ c v, chars s = c :: v →
    may_start (RLit "\u") c = false ∧ may_start (RLit "${") c = false ∧ may_start (RLit "%{") c = false ∧
    may_start re_heredoc c = false ∧ may_start (RGroup (RSet is_quote)) c = false).
  { intros s Hs c v E. pose proof literal_starts as H. rewrite forallb_forall in H. apply elem_of_list_In, H in Hs.
    rewrite E in Hs. apply andb_true_iff in Hs as [Hs H5%negb_true_iff]. apply andb_true_iff in Hs as [Hs H4%negb_true_iff].
    apply andb_true_iff in Hs as [Hs H3%negb_true_iff]. apply andb_true_iff in Hs as [H1%negb_true_iff H2%negb_true_iff]. done. }
  assert (Hc : Forall openers_differ core).
  { unfold core. repeat (apply Forall_cons; split; [first [left; vm_compute; discriminate|
      right; intros s Hs c v E; by destruct (Hl s Hs c v E) as (? & ? & ? & ? & ?)]|]). constructor. }
  intros Hr. destruct m.
  - rewrite Forall_forall in Hc. by apply Hc.
  - simpl in Hr. repeat (apply elem_of_cons in Hr as [->|Hr]; [first [left; vm_compute; discriminate|
      right; intros s Hs c v E; by destruct (Hl s Hs c v E) as (? & ? & ? & ? & ?)]|]). by apply elem_of_nil in Hr.
  - simpl in Hr. apply elem_of_cons in Hr as [->|Hr]; [by left|]. rewrite Forall_forall in Hc. by apply Hc.
  - simpl in Hr. repeat (apply elem_of_cons in Hr as [->|Hr]; [by left|]). by apply elem_of_nil in Hr.
  - simpl in Hr. repeat (apply elem_of_cons in Hr as [->|Hr]; [first [left; vm_compute; discriminate|
      right; intros s Hs c v E; by destruct (Hl s Hs c v E) as (? & ? & ? & ? & ?)]|]). by apply elem_of_nil in Hr.
Qed.
Lemma lexed_no_pun file s l : lex file s = Ok l → Forall no_pun (tokens_of l).
Proof.
  intros H. apply Forall_forall. intros t Ht w Hw Hv.
  destruct (token_step _ _ _ _ _ _ H Ht) as (st1 & p1 & s1 & s2 & st2 & Hs).
  apply lex_step_first in Hs as ([m g] & st0 & r & y & -> & Hf & Hv' & Hne & Hp & Hr & ->).
  pose proof (first_match_elem _ _ _ _ Hf) as [Hin Hy]. apply find_elem in Hy. apply matches_lang in Hy as (v & E & Hl).
  cbn in E. assert (v = value t) as -> by (rewrite Hv' in E; by apply app_inv_tail in E).
  rewrite Hr. destruct (rules_openers _ _ _ Hin) as [?|Ho]; [done|]. rewrite Hv in Hl, Hne.
  destruct (chars w) as [|c v] eqn:Ew; [done|]. apply lang_start in Hl. rewrite (Ho w Hw c v Ew) in Hl. done.
Qed.

Lemma elide_Forall (P : token → Prop) ts : Forall P ts → Forall P (elide ts).
Proof. rewrite !Forall_forall. intros H x Hx. apply H. by apply elem_of_list_filter in Hx as [_ Hx]. Qed.
Lemma built_closed file s ts st p k t :
  lex file s = Ok (Lexed ts st) → builds p k (elide ts) t → st = [(SRoot, [])].
Proof.
  intros H Hb. pose proof (lexed_no_pun _ _ _ H) as Hn. cbn [tokens_of] in Hn. apply elide_Forall in Hn.
  apply derives_net in Hb; [|done]. rewrite elide_net in Hb.
  unfold lex in H. apply lex_fuel_net in H; [|done]. destruct H as [Hr Hl]. cbn [length] in Hl.
  destruct st as [|[m g] [|[m' g'] st]]; [done|by destruct Hr as [-> ->]|]. cbn [length] in Hl. lia.
Qed.
