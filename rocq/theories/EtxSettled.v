(** * What one token of lookahead settles is found: proofs *)
From stdpp Require Import base list option strings.
From Coq Require Import Ascii Lia.
From Verif Require Import GoBase EtxAst EtxHeap EtxHeapSpec EtxText EtxLex EtxUtil EtxGram EtxParse EtxParseBase
  EtxParseSpec EtxParseStore EtxParseTyped EtxParseFirst EtxParseClean EtxFind EtxRefuse EtxSettledSpec.

Notation tbl := (first_of none_dead).
(** ** The first tokens *)
Lemma kind_erasable k : empty_struct k = true → erasable (grammar k).
Proof. destruct k; try done; intros _; constructor. Qed.
Lemma nullable_erasable g : nullable g = true → erasable g.
Proof.
  induction g as [s|t|f k|f g IH|gs IH|gs IH|g IH|g IH|g IH] using gexp_ind2; cbn [nullable]; intros H; try done.
  - constructor. by apply kind_erasable.
  - constructor. by apply IH.
  - induction IH as [|g gs Hg _ IHs]; [constructor|]. cbn in H. apply andb_true_iff in H as [H1 H2]. constructor; auto.
  - apply existsb_exists in H as (g & Hg & H). rewrite Forall_forall in IH. apply elem_of_list_In in Hg. eapply e_alt; eauto.
  - constructor.
  - constructor.
  - constructor. by apply IH.
Qed.
Lemma firsts_open T u :
  (∀ k a, a ∈ T k → atom_is u a = true → opens (grammar k) u) →
  ∀ g a, a ∈ firsts T g → atom_is u a = true → opens g u.
Proof.
  intros HT g. induction g as [s|t|f k|f g IH|gs IH|gs IH|g IH|g IH|g IH] using gexp_ind2; intros a Ha Hu.
  - apply elem_of_list_singleton in Ha as ->. constructor. by apply bool_decide_eq_true in Hu.
  - apply elem_of_list_singleton in Ha as ->. constructor. by apply bool_decide_eq_true in Hu.
  - constructor. by eapply HT.
  - constructor. by eapply IH.
  - induction IH as [|g gs Hg _ IHs]; [by apply elem_of_nil in Ha|].
    change (a ∈ firsts T g ++ (if nullable g then firsts T (GSeq gs) else [])) in Ha. apply elem_of_app in Ha as [Ha|Ha].
    + apply o_head. by eapply Hg.
    + destruct (nullable g) eqn:E; [|by apply elem_of_nil in Ha]. apply o_tail; [by apply nullable_erasable|by apply IHs].
  - cbn in Ha. apply elem_of_list_In, in_flat_map in Ha as (g & Hg & Ha). apply elem_of_list_In in Hg, Ha.
    rewrite Forall_forall in IH. eapply o_alt; [done|by eapply IH].
  - constructor. by eapply IH.
  - constructor. by eapply IH.
  - constructor. by eapply IH.
Qed.
Lemma first_n_open n u : ∀ k a, a ∈ first_n none_dead n k → atom_is u a = true → opens (grammar k) u.
Proof.
  induction n as [|n IH]; intros k a Ha; [by apply elem_of_nil in Ha|]. cbn in Ha. intros Hu. by eapply firsts_open.
Qed.
Lemma closed_refused g ts : closed_at g ts → ¬ starts (firsts tbl g) ts.
Proof.
  intros H (u & us & -> & Hu). apply existsb_exists in Hu as (a & Ha & Hu). apply H. apply elem_of_list_In in Ha.
  eapply firsts_open; [|done|done]. apply first_n_open.
Qed.
(** ... and nothing else is a first token, so that being closed can be computed. *)
Lemma kind_nullable k : nullable (grammar k) = true → empty_struct k = true.
Proof. destruct k; vm_compute; done. Qed.
Lemma erasable_nullable g : erasable g → nullable g = true.
Proof.
  induction 1 as [f k _ IH|f g _ IH| |g gs _ IH1 _ IH2|g gs Hg _ IH|g|g|g _ IH]; cbn [nullable]; try done.
  - by apply kind_nullable.
  - cbn. by rewrite IH1.
  - apply existsb_exists. exists g. split; [by apply elem_of_list_In|done].
Qed.
Lemma opens_first g u : opens g u → existsb (atom_is u) (firsts tbl g) = true.
Proof.
  induction 1 as [s u H|k u H|f k u _ IH|f g u _ IH|g gs u _ IH|g gs u He _ IH|g gs u Hg _ IH|g u _ IH|g u _ IH|g u _ IH].
  - cbn. by rewrite bool_decide_true.
  - cbn. by rewrite bool_decide_true.
  - apply existsb_exists in IH as (a & Ha & IH). apply existsb_exists. exists a. split; [|done].
    pose proof first_closed_all as Hc. unfold first_closed in Hc.
    rewrite forallb_forall in Hc. specialize (Hc k ltac:(apply elem_of_list_In, all_kinds_complete)). cbn [orb none_dead] in Hc.
    rewrite forallb_forall in Hc. apply Hc in Ha. apply bool_decide_eq_true in Ha. by apply elem_of_list_In.
  - done.
  - change (existsb (atom_is u) (firsts tbl g ++ (if nullable g then firsts tbl (GSeq gs) else [])) = true).
    rewrite existsb_app, IH. done.
  - change (existsb (atom_is u) (firsts tbl g ++ (if nullable g then firsts tbl (GSeq gs) else [])) = true).
    by rewrite existsb_app, (erasable_nullable _ He), IH, orb_true_r.
  - apply existsb_exists in IH as (a & Ha & IH). apply existsb_exists. exists a. split; [|done]. cbn.
    apply in_flat_map. exists g. split; [by apply elem_of_list_In|done].
  - done.
  - done.
  - done.
Qed.
Lemma closed_token g u ts : existsb (atom_is u) (firsts tbl g) = false → closed_at g (u :: ts).
Proof. intros H Ho. by rewrite (opens_first g u Ho) in H. Qed.

(** ** The grammar has no empty alternatives *)
Definition solid (g : gexp) : bool := negb (nullable g) && silent g && loops_ok g.
Fixpoint firm (g : gexp) : bool :=
  match g with
  | GLit _ | GTok _ | GSub _ _ => true
  | GCap _ g => firm g
  | GSeq gs => forallb firm gs
  | GAlt gs => forallb (λ g, solid g && firm g) gs
  | GOpt g => (solid g || match g with GMany g => solid g | _ => false end) && firm g
  | GMany g | GSome g => solid g && firm g
  end.
Lemma kinds_firm k : firm (grammar k) = true.
Proof. revert k. apply for_all_kinds. vm_compute. reflexivity. Qed.
Lemma solid_refused e g ts : solid g = true → closed_at g ts → refused e g ts.
Proof.
  intros [[Hn%negb_true_iff Hs]%andb_true_iff Hl]%andb_true_iff Hc. apply refused_first; [done..|]. by apply closed_refused.
Qed.

(** ** Settled descriptions are found *)
Lemma finds_texts e :
  (∀ g us rest cs l, finds e g us rest cs l → us ≠ [] → l ≠ []) ∧
  (∀ gs us rest cs l, finds_all e gs us rest cs l → us ≠ [] → l ≠ []) ∧
  (∀ g us rest cs l, finds_many e g us rest cs l → us ≠ [] → l ≠ []) ∧
  (∀ k us rest t, locates e k us rest t → True).
Proof.
  apply finding_ind; try done.
  - intros g us vs rest cs ds l m _ H Hu _ _ _ [E _]%app_eq_nil. by apply H.
  - intros g gs us vs rest cs ds l m _ H1 _ H2 Hn [E1 E2]%app_eq_nil. destruct us; [by apply H2|by apply H1].
  - intros g us vs rest cs ds l m _ H Hu _ _ _ [E _]%app_eq_nil. by apply H.
Qed.
Lemma settling e :
  (∀ g us rest cs l, settles e g us rest cs l → firm g = true → finds e g us rest cs l) ∧
  (∀ gs us rest cs l, settles_all e gs us rest cs l → forallb firm gs = true → finds_all e gs us rest cs l) ∧
  (∀ g us rest cs l, settles_many e g us rest cs l → solid g && firm g = true → finds_many e g us rest cs l) ∧
  (∀ k us rest t, settled e k us rest t → locates e k us rest t).
Proof.
  apply settling_ind; try (by intros; constructor; auto).
  - intros gs us rest cs l _ H Hn Hf. specialize (H Hf). constructor; [done|].
    by apply (proj1 (proj2 (finds_texts e)) _ _ _ _ _ H).
  - intros gs1 g gs2 us rest cs l Hc _ H Hf. cbn [firm] in Hf. rewrite forallb_app in Hf. apply andb_true_iff in Hf as [Hf1 Hf2].
    cbn [forallb] in Hf2. apply andb_true_iff in Hf2 as [[_ Hf2]%andb_true_iff _]. constructor; [|by apply H].
    apply Forall_forall. intros g' Hg'. rewrite forallb_forall in Hf1. pose proof (Hf1 g' (proj1 (elem_of_list_In _ _) Hg')) as Hg.
    apply andb_true_iff in Hg as [Hg _]. apply solid_refused; auto.
  - intros g rest Hc Hf. cbn [firm] in Hf. apply andb_true_iff in Hf as [[Hf|Hf]%orb_true_iff _]; [constructor; by apply solid_refused|].
    destruct g as [| | | | | | |g|]; try done. apply f_opt, f_many, fm_nil, solid_refused; [done|].
    destruct rest as [|u rest]; [done|]. intros Ho. apply Hc. by constructor.
  - intros g us rest cs l _ H Hf. cbn [firm] in Hf. apply andb_true_iff in Hf as [_ Hf]. by constructor; auto.
  - intros g us vs rest cs ds l m _ H1 Hn _ H2 Hf. cbn [firm] in Hf. apply andb_true_iff in Hf as [Hf1 Hf2]. constructor; [by apply H1|done|].
    apply H2. by rewrite Hf1.
  - intros g gs us vs rest cs ds l m _ H1 _ H2 Hf. cbn in Hf. apply andb_true_iff in Hf as [Hf1 Hf2]. constructor; auto.
  - intros g rest Hc Hf. apply andb_true_iff in Hf as [Hf _]. constructor. by apply solid_refused.
  - intros g us vs rest cs ds l m _ H1 Hn _ H2 Hf. pose proof Hf as Hf'. apply andb_true_iff in Hf' as [_ Hf']. constructor; auto.
  - intros k us rest cs l fs _ H Hfs. specialize (H (kinds_firm k)).
    replace (match k with KAST => no_pos | _ => first_pos e (us ++ rest) end) with (position e k (us ++ rest)); [by econstructor|].
    destruct k; try done; by destruct (us ++ rest).
Qed.

(** If at every step of a description of a struct no other way of going on can start with
    the next token, the parser finds that description, and leaves the rest of the tokens. *)
Lemma settled_struct_found e k us rest t :
  settled e k us rest t → parser e k (us ++ rest) = PNode t rest.
Proof. intros H. by apply (finding e), settling. Qed.
(** ... so a file with such a description is accepted, and its tree is the one described. *)
(*P C69_settled_file_parsed *)
Lemma settled_file_parsed s ts sp r :
  lex "" s = Ok (Lexed ts sp) →
  settled (advance (start_pos "") s) KAST (elide ts) [] r →
  parse s = Ok (Some r).
Proof.
  intros Hl H. unfold parse. rewrite Hl, parse_tokens_parser.
  pose proof (settled_struct_found _ _ _ _ _ H) as E. rewrite app_nil_r in E. by rewrite E.
Qed.
(** Settled descriptions are descriptions: the tree is one that the grammar allows. *)
(*P C69_settled_is_described *)
Lemma settled_is_described e k us rest t :
  settled e k us rest t → builds (first_pos e rest) k us t.
Proof. intros H. by apply (finds_derives e), settling. Qed.
(** ... and the only settled one, with the only place to stop. *)
(*P C69_settled_unique *)
Lemma settled_unique e k us rest t us' rest' t' :
  settled e k us rest t → settled e k us' rest' t' → us ++ rest = us' ++ rest' →
  t = t' ∧ us = us' ∧ rest = rest'.
Proof.
  intros H1%settled_struct_found H2%settled_struct_found E. rewrite E, H2 in H1. injection H1 as -> ->.
  split_and!; try done. by apply app_inv_tail in E.
Qed.
