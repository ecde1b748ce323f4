(** * The numbers of a file that is accepted can be read *)
From stdpp Require Import base list option strings sets.
From Coq Require Import Ascii Lia.
From Verif Require Import GoBase EtxAst EtxHeap EtxHeapSpec EtxText EtxLex EtxUtil EtxGram EtxParse EtxParseBase EtxParseSpec EtxParseStore
  EtxParseTotal EtxParsePropProofs EtxNumProofs EtxRelex EtxSays EtxFinal.

Fixpoint counted (k : kind) (g : gexp) : bool :=
  match g with
  | GLit s => negb (starts_with number_start s) || bool_decide (s = ".")
  | GTok t => bool_decide (t ≠ TNumber)
  | GSub _ _ => true
  | GCap f g => bool_decide (k = KValue ∧ f = FNumber) && is_tok TNumber g || counted k g
  | GSeq gs | GAlt gs => forallb (counted k) gs
  | GOpt g | GMany g | GSome g => counted k g
  end.
Lemma grammar_counted k : counted k (grammar k) = true.
Proof. revert k. apply for_all_kinds. vm_compute. reflexivity. Qed.
Definition numbers (us : list token) (cs : list capture) : Prop :=
  ∀ t, t ∈ us → kind_of_token t = TNumber → number_text (value t) → is_Some (capture_number (value t)) ∨ (FNumber, Texts [value t]) ∈ cs.
Lemma numbers_app us vs cs ds : numbers us cs → numbers vs ds → numbers (us ++ vs) (cs ++ ds).
Proof.
  intros H1 H2 t [Ht|Ht]%elem_of_app Hk Hn; [destruct (H1 t Ht Hk Hn)|destruct (H2 t Ht Hk Hn)]; [by left| |by left|]; right; apply elem_of_app; tauto.
Qed.
Lemma numbers_read :
  (∀ p g us cs l, derives p g us cs l → ∀ k, counted k g = true → numbers us cs ∧ (k ≠ KValue → numbers us [])) ∧
  (∀ p k us t, builds p k us t → numbers us []).
Proof.
  apply (derivation_ind
    (λ p g us cs l, ∀ k, counted k g = true → numbers us cs ∧ (k ≠ KValue → numbers us []))
    (λ p k us t, numbers us [])).
  - intros p s t Hs k Hc. enough (numbers [t] []) by done. intros u ->%elem_of_list_singleton Hk Hn. exfalso.
    rewrite Hs in Hn. cbn in Hc. apply orb_true_iff in Hc as [Hc%negb_true_iff|Hc%bool_decide_eq_true].
    + apply number_starts in Hn. unfold starts_with in Hc. destruct (chars s) as [|c v]; [done|]. cbn in Hn. by rewrite Hn in Hc.
    + subst s. by apply no_number_dot in Hn.
  - intros p k' t Hk k Hc. enough (numbers [t] []) by done. cbn in Hc. apply bool_decide_eq_true in Hc. intros u ->%elem_of_list_singleton Hk' _. congruence.
  - intros p f k' us t _ IH k _. split; [|done]. intros u Hu Hk Hn. destruct (IH u Hu Hk Hn) as [?|H]; [by left|]. by apply elem_of_nil in H.
  - intros p f g us cs l Hd IH k Hc. cbn in Hc. apply orb_true_iff in Hc as [[Hc Hg]%andb_true_iff|Hc].
    + apply bool_decide_eq_true in Hc as [-> ->]. split; [|done]. destruct g; try done. cbn in Hg. apply bool_decide_eq_true in Hg as ->.
      inversion Hd; subst. intros u ->%elem_of_list_singleton Hk Hn. right. apply elem_of_app. right. by left.
    + destruct (IH k Hc) as [H1 H2]. split; [|done]. intros u Hu Hk Hn. destruct (H1 u Hu Hk Hn); [by left|]. right. apply elem_of_app. by left.
  - intros p k _. split; [|intros _]; intros u Hu; by apply elem_of_nil in Hu.
  - intros p g gs us vs cs ds l m _ IH1 _ IH2 k Hc. cbn in Hc. apply andb_true_iff in Hc as [Hc1 Hc2].
    destruct (IH1 k Hc1) as [H1 H1'], (IH2 k Hc2) as [H2 H2']. split; [by apply numbers_app|]. intros Hk. apply (numbers_app us vs [] []); auto.
  - intros p g gs us cs l Hg _ IH k Hc. apply IH. cbn in Hc. rewrite forallb_forall in Hc. by apply Hc, elem_of_list_In.
  - intros p g k _. split; [|intros _]; intros u Hu; by apply elem_of_nil in Hu.
  - intros p g us cs l _ IH k Hc. by apply IH.
  - intros p g k _. split; [|intros _]; intros u Hu; by apply elem_of_nil in Hu.
  - intros p g us vs cs ds l m _ IH1 _ IH2 k Hc.
    destruct (IH1 k Hc) as [H1 H1'], (IH2 k Hc) as [H2 H2']. split; [by apply numbers_app|]. intros Hk. apply (numbers_app us vs [] []); auto.
  - intros p g us vs cs ds l m _ IH1 _ IH2 k Hc.
    destruct (IH1 k Hc) as [H1 H1'], (IH2 k Hc) as [H2 H2']. split; [by apply numbers_app|]. intros Hk. apply (numbers_app us vs [] []); auto.
  - intros p k us cs l fs _ IH Hf. destruct (IH k (grammar_counted k)) as [H1 H2]. destruct (decide (k = KValue)) as [->|Hk]; [|auto].
    intros u Hu Hk Hn. destruct (H1 u Hu Hk Hn) as [?|H]; [by left|]. left.
    destruct Hf as [_ Hf]. destruct (Hf FNumber (TPtr KValueNumber)) as [Hs _].
    { apply (bool_decide_unpack _). vm_compute. exact I. }
    cbn in Hs. assert (Texts [value u] ∈ captures_of FNumber cs) as Hin.
    { unfold captures_of. apply elem_of_list_fmap. exists (FNumber, Texts [value u]). split; [done|]. by apply elem_of_list_filter. }
    destruct (captures_of FNumber cs) as [|[[|v [|? ?]]|?] [|? ?]]; try (by destruct Hs); [by apply elem_of_nil in Hin|].
    apply elem_of_list_singleton in Hin. injection Hin as Hin. subst v.
    destruct (capture_number (value u)); [by eexists|]. by destruct Hs.
Qed.
Lemma lexed_numbers n st p s ts st' : lex_fuel n st p s = Ok (Lexed ts st') → ∀ t, t ∈ ts → kind_of_token t = TNumber → number_text (value t).
Proof.
  revert st p s ts. induction n as [|n IH]; intros st p s ts.
  - destruct s; [|done]. intros [= <- _] t Ht. by apply elem_of_nil in Ht.
  - destruct s as [|c s]; cbn [lex_fuel]; [intros [= <- _] t Ht; by apply elem_of_nil in Ht|].
    destruct (lex_step st p (c :: s)) as [[[u s'] st1]|] eqn:E; [|done].
    destruct (lex_fuel n st1 _ s') as [[us st2|us q]| |] eqn:E'; try done. intros [= <- <-] t [->|Ht]%elem_of_cons Hk.
    + by eapply number_step.
    + by eapply IH.
Qed.
(** All tokens of a file that is accepted can be assigned. *)
Lemma accepted_fine s r ts st : parse s = Ok (Some r) → lex "" s = Ok (Lexed ts st) → Forall fine (elide ts).
Proof.
  intros H E. pose proof (elide_openers _ _ _ _ E) as Ho. apply p46_all_input in H as (ts' & st' & E' & _ & Hb). rewrite E in E'. injection E' as <- <-.
  apply Forall_forall. intros t Ht. split; [|by apply Ho]. intros Hk.
  destruct (proj2 numbers_read _ _ _ _ Hb t Ht Hk) as [?|Hin]; [|done|by apply elem_of_nil in Hin].
  apply elem_of_list_filter in Ht as [_ Ht]. by eapply lexed_numbers.
Qed.
