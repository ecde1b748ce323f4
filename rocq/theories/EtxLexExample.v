(** * Examples for the properties of the lexer *)
From stdpp Require Import base list option strings.
From Coq Require Import Ascii Lia.
From Verif Require Import GoBase EtxHeap EtxText EtxLex EtxLexSpec.

Definition nl : string := str [lf].
Definition sample : text :=
  chars ("x = ""aé${b-1&&'\u00e9'}\n"" /* * */" +:+ nl +:+ "y=<<-EOT" +:+ nl +:+ "z" +:+ nl +:+ "EOT" +:+ nl).
Definition toks (s : text) : list token := match lex "f" s with Ok l => tokens_of l | _ => [] end.

(** A check for string bodies. *)
Fixpoint body_check (q : ascii) (n : nat) (b : text) : bool :=
  match n, b with
  | _, [] => true
  | S n, c :: b' =>
      if Ascii.eqb c backslash then
        match b' with
        | d :: b'' =>
            if Ascii.eqb d "u" then
              bool_decide (length (take 4 b'') = 4) && forallb is_hex (take 4 b'') && body_check q n (drop 4 b'')
            else negb (Ascii.eqb d lf) && body_check q n b''
        | [] => false
        end
      else if is_quote c then negb (Ascii.eqb c q) && body_check q n b'
      else if Ascii.eqb c "$" then
        bool_decide (take 2 b' = chars "${") && body_check q n (drop 2 b')
      else if Ascii.eqb c "%" then
        bool_decide (take 2 b' = chars "%{") && body_check q n (drop 2 b')
      else body_check q n b'
  | _, _ => false
  end.
Lemma body_check_ok q n b : body_check q n b = true → string_body q b.
Proof.
  revert b. induction n as [|n IH]; intros [|c b] H; try (simpl in H; done); try apply body_nil.
  cbn [body_check] in H.
  destruct (Ascii.eqb_spec c backslash) as [->|Hbs].
  - destruct b as [|d b]; [done|]. destruct (Ascii.eqb_spec d "u") as [->|Hu].
    + apply andb_true_iff in H as [H H3]. apply andb_true_iff in H as [H1 H2]. apply bool_decide_eq_true in H1.
      rewrite <- (take_drop 4 b). apply body_unicode; [done| |by apply IH].
      apply Forall_forall. intros x Hx. rewrite forallb_forall in H2. apply H2. by apply elem_of_list_In.
    + apply andb_true_iff in H as [H1 H2]. apply body_escape; [|done|by apply IH].
      intros ->. by rewrite Ascii.eqb_refl in H1.
  - destruct (is_quote c) eqn:Hq.
    + apply andb_true_iff in H as [H1 H2]. apply body_quote; [done| |by apply IH]. intros ->.
      by rewrite Ascii.eqb_refl in H1.
    + destruct (Ascii.eqb_spec c "$") as [->|Hd].
      * apply andb_true_iff in H as [H1 H2]. apply bool_decide_eq_true in H1.
        rewrite <- (take_drop 2 b), H1. apply body_dollar. by apply IH.
      * destruct (Ascii.eqb_spec c "%") as [->|Hp].
        -- apply andb_true_iff in H as [H1 H2]. apply bool_decide_eq_true in H1.
           rewrite <- (take_drop 2 b), H1. apply body_percent. by apply IH.
        -- apply body_char; [|by apply IH]. unfold chars. simpl. rewrite !elem_of_cons, elem_of_nil.
           intros [?|[?|[?|[?|[?|?]]]]]; try done; subst; done.
Qed.
Ltac words := repeat match goal with
  | |- word _ => split; [discriminate|]
  | |- Forall _ _ => constructor
  | |- _ = _ => reflexivity
  end.
Ltac lex_check :=
  first [ by left | by right | by vm_compute
        | split; [words|split; [eexists; split; reflexivity|words]]
        | (split; [reflexivity|]; first [intros _; reflexivity | discriminate | done])
        | unfold is_keyword; apply (bool_decide_unpack _); by vm_compute ].
Ltac lex_checks := repeat match goal with |- _ ∧ _ => apply conj end; try lex_check.
(** No text is a body that has a character out of place. *)
Ltac no_body H :=
  let Hc := fresh in let Hn := fresh in let Hb := fresh in
  inversion_clear H as [|? ? Hc Hb|? ? Hc Hn Hb|? ? ? ? Hb|? ? ? ? Hb|? Hb|? Hb];
  first [ solve [exfalso; apply Hc; apply (bool_decide_unpack _); vm_compute; exact I]
        | solve [exfalso; first [discriminate Hc | apply Hn; reflexivity]]
        | clear Hc; no_body Hb ].
