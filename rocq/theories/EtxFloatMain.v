(** * What the Value of a number is *)
From stdpp Require Import base list option.
From Coq Require Import Ascii String NArith ZArith QArith Qabs Qpower Lqa Lia.
From Verif Require Import GoBase EtxText EtxLex EtxLexSpec EtxUtil EtxUtilSpec EtxNumProofs EtxFloat EtxFloatSpec EtxFloatProofs EtxFloatError.
Local Open Scope string_scope.
Local Open Scope list_scope.
Local Open Scope Q_scope.

#[local] Instance qle_trans : Transitive Qle := Qle_trans.
Lemma literal_fraction_length s n : literal s n → (fraction n <= List.length s)%nat.
Proof.
  intros [x ds _ _|x ds _ _|x ds _ _|ds _|ds e x _ _ _|ds fs e x _ _ _]; cbn [fraction]; try lia.
  unfold count_digits. rewrite !app_length. cbn [List.length]. rewrite app_length. pose proof (filter_length (λ c, c ≠ "_"%char) fs). lia.
Qed.
Lemma literal_in_range s n : literal s n → (Z.abs (exponent n - Z.of_nat (fraction n)) < 2 ^ 28)%Z → (N.of_nat (List.length s) < 2 ^ 28)%N → in_range n.
Proof.
  intros Hl Hd Hs. pose proof (literal_fraction_length _ _ Hl). destruct (literal_shape _ _ Hl) as (_ & _ & Hm). split; [lia|right].
  assert (N.size (mantissa n) <= 4 * N.of_nat (List.length s))%N by (apply size_le; rewrite N.pow_mul_r; done). lia.
Qed.
Lemma token_value file s l t n :
  lex file s = Ok l → t ∈ tokens_of l → kind_of_token t = TNumber → literal (value t) n → in_range n → number_value (value t) = Some (float_of n).
Proof.
  intros H1 H2 H3 H4 H5. unfold number_value. rewrite (proj2 (p59 file s l t (normalise (value t)) n H1 H2 H3)); done.
Qed.

Lemma nearest_unique_aux p x v v' : (1 <= p)%N → nearest p x v → nearest p x v' → v < v' → last_bit_0 p v → last_bit_0 p v' → Qabs (x - v) == Qabs (x - v') → False.
Proof.
  intros Hp [_ Hv] [_ _] Hlt (m & e & [Hm1 Hm2] & Hme & E) (m' & e' & [Hm1' Hm2'] & Hme' & E') Hd.
  apply N.even_spec in Hme as [j Ej]. apply N.even_spec in Hme' as [j' Ej'].
  assert (2 ^ p = 2 * 2 ^ (p - 1))%N as Ep by (rewrite <- N.pow_succ_r'; f_equal; lia).
  pose proof (pow2_pos e) as He. pose proof (pow2_pos e') as He'.
  destruct (Z.lt_ge_cases e' e) as [Hc|Hc].
  { assert (v' < v); [|lra]. rewrite E, E'. unfold dyadic.
    apply Qlt_le_trans with (⌊2 ^ p⌋ * 2 ^ e'); [apply Qmult_lt_compat_r; [done|by apply inj_lt]|].
    transitivity (⌊2 ^ (p - 1)⌋ * 2 ^ (e' + 1)).
    - apply eq_le. rewrite Ep, inj_mul, pow2_add. change ⌊2⌋ with 2. change (2 ^ 1) with 2. ring.
    - assert (⌊0⌋ <= ⌊2 ^ (p - 1)⌋) as H0 by (apply inj_le; lia). change ⌊0⌋ with 0 in H0. pose proof (pow2_pos (e' + 1)).
      apply Qmul_le; [done|by apply inj_le|lra|]. apply pow2_le. lia. }
  set (k := Z.to_N (e' - e)). assert (v' == ⌊m' * 2 ^ k⌋ * 2 ^ e) as Ev'.
  { rewrite E'. unfold dyadic. rewrite inj_mul, <- pow2_N. replace e' with (Z.of_N k + e)%Z at 1 by lia. rewrite pow2_add. ring. }
  assert (m < m' * 2 ^ k)%N as Hlt'.
  { destruct (N.lt_ge_cases m (m' * 2 ^ k)) as [|Hge]; [done|]. apply inj_le in Hge.
    assert (v' <= v); [|lra]. rewrite Ev', E. unfold dyadic. apply Qmult_le_compat_r; lra. }
  assert (m + 1 < m' * 2 ^ k)%N as Hlt''.
  { assert (m' * 2 ^ k = 2 * (j' * 2 ^ k))%N by (rewrite Ej'; ring). lia. }
  set (y := dyadic (m + 1) e).
  assert (y == v + 2 ^ e) as Ey by (unfold y; rewrite E; unfold dyadic; rewrite inj_add; change ⌊1⌋ with 1; ring).
  assert (y < v') as Hy by (rewrite Ev'; unfold y, dyadic; apply Qmult_lt_compat_r; [done|by apply inj_lt]).
  assert (representable p y) as Hr by (exists (m + 1)%N, e; split; [lia|done]).
  specialize (Hv y Hr).
  assert (x == (v + v') / 2) as Ex.
  { unfold Qdiv. change (/ 2) with (1 # 2). destruct (abs_case (x - v)) as [[? E1]|[? E1]], (abs_case (x - v')) as [[? E2]|[? E2]]; rewrite E1, E2 in Hd; lra. }
  unfold Qdiv in Ex. change (/ 2) with (1 # 2) in Ex.
  destruct Hv as [Hv|[Hv|[Hv _]]]; [lra|..];
    destruct (abs_case (x - v)) as [[? E1]|[? E1]], (abs_case (x - y)) as [[? E2]|[? E2]]; rewrite E1, E2 in Hv; lra.
Qed.
(*P C81_one_nearest *)
(** There is only one such number. *)
Lemma nearest_unique p x v v' : (1 <= p)%N → nearest p x v → nearest p x v' → v == v'.
Proof.
  intros Hp H H'. destruct (Qlt_le_dec v v') as [Hlt|Hle]; [|destruct (Qlt_le_dec v' v) as [Hlt|Hle']; [|lra]]; exfalso.
  - pose proof H as [Hr Hn]. pose proof H' as [Hr' Hn']. specialize (Hn v' Hr'). specialize (Hn' v Hr).
    destruct Hn as [?|[?|[? ?]]], Hn' as [?|[?|[? ?]]]; try lra. by eapply (nearest_unique_aux p x v v').
  - pose proof H as [Hr Hn]. pose proof H' as [Hr' Hn']. specialize (Hn v' Hr'). specialize (Hn' v Hr).
    destruct Hn as [?|[?|[? ?]]], Hn' as [?|[?|[? ?]]]; try lra. by eapply (nearest_unique_aux p x v' v).
Qed.
(*P C81_nearest *)
(** A number token whose last digit stands for 10^-50 to 10^50 is accepted, and its Value is the
    nearest number of 53 bits. *)
Lemma p81 file s l t n :
  lex file s = Ok l → t ∈ tokens_of l → kind_of_token t = TNumber → literal (value t) n →
  (Z.abs (exponent n - Z.of_nat (fraction n)) <= 50)%Z → (N.of_nat (List.length (value t)) < 2 ^ 28)%N →
  ∃ x v, number_value (value t) = Some x ∧ finite_value x = Some v ∧ nearest 53 (denoted n) v.
Proof.
  intros H1 H2 H3 H4 H5 H6. destruct (float_nearest _ _ H4 H5 H6) as (v & Hv & Hn). exists (float_of n), v.
  split; [|done]. eapply token_value; try done. eapply literal_in_range; [done|lia|done].
Qed.
(*P C81_close *)
(** With larger exponents it is off by at most one part in 2^52. *)
Lemma p81_close file s l t n :
  lex file s = Ok l → t ∈ tokens_of l → kind_of_token t = TNumber → literal (value t) n →
  (Z.abs (exponent n - Z.of_nat (fraction n)) < 2 ^ 28)%Z → (N.of_nat (List.length (value t)) < 2 ^ 27)%N →
  ∃ x v, number_value (value t) = Some x ∧ finite_value x = Some v ∧ off_by (2 ^ (-52)) (denoted n) v.
Proof.
  intros H1 H2 H3 H4 H5 H6. destruct (float_close _ _ H4 H5 H6) as (v & Hv & Hn). exists (float_of n), v.
  split; [|done]. eapply token_value; try done. eapply literal_in_range; [done|done|lia].
Qed.
(*P C81_same_number *)
(** Two ways of writing a number have one Value. *)
Lemma p81_same file s l t n file' s' l' t' n' :
  lex file s = Ok l → t ∈ tokens_of l → kind_of_token t = TNumber → literal (value t) n →
  lex file' s' = Ok l' → t' ∈ tokens_of l' → kind_of_token t' = TNumber → literal (value t') n' →
  (Z.abs (exponent n - Z.of_nat (fraction n)) <= 50)%Z → (N.of_nat (List.length (value t)) < 2 ^ 28)%N →
  (Z.abs (exponent n' - Z.of_nat (fraction n')) <= 50)%Z → (N.of_nat (List.length (value t')) < 2 ^ 28)%N →
  denoted n == denoted n' →
  ∃ x v x' v', number_value (value t) = Some x ∧ finite_value x = Some v ∧ number_value (value t') = Some x' ∧ finite_value x' = Some v' ∧ v == v'.
Proof.
  intros H1 H2 H3 H4 H1' H2' H3' H4' H5 H6 H5' H6' E.
  destruct (p81 _ _ _ _ _ H1 H2 H3 H4 H5 H6) as (x & v & Hx & Hv & Hn). destruct (p81 _ _ _ _ _ H1' H2' H3' H4' H5' H6') as (x' & v' & Hx' & Hv' & Hn').
  exists x, v, x', v'. split; [done|]. split; [done|]. split; [done|]. split; [done|]. eapply (nearest_unique 53); [done|exact Hn|]. by eapply nearest_eq.
Qed.

(** Concrete literals *)
Lemma single s n : lex "f" s = Ok (Lexed [Token TNumber s (start_pos "f")] [(SRoot, [])]) → capture_number s = Some (normalise s, n) →
  ∃ l t, lex "f" s = Ok l ∧ t ∈ tokens_of l ∧ kind_of_token t = TNumber ∧ value t = s ∧ literal s n ∧ in_range n.
Proof.
  intros E H. eexists _, _. split; [exact E|]. split; [apply elem_of_list_here|]. split; [done|]. split; [done|].
  destruct (proj1 (p59 "f" s _ (Token TNumber s (start_pos "f")) (normalise s) n E (elem_of_list_here _ _) eq_refl) H) as (? & ? & _). done.
Qed.
(*P C80_value_is_the_number_refuted *)
(** The Value is not always what the literal says: *)
Lemma p80 :
  ∃ file s l t n x v, lex file s = Ok l ∧ t ∈ tokens_of l ∧ kind_of_token t = TNumber ∧ literal (value t) n ∧
    number_value (value t) = Some x ∧ finite_value x = Some v ∧ ¬ v == denoted n.
Proof.
  destruct (single (chars "9007199254740993") (Number 9007199254740993 10 0 10 0)) as (l & t & H1 & H2 & H3 & E & H4 & H5); [vm_compute; reflexivity..|].
  exists "f", (chars "9007199254740993"), l, t, (Number 9007199254740993 10 0 10 0), (FFin 4503599627370496 1), (dyadic 4503599627370496 1).
  rewrite E. split; [done|]. split; [done|]. split; [done|]. split; [done|]. split; [vm_compute; reflexivity|]. split; [done|]. intros H. vm_compute in H. done.
Qed.
(*P C80_exact_partial *)
(** but it is if 53 bits are enough. *)
Lemma p80_exact file s l t n :
  lex file s = Ok l → t ∈ tokens_of l → kind_of_token t = TNumber → literal (value t) n →
  (Z.abs (exponent n - Z.of_nat (fraction n)) <= 50)%Z → (N.of_nat (List.length (value t)) < 2 ^ 28)%N →
  representable 53 (denoted n) →
  ∃ x v, number_value (value t) = Some x ∧ finite_value x = Some v ∧ v == denoted n.
Proof.
  intros H1 H2 H3 H4 H5 H6 Hr. destruct (p81 _ _ _ _ _ H1 H2 H3 H4 H5 H6) as (x & v & Hx & Hv & Hn). exists x, v. split; [done|]. split; [done|].
  apply (nearest_unique 53 (denoted n)); [done|done|]. apply nearest_exact; [done|reflexivity].
Qed.
(*P C81_sharp *)
(** The bound is sharp: with the exponent 51 there is a literal whose Value is not the nearest
    number of 53 bits. *)
Lemma p81_sharp :
  ∃ file s l t n x v, lex file s = Ok l ∧ t ∈ tokens_of l ∧ kind_of_token t = TNumber ∧ literal (value t) n ∧
    exponent n = 51%Z ∧ fraction n = 0%nat ∧ (List.length (value t) <= 40)%nat ∧
    number_value (value t) = Some x ∧ finite_value x = Some v ∧ ¬ nearest 53 (denoted n) v.
Proof.
  set (s := chars "1374448664048697661794158298053e51"). set (n := Number 1374448664048697661794158298053 10 0 10 51).
  destruct (single s n) as (l & t & H1 & H2 & H3 & E & H4 & H5); [vm_compute; reflexivity..|].
  destruct (number_value s) as [[|m e|]|] eqn:Ex; vm_compute in Ex; try done. injection Ex as <- <-.
  eexists "f", s, l, t, n, _, _. rewrite E. split; [done|]. split; [done|]. split; [done|]. split; [done|]. split; [done|]. split; [done|].
  split; [vm_compute; lia|]. split; [vm_compute; reflexivity|]. split; [done|].
  intros [_ H]. destruct (H (dyadic 6525585201271730 217)) as [H6|[H6|[H6 _]]];
    [exists 6525585201271730%N, 217%Z; split; [done|reflexivity]|vm_compute in H6; done..].
Qed.
(*P C81_infinite *)
(** Accepted literals can have an infinite Value *)
Lemma p81_inf :
  ∃ file s l t n, lex file s = Ok l ∧ t ∈ tokens_of l ∧ kind_of_token t = TNumber ∧ literal (value t) n ∧ number_value (value t) = Some FInf.
Proof.
  destruct (single (chars "1e1000000000") (Number 1 10 0 10 1000000000)) as (l & t & H1 & H2 & H3 & E & H4 & H5); [vm_compute; reflexivity..|].
  eexists "f", _, l, t, _. rewrite E. split; [done|]. split; [done|]. split; [done|]. split; [done|]. vm_compute. reflexivity.
Qed.
(*P C81_zero *)
(** or the Value 0 though they are not 0. *)
Lemma p81_zero :
  ∃ file s l t n, lex file s = Ok l ∧ t ∈ tokens_of l ∧ kind_of_token t = TNumber ∧ literal (value t) n ∧
    ¬ denoted n == 0 ∧ number_value (value t) = Some FZero.
Proof.
  destruct (single (chars "1e-1000000000") (Number 1 10 0 10 (-1000000000))) as (l & t & H1 & H2 & H3 & E & H4 & H5); [vm_compute; reflexivity..|].
  eexists "f", _, l, t, _. rewrite E. split; [done|]. split; [done|]. split; [done|]. split; [done|]. split; [|vm_compute; reflexivity].
  unfold denoted. cbn [mantissa exponent fraction]. intros H. apply Qmult_integral in H as [H|H]; [done|].
  pose proof (Qpower_0_lt 10 (-1000000000 - Z.of_nat 0) ltac:(done)). lra.
Qed.
