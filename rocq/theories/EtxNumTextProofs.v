(** * Proofs about the text of numbers: digits and rounding *)
From Coq Require Import Ascii String NArith ZArith QArith Qabs Qpower Lqa Lia.
From stdpp Require Import base list option.
From Verif Require Import GoBase EtxText EtxUtil EtxUtilSpec EtxLex EtxLexOps EtxNumProofs EtxFloat EtxFloatSpec EtxFloatProofs EtxNumText EtxNumTextSpec.
Local Open Scope string_scope.
Local Open Scope list_scope.
Local Open Scope Q_scope.

(** ** Digits *)
Notation decs s := (Forall (λ c, is_digit c = true) s).
Notation num s := (numeral 10 s).
Lemma digit_table c : is_digit c = true → c ≠ "_"%char ∧ digit_of c = digit_number c ∧ (digit_number c <= 9)%N ∧ digit (digit_number c) = c.
Proof.
  assert (forallb (λ c, implb (is_digit c) (negb (Ascii.eqb c "_") && (digit_of c =? digit_number c)%N && (digit_number c <=? 9)%N && Ascii.eqb (digit (digit_number c)) c)) all_ascii = true) as H by (by vm_compute).
  intros Hc. rewrite forallb_forall in H. specialize (H c). rewrite <- elem_of_list_In in H. specialize (H (all_ascii_complete c)).
  rewrite Hc in H. cbn [implb] in H. apply andb_prop in H as [[[H1 H2]%andb_prop H3]%andb_prop H4].
  split; [by intros ->|]. split; [by apply N.eqb_eq|]. split; [by apply N.leb_le|by apply Ascii.eqb_eq].
Qed.
Lemma digit_small n : (n <= 9)%N → is_digit (digit n) = true ∧ digit_number (digit n) = n.
Proof.
  intros H. assert (n = 0 ∨ n = 1 ∨ n = 2 ∨ n = 3 ∨ n = 4 ∨ n = 5 ∨ n = 6 ∨ n = 7 ∨ n = 8 ∨ n = 9)%N as Hn by lia.
  repeat destruct Hn as [->|Hn]; [by vm_compute..|]. subst n. by vm_compute.
Qed.
Lemma decs_filter s : decs s → filter (λ c, c ≠ "_"%char) s = s.
Proof.
  induction 1 as [|c s Hc _ IH]; [done|]. rewrite filter_cons_True by (by apply digit_table). by rewrite IH.
Qed.
Lemma decs_count s : decs s → count_digits s = List.length s.
Proof. intros H. unfold count_digits. by rewrite decs_filter. Qed.
Lemma num_fold s : decs s → num s = foldl (λ v c, (v * 10 + digit_of c)%N) 0%N s.
Proof. intros H. unfold numeral. by rewrite decs_filter. Qed.
Lemma fold_num s v : foldl (λ v c, (v * 10 + digit_of c)%N) v s = (v * 10 ^ N.of_nat (List.length s) + foldl (λ v c, (v * 10 + digit_of c)%N) 0 s)%N.
Proof.
  revert v. induction s as [|c s IH]; intros v; [cbn; lia|]. cbn [foldl]. rewrite IH, (IH (0 * 10 + _)%N). cbn [List.length].
  rewrite Nat2N.inj_succ, N.pow_succ_r'. ring.
Qed.
Lemma num_app s t : decs s → decs t → num (s ++ t) = (num s * 10 ^ N.of_nat (List.length t) + num t)%N.
Proof.
  intros Hs Ht. rewrite !num_fold by (try apply list.Forall_app; done). rewrite foldl_app. apply fold_num.
Qed.
Lemma num_one c : is_digit c = true → num [c] = digit_number c.
Proof. intros H. rewrite num_fold by (by repeat constructor). cbn [foldl]. destruct (digit_table c H) as (_ & -> & _). lia. Qed.
Lemma num_cons c s : decs (c :: s) → num (c :: s) = (digit_number c * 10 ^ N.of_nat (List.length s) + num s)%N.
Proof. intros [Hc Hs]%list.Forall_cons. change (c :: s) with ([c] ++ s). rewrite num_app by (by repeat constructor). by rewrite num_one. Qed.
Lemma num_snoc s c : decs (s ++ [c]) → num (s ++ [c]) = (num s * 10 + digit_number c)%N.
Proof. intros [Hs Hc]%list.Forall_app. rewrite num_app by done. cbn [List.length]. apply list.Forall_cons in Hc as [Hc _]. by rewrite num_one. Qed.
Lemma num_upper s : decs s → (num s < 10 ^ N.of_nat (List.length s))%N.
Proof.
  induction s as [|c s IH]; intros H; [done|]. rewrite num_cons by done. apply list.Forall_cons in H as [Hc Hs]. specialize (IH Hs).
  cbn [List.length]. rewrite Nat2N.inj_succ, N.pow_succ_r'. destruct (digit_table c Hc) as (_ & _ & H9 & _). nia.
Qed.
Lemma zero_digit c : is_digit c = true → digit_number c = 0%N ↔ c = "0"%char.
Proof. intros Hc. split; [|by intros ->]. intros E. destruct (digit_table c Hc) as (_ & _ & _ & <-). by rewrite E. Qed.
Lemma num_lower c s : decs (c :: s) → c ≠ "0"%char → (10 ^ N.of_nat (List.length s) <= num (c :: s))%N.
Proof.
  intros H Hc. rewrite num_cons by done. apply list.Forall_cons in H as [Hd Hs]. assert (digit_number c ≠ 0%N) by (by rewrite zero_digit). nia.
Qed.
Lemma num_zeros k : num (replicate k "0"%char) = 0%N.
Proof.
  induction k as [|k IH]; [done|]. cbn [replicate]. rewrite num_cons; [rewrite IH; change (digit_number "0"%char) with 0%N; lia|].
  constructor; [done|]. by apply Forall_replicate.
Qed.
Lemma decs_zeros k : decs (replicate k "0"%char).
Proof. by apply Forall_replicate. Qed.

(** ** utoa *)
Lemma utoa_loop_ok fuel : ∀ n s, (n < 2 ^ N.of_nat fuel)%N → decs s →
  decs (utoa_loop fuel n s) ∧ num (utoa_loop fuel n s) = (n * 10 ^ N.of_nat (List.length s) + num s)%N ∧
  (n ≠ 0%N → head (utoa_loop fuel n s) ≠ Some "0"%char ∧ utoa_loop fuel n s ≠ []).
Proof.
  induction fuel as [|fuel IH]; intros n s Hn Hs.
  { cbn in Hn. assert (n = 0)%N as -> by lia. split; [done|]. cbn [utoa_loop]. split; [lia|done]. }
  cbn [utoa_loop]. destruct (N.eqb_spec n 0) as [->|Hz]; [split; [done|]; split; [lia|done]|].
  assert (n / 10 < 2 ^ N.of_nat fuel)%N as Hq.
  { rewrite Nat2N.inj_succ, N.pow_succ_r' in Hn. apply N.div_lt_upper_bound; lia. }
  pose proof (N.mod_lt n 10 ltac:(done)) as Hr. pose proof (N.div_mod n 10 ltac:(done)) as Hd.
  destruct (digit_small (n mod 10) ltac:(lia)) as [D1 D2].
  assert (decs (digit (n mod 10) :: s)) as Hs' by (by constructor).
  destruct (IH _ _ Hq Hs') as (H1 & H2 & H3). split; [done|]. split.
  - rewrite H2, num_cons by done. rewrite D2. cbn [List.length]. rewrite Nat2N.inj_succ, N.pow_succ_r'. nia.
  - intros _. destruct (N.eq_dec (n / 10) 0) as [E|E]; [|by apply H3].
    rewrite E. assert (utoa_loop fuel 0 (digit (n mod 10) :: s) = digit (n mod 10) :: s) as ->.
    { destruct fuel; done. }
    split; [|done]. cbn. intros [= E']. assert (digit_number (digit (n mod 10)) = 0)%N as E2 by (by rewrite E'). lia.
Qed.
Lemma utoa_ok n : decs (utoa n) ∧ num (utoa n) = n ∧ (n ≠ 0%N → head (utoa n) ≠ Some "0"%char ∧ utoa n ≠ []).
Proof.
  unfold utoa. destruct (utoa_loop_ok (N.to_nat (N.size n)) n []) as (H1 & H2 & H3); [rewrite N2Nat.id; apply N.size_gt|constructor|].
  split; [done|]. split; [|done]. rewrite H2. cbn [List.length]. change (num []) with 0%N. lia.
Qed.

(** ** trim *)
Lemma trim_zeros s : ∃ k, s = trim s ++ replicate k "0"%char.
Proof.
  induction s as [|c s [k IH]]; [by exists 0%nat|]. cbn [trim]. destruct (trim s) as [|d t] eqn:E.
  - destruct (Ascii.eqb_spec c "0") as [->|Hc]; [exists (S k); by rewrite IH|]. exists k. by rewrite IH at 1.
  - exists k. by rewrite IH at 1.
Qed.
Lemma trim_last s : list.last (trim s) ≠ Some "0"%char.
Proof.
  induction s as [|c s IH]; [done|]. cbn [trim]. destruct (trim s) as [|d t] eqn:E; [|done].
  destruct (Ascii.eqb_spec c "0") as [->|Hc]; [done|]. cbn. by intros [= ->].
Qed.
Lemma trim_decs s : decs s → decs (trim s).
Proof. intros H. destruct (trim_zeros s) as [k E]. rewrite E in H. by apply list.Forall_app in H as [H _]. Qed.
Lemma trim_head s : head s ≠ Some "0"%char → s ≠ [] → trim s ≠ [] ∧ head (trim s) ≠ Some "0"%char.
Proof.
  intros Hh Hne. destruct (trim_zeros s) as [k E]. destruct (trim s) as [|c t]; [|by rewrite E in Hh].
  exfalso. rewrite E in Hh, Hne. by destruct k.
Qed.

(** ** Decimals *)
Definition decimal_value (d : decimal) : Q := scaled (num (digits d)) (point d - Z.of_nat (List.length (digits d))).
Definition wf (d : decimal) : Prop :=
  decs (digits d) ∧ digits d ≠ [] ∧ head (digits d) ≠ Some "0"%char ∧ list.last (digits d) ≠ Some "0"%char.
Lemma pow10_pos e : 0 < 10 ^ e.
Proof. by apply Qpower_0_lt. Qed.
Lemma pow10_add a b : 10 ^ (a + b) == 10 ^ a * 10 ^ b.
Proof. by apply Qpower_plus. Qed.
Lemma pow10_N k : 10 ^ (Z.of_N k) == ⌊10 ^ k⌋.
Proof. exact (pow_N 10 k). Qed.
Lemma scaled_shift m k e : scaled (m * 10 ^ k) e == scaled m (e + Z.of_N k).
Proof. unfold scaled. rewrite pow10_add, pow10_N, inj_mul. ring. Qed.
Lemma trim_value s p : decs s →
  decimal_value (Decimal (trim s) p) == scaled (num s) (p - Z.of_nat (List.length s)).
Proof.
  intros H. destruct (trim_zeros s) as [k E]. unfold decimal_value. cbn [digits point]. rewrite E at 3 4.
  rewrite num_app by (try apply decs_zeros; by apply trim_decs). rewrite num_zeros, N.add_0_r, scaled_shift, app_length, replicate_length.
  replace (p - Z.of_nat (List.length (trim s) + k) + Z.of_N (N.of_nat k))%Z with (p - Z.of_nat (List.length (trim s)))%Z by lia. done.
Qed.
Lemma decimal_of_value m e : decimal_value (decimal_of m e) == dyadic m e.
Proof.
  unfold decimal_of. rewrite trim_value by apply utoa_ok. destruct (utoa_ok (if (0 <=? e)%Z then (m * 2 ^ Z.to_N e)%N else (m * 5 ^ Z.to_N (- e))%N)) as (_ & -> & _).
  set (s := utoa _). replace (Z.of_nat (List.length s) + Z.min e 0 - Z.of_nat (List.length s))%Z with (Z.min e 0) by lia. clear s.
  unfold scaled, dyadic. destruct (Z.leb_spec 0 e) as [H|H].
  - rewrite Z.min_r by done. rewrite inj_mul, <- pow2_N, Z2N.id by done. change (10 ^ 0) with 1. ring.
  - rewrite Z.min_l by lia. rewrite inj_mul, ten_pow, <- (pow_N 5), Z2N.id by lia. change (inject_Z (Z.of_N 5)) with 5.
    rewrite (Qpower_opp 5). assert (~ 5 ^ e == 0). { assert (0 < 5 ^ e) by (by apply Qpower_0_lt). lra. } field. done.
Qed.
Lemma decimal_of_wf m e : m ≠ 0%N → wf (decimal_of m e).
Proof.
  intros Hm. unfold decimal_of. set (n := if (0 <=? e)%Z then _ else _).
  assert (n ≠ 0%N) as Hn. { unfold n. destruct (0 <=? e)%Z; apply N.neq_mul_0; (split; [done|]); by apply N.pow_nonzero. }
  destruct (utoa_ok n) as (H1 & _ & H2). destruct (H2 Hn) as [H3 H4]. destruct (trim_head _ H3 H4) as [H5 H6].
  repeat split; cbn [digits]; [by apply trim_decs|done|done|apply trim_last].
Qed.

(** ** Rounding *)
(** In units of the last digit kept: *)
Lemma rounded_unit (p : N) (t s : Q) (q : N) :
  ⌊10 ^ (p - 1)⌋ <= t → (10 ^ (p - 1) <= q)%N → Qabs (t - ⌊q⌋) <= 1 # 2 →
  s < ⌊10 ^ (p - 1)⌋ ∨ (∃ j : N, s == ⌊j⌋) →
  s == ⌊q⌋ ∨ Qabs (t - ⌊q⌋) < Qabs (t - s) ∨ (Qabs (t - ⌊q⌋) == Qabs (t - s) ∧ Qabs (t - ⌊q⌋) == 1 # 2).
Proof.
  intros Ht Hq Ha [Hs|(j & Hs)].
  - right. left. assert (q = 10 ^ (p - 1) ∨ 10 ^ (p - 1) + 1 <= q)%N as [->|H] by lia.
    + destruct (abs_case (t - ⌊10 ^ (p - 1)⌋)) as [[? ->]|[? ->]], (abs_case (t - s)) as [[? ->]|[? ->]]; lra.
    + apply inj_le in H. rewrite inj_add in H. change (⌊1⌋) with 1 in H. destruct (abs_case (t - ⌊q⌋)) as [[? E]|[? E]], (abs_case (t - s)) as [[? E']|[? E']]; rewrite E in *; rewrite E' in *; lra.
  - assert (j = q ∨ j + 1 <= q ∨ q + 1 <= j)%N as [->|[H|H]] by lia; [by left|right..]; apply inj_le in H; rewrite inj_add in H; change (⌊1⌋) with 1 in H; rewrite <- Hs in H.
    all: destruct (Qlt_le_dec (Qabs (t - ⌊q⌋)) (Qabs (t - s))) as [Hlt|Hle]; [by left|right].
    all: destruct (abs_case (t - ⌊q⌋)) as [[? E]|[? E]], (abs_case (t - s)) as [[? E']|[? E']]; rewrite E in *; rewrite E' in *; split; lra.
Qed.
Lemma rounded_of (p : N) (t : Q) (q : N) (e : Z) (x : Q) :
  (2 <= p)%N → ⌊10 ^ (p - 1)⌋ <= t → (10 ^ (p - 1) <= q <= 10 ^ p)%N → Qabs (t - ⌊q⌋) <= 1 # 2 → (Qabs (t - ⌊q⌋) == 1 # 2 → N.even q = true) →
  x == t * 10 ^ e → rounded p x (scaled q e).
Proof.
  intros Hp Ht [Hq1 Hq2] Ha He Hx. pose proof (pow10_pos e) as Hu.
  assert (10 ^ p = 10 * 10 ^ (p - 1))%N as Ep by (rewrite <- N.pow_succ_r'; f_equal; lia).
  assert (10 ^ (p - 1) = 10 * 10 ^ (p - 2))%N as Ep' by (rewrite <- N.pow_succ_r'; f_equal; lia).
  assert (q = (10 ^ p)%N → scaled q e == scaled (10 ^ (p - 1)) (e + 1)) as Hc.
  { intros ->. unfold scaled. rewrite pow10_add, Ep, inj_mul. change (⌊10⌋) with 10. change (10 ^ 1) with 10. ring. }
  pose proof (N.pow_nonzero 10 (p - 2)) as Hz. split.
  - destruct (N.eq_dec q (10 ^ p)) as [E|Hn]; [exists (10 ^ (p - 1))%N, (e + 1)%Z; split; [lia|by apply Hc]|]. exists q, e. split; [lia|done].
  - intros y (m & e' & Hm & Hy).
    assert (y == (⌊m⌋ * 10 ^ (e' - e)) * 10 ^ e) as Hy'.
    { rewrite Hy. unfold scaled. rewrite <- Qmult_assoc, <- pow10_add. by replace (e' - e + e)%Z with e' by lia. }
    set (s := ⌊m⌋ * 10 ^ (e' - e)) in *.
    assert (s < ⌊10 ^ (p - 1)⌋ ∨ (∃ j : N, s == ⌊j⌋)) as Hs.
    { destruct (Z_lt_le_dec e' e) as [H|H]; [left|right].
      - assert (10 ^ (e' - e) <= 10 ^ (-1)) as Hh by (apply Qpower_le_compat_l; [lia|done]). change (10 ^ (-1)) with (1 # 10) in Hh.
        apply inj_lt in Hm. rewrite Ep, inj_mul in Hm. change (⌊10⌋) with 10 in Hm. subst s. pose proof (pow10_pos (e' - e)) as Hpos.
        assert (0 <= ⌊m⌋) as H0 by (apply (inj_le 0); lia). nra.
      - exists (m * 10 ^ Z.to_N (e' - e))%N. subst s. rewrite inj_mul, <- pow10_N, Z2N.id by lia. done. }
    destruct (rounded_unit p t s q Ht Hq1 Ha Hs) as [H|H].
    + left. rewrite Hy', H. done.
    + right. assert (Qabs (x - scaled q e) == Qabs (t - ⌊q⌋) * 10 ^ e) as E1.
      { rewrite Hx. unfold scaled. setoid_replace (t * 10 ^ e - ⌊q⌋ * 10 ^ e) with ((t - ⌊q⌋) * 10 ^ e) by ring. rewrite Qabs_Qmult, (Qabs_pos (10 ^ e)) by lra. done. }
      assert (Qabs (x - y) == Qabs (t - s) * 10 ^ e) as E2.
      { rewrite Hx, Hy'. setoid_replace (t * 10 ^ e - s * 10 ^ e) with ((t - s) * 10 ^ e) by ring. rewrite Qabs_Qmult, (Qabs_pos (10 ^ e)) by lra. done. }
      rewrite E1, E2. destruct H as [H|[H1 H2]]; [left; by apply Qmult_lt_compat_r|right]. split; [by rewrite H1|].
      specialize (He H2). destruct (N.eq_dec q (10 ^ p)) as [E|Hn].
      * exists (10 ^ (p - 1))%N, (e + 1)%Z. split; [lia|]. split; [|by apply Hc]. rewrite Ep'. by rewrite N.even_mul.
      * exists q, e. split; [lia|]. done.
Qed.
Lemma rounded_exact p x v : short p v → x == v → rounded p x v.
Proof.
  intros Hr Hx. split; [done|]. intros y _. destruct (Qeq_dec y v) as [H|H]; [by left|right; left].
  destruct (abs_case (x - v)) as [[? ->]|[? ->]], (abs_case (x - y)) as [[? ->]|[? ->]]; try lra.
Qed.
(** [q] or [q + 1] from [q * 10^k + r], by [r]. *)
Lemma rounded_cut p q r k e (b : N) :
  (2 <= p)%N → (10 ^ (p - 1) <= q < 10 ^ p)%N → (r < 10 ^ k)%N →
  b = q ∧ (2 * r < 10 ^ k ∨ 2 * r = 10 ^ k ∧ N.even q = true)%N ∨ b = (q + 1)%N ∧ (10 ^ k < 2 * r ∨ 2 * r = 10 ^ k ∧ N.odd q = true)%N →
  rounded p (scaled (q * 10 ^ k + r) e) (scaled b (e + Z.of_N k)).
Proof.
  intros Hp [Hq1 Hq2] Hr Hb. assert (10 ^ k ≠ 0)%N as Hk0 by (by apply N.pow_nonzero).
  assert (0 < ⌊10 ^ k⌋) as HkQ by (apply (inj_lt 0); lia).
  set (t := ⌊q⌋ + ⌊r⌋ / ⌊10 ^ k⌋). apply (rounded_of p t b (e + Z.of_N k)); [done|..].
  - unfold t. apply inj_le in Hq1. assert (0 <= ⌊r⌋ / ⌊10 ^ k⌋); [|lra]. apply Qle_shift_div_l; [done|]. rewrite Qmult_0_l. apply (inj_le 0). lia.
  - lia.
  - assert (⌊r⌋ == ⌊r⌋ / ⌊10 ^ k⌋ * ⌊10 ^ k⌋) as Er by (field; lra). set (w := ⌊r⌋ / ⌊10 ^ k⌋) in *. 
    destruct Hb as [[-> Hb]|[-> Hb]].
    + assert (2 * r <= 10 ^ k)%N as H by lia. apply inj_le in H. rewrite inj_mul, Er in H. change ⌊2⌋ with 2 in H.
      assert (0 <= ⌊r⌋) as H0 by (apply (inj_le 0); lia). rewrite Er in H0.
      assert (w <= 1 # 2) by nra. assert (0 <= w) by nra. unfold t. destruct (abs_case (⌊q⌋ + w - ⌊q⌋)) as [[? ->]|[? ->]]; lra.
    + assert (10 ^ k <= 2 * r)%N as H by lia. apply inj_le in H. rewrite inj_mul, Er in H. change ⌊2⌋ with 2 in H.
      apply inj_lt in Hr. rewrite Er in Hr.
      assert (1 # 2 <= w) by nra. assert (w < 1) by nra. unfold t. rewrite inj_add. change ⌊1⌋ with 1. destruct (abs_case (⌊q⌋ + w - (⌊q⌋ + 1))) as [[? ->]|[? ->]]; lra.
  - assert (⌊r⌋ == ⌊r⌋ / ⌊10 ^ k⌋ * ⌊10 ^ k⌋) as Er by (field; lra). set (w := ⌊r⌋ / ⌊10 ^ k⌋) in *. intros Hh.
    destruct Hb as [[-> [Hb|[_ Hb]]]|[-> [Hb|[_ Hb]]]]; [exfalso|done|exfalso|].
    + apply inj_lt in Hb. rewrite inj_mul, Er in Hb. change ⌊2⌋ with 2 in Hb. assert (w < 1 # 2) by nra.
      assert (0 <= ⌊r⌋) as H0 by (apply (inj_le 0); lia). rewrite Er in H0. assert (0 <= w) by nra.
      unfold t in Hh. destruct (abs_case (⌊q⌋ + w - ⌊q⌋)) as [[? E]|[? E]]; rewrite E in Hh; lra.
    + apply inj_lt in Hb. rewrite inj_mul, Er in Hb. change ⌊2⌋ with 2 in Hb. assert (1 # 2 < w) by nra.
      apply inj_lt in Hr. rewrite Er in Hr. assert (w < 1) by nra.
      unfold t in Hh. rewrite inj_add in Hh. change ⌊1⌋ with 1 in Hh. destruct (abs_case (⌊q⌋ + w - (⌊q⌋ + 1))) as [[? E]|[? E]]; rewrite E in Hh; lra.
    + rewrite N.add_1_r, N.even_succ. done.
  - unfold t, scaled. rewrite inj_add, inj_mul, pow10_add, pow10_N. field. lra.
Qed.

Lemma odd_last a d : decs (a ++ [d]) → N.odd (num (a ++ [d])) = N.odd (digit_number d).
Proof. intros H. rewrite num_snoc by done. rewrite N.odd_add, N.odd_mul. change (N.odd 10) with false. rewrite andb_false_r. by destruct (N.odd _). Qed.
Lemma num_pos s : decs s → s ≠ [] → list.last s ≠ Some "0"%char → num s ≠ 0%N.
Proof.
  intros Hs Hne Hl. destruct s as [|c s _] using rev_ind; [done|]. rewrite last_snoc in Hl. rewrite num_snoc by done.
  apply list.Forall_app in Hs as [_ Hc]. apply list.Forall_cons in Hc as [Hc _]. assert (digit_number c ≠ 0%N); [|lia]. rewrite zero_digit by done. congruence.
Qed.
Lemma round_up_ok (a b : text) : decs (a ++ b) → a ≠ [] → b ≠ [] → list.last b ≠ Some "0"%char →
  if should_round_up (List.length a) (a ++ b) then (10 ^ N.of_nat (List.length b) < 2 * num b ∨ 2 * num b = 10 ^ N.of_nat (List.length b) ∧ N.odd (num a) = true)%N
  else (2 * num b < 10 ^ N.of_nat (List.length b) ∨ 2 * num b = 10 ^ N.of_nat (List.length b) ∧ N.even (num a) = true)%N.
Proof.
  intros [Ha Hb]%list.Forall_app Hna Hnb Hl. unfold should_round_up. rewrite drop_app. destruct b as [|c b]; [done|].
  pose proof Hb as [Hc Hb']%list.Forall_cons. destruct (digit_table c Hc) as (_ & _ & H9 & Hd). destruct b as [|c' b].
  - destruct (Ascii.eqb_spec c "5") as [->|Hn].
    + destruct a as [|d a _] using rev_ind; [done|]. rewrite app_length, Nat.add_comm. cbn [List.length Nat.add Nat.pred].
      rewrite <- app_assoc. rewrite lookup_app_r, Nat.sub_diag by done. cbn [app lookup list_lookup Nat.eqb negb andb].
      rewrite num_one by done. change (digit_number "5"%char) with 5%N. rewrite <- (N.negb_odd (num (a ++ [d]))). rewrite odd_last by done.
      destruct (N.odd (digit_number d)); right; split; done.
    + rewrite num_one by done. cbn [List.length]. change (10 ^ N.of_nat 1)%N with 10%N.
      assert (digit_number c ≠ 5%N) by (intros E; rewrite E in Hd; by apply Hn).
      destruct (N.leb_spec 5 (digit_number c)); lia.
  - assert (num (c' :: b) ≠ 0%N) as Hp by (by apply num_pos).
    rewrite (num_cons c) by done. pose proof (num_upper (c' :: b) Hb') as Hu.
    assert (10 ^ N.of_nat (List.length (c :: c' :: b)) = 10 * 10 ^ N.of_nat (List.length (c' :: b)))%N as E.
    { change (List.length (c :: c' :: b)) with (S (List.length (c' :: b))). by rewrite Nat2N.inj_succ, N.pow_succ_r'. }
    rewrite E. destruct (N.leb_spec 5 (digit_number c)); left; nia.
Qed.
Lemma bump_some s t : bump s = Some t → ∃ k c u, s = replicate k "9"%char ++ c :: u ∧ c ≠ "9"%char ∧ t = digit (digit_number c + 1) :: u.
Proof.
  revert t. induction s as [|c s IH]; [done|]. intros t. cbn [bump]. destruct (Ascii.eqb_spec c "9") as [->|Hc].
  - intros (k & c & u & -> & Hc & ->)%IH. by exists (S k), c, u.
  - intros [= <-]. by exists 0%nat, c, s.
Qed.
Lemma bump_none s : bump s = None → s = replicate (List.length s) "9"%char.
Proof.
  induction s as [|c s IH]; [done|]. cbn [bump]. destruct (Ascii.eqb_spec c "9") as [->|Hc]; [|done]. intros H. cbn [List.length replicate]. by rewrite <- IH.
Qed.
Lemma num_nines k : (num (replicate k "9"%char) + 1 = 10 ^ N.of_nat k)%N.
Proof.
  induction k as [|k IH]; [done|]. cbn [replicate]. rewrite num_cons by (constructor; [done|by apply Forall_replicate]).
  rewrite replicate_length, Nat2N.inj_succ, N.pow_succ_r'. change (digit_number "9"%char) with 9%N. lia.
Qed.
Lemma rev_replicate {A} k (x : A) : rev (replicate k x) = replicate k x.
Proof.
  induction k as [|k IH]; [done|]. cbn [replicate rev]. rewrite IH. clear IH. induction k as [|k IH]; [done|]. cbn [replicate app]. by rewrite IH.
Qed.
Lemma round_ok p d : wf d → (2 <= p)%nat →
  wf (round_decimal p d) ∧ (List.length (digits (round_decimal p d)) <= p)%nat ∧ rounded (N.of_nat p) (decimal_value d) (decimal_value (round_decimal p d)).
Proof.
  intros Hw Hp. pose proof Hw as (H1 & H2 & H3 & H4). unfold round_decimal. destruct (Nat.leb_spec (List.length (digits d)) p) as [Hle|Hgt].
  { split; [done|]. split; [done|]. apply rounded_exact; [|done]. eexists _, _. split; [|done].
    eapply N.lt_le_trans; [by apply num_upper|]. apply N.pow_le_mono_r; lia. }
  destruct d as [s x]. cbn [digits point] in *. set (a := take p s). set (b := drop p s).
  assert (s = a ++ b) as Es by (symmetry; apply take_drop). assert (List.length a = p) as Ea by (apply take_length_le; lia).
  assert (List.length b = List.length s - p)%nat as Eb by apply drop_length.
  assert (a ≠ []) as Hna by (intros E; rewrite E in Ea; cbn in Ea; lia). assert (b ≠ []) as Hnb by (intros E; rewrite E in Eb; cbn in Eb; lia).
  assert (list.last b ≠ Some "0"%char) as Hlb by (rewrite Es, last_app in H4; by destruct (list.last b)).
  clearbody a b. subst s. pose proof H1 as [Ha Hb]%list.Forall_app.
  pose proof (round_up_ok a b H1 Hna Hnb Hlb) as Hup. rewrite Ea in Hup.
  assert (10 ^ (N.of_nat p - 1) <= num a < 10 ^ N.of_nat p)%N as Hq.
  { split; [|rewrite <- Ea; by apply num_upper]. destruct a as [|c a]; [done|]. replace (N.of_nat p - 1)%N with (N.of_nat (List.length a)) by (cbn in Ea; lia).
    apply num_lower; [done|]. cbn in H3. congruence. }
  pose proof (num_upper b Hb) as Hr.
  assert (decimal_value (Decimal (a ++ b) x) == scaled (num a * 10 ^ N.of_nat (List.length b) + num b) (x - Z.of_nat (p + List.length b))) as Ev.
  { unfold decimal_value. cbn [digits point]. by rewrite num_app, app_length, Ea by done. }
  pose proof (λ y, rounded_cut (N.of_nat p) (num a) (num b) (N.of_nat (List.length b)) (x - Z.of_nat (p + List.length b)) y ltac:(lia) Hq Hr) as Hcut.
  replace (x - Z.of_nat (p + List.length b) + Z.of_N (N.of_nat (List.length b)))%Z with (x - Z.of_nat p)%Z in Hcut by lia.
  assert (∀ v w, v == w → rounded (N.of_nat p) (scaled (num a * 10 ^ N.of_nat (List.length b) + num b) (x - Z.of_nat (p + List.length b))) w →
    rounded (N.of_nat p) (decimal_value (Decimal (a ++ b) x)) v) as Hgo.
  { revert Ev. generalize (decimal_value (Decimal (a ++ b) x)) as V. generalize (scaled (num a * 10 ^ N.of_nat (List.length b) + num b) (x - Z.of_nat (p + List.length b))) as W. clear.
    intros W V Ev v w E [(m & e & Hm & Ew) Hw']. split; [exists m, e; split; [done|by rewrite E]|]. intros y Hy.
    destruct (Hw' y Hy) as [?|[?|[? (m' & e' & Hm' & He' & Ew')]]]; [left|right; left|right; right; split]; [by rewrite E|by rewrite Ev, E..|].
    exists m', e'. split; [done|]. split; [done|]. by rewrite E. }
  rewrite app_length in Hgt. destruct (should_round_up p (a ++ b)).
  - destruct (bump (rev a)) as [t|] eqn:E.
    + apply bump_some in E as (k & c & u & E & Hc & ->). apply (f_equal (@rev _)) in E. rewrite rev_involutive, rev_app_distr, rev_replicate in E. cbn [rev] in *.
      rewrite E in Ha. apply list.Forall_app in Ha as [Ha Hk]. pose proof Ha as [Hu Hc']%list.Forall_app. apply list.Forall_cons in Hc' as [Hc' _].
      destruct (digit_table c Hc') as (_ & _ & H9 & Hd). assert (digit_number c ≠ 9%N) by (intros E9; rewrite E9 in Hd; by apply Hc).
      destruct (digit_small (digit_number c + 1) ltac:(lia)) as [D1 D2]. set (c' := digit (digit_number c + 1)) in *.
      assert (c' ≠ "0"%char) as Hc0 by (intros E0; rewrite E0 in D2; change (digit_number "0"%char) with 0%N in D2; lia).
      assert (decs (rev u ++ [c'])) as Hnew by (apply list.Forall_app; split; [done|by repeat constructor]).
      rewrite E, !app_length, replicate_length in Ea. cbn [List.length] in Ea.
      split; [|split].
      * repeat split; cbn [digits]; [done|by destruct (rev u)| |rewrite last_snoc; congruence].
        destruct (rev u) as [|d w] eqn:Eu; cbn; [congruence|]. rewrite E in H3. done.
      * cbn [digits]. rewrite app_length. cbn [List.length]. lia.
      * eapply Hgo; [|apply Hcut; right; split; [reflexivity|exact Hup]].
        unfold decimal_value. cbn [digits point]. rewrite E, (num_app (rev u ++ [c])) by (done || by apply Forall_replicate). rewrite replicate_length.
        rewrite !num_snoc by done. rewrite D2. pose proof (num_nines k) as H99.
        replace ((num (rev u) * 10 + digit_number c) * 10 ^ N.of_nat k + num (replicate k "9"%char) + 1)%N with ((num (rev u) * 10 + (digit_number c + 1)) * 10 ^ N.of_nat k)%N by lia.
        rewrite scaled_shift. replace (x - Z.of_nat p + Z.of_N (N.of_nat k))%Z with (x - Z.of_nat (List.length (rev u ++ [c'])))%Z; [done|].
        rewrite app_length. cbn [List.length]. lia.
    + apply bump_none in E. apply (f_equal (@rev _)) in E. rewrite rev_involutive, rev_length, rev_replicate in E.
      split; [|split].
      * repeat split; cbn [digits]; [by repeat constructor|done..].
      * cbn. lia.
      * eapply Hgo; [|apply Hcut; right; split; [reflexivity|exact Hup]].
        rewrite E, num_nines, Ea. rewrite <- (N.mul_1_l (10 ^ N.of_nat p)), scaled_shift.
        unfold decimal_value. cbn [digits point]. change (num (chars "1")) with 1%N. cbn [chars List.length list_ascii_of_string].
        replace (x - Z.of_nat p + Z.of_N (N.of_nat p))%Z with (x + 1 - Z.of_nat 1)%Z by lia. done.
  - split; [|split].
    + assert (head a ≠ Some "0"%char) as Hh by (by destruct a). destruct (trim_head a Hh Hna) as [T1 T2].
      repeat split; cbn [digits]; [by apply trim_decs|done|done|apply trim_last].
    + cbn [digits]. destruct (trim_zeros a) as [k E]. apply (f_equal (@List.length _)) in E. rewrite app_length in E. lia.
    + eapply Hgo; [|apply Hcut; left; split; [reflexivity|exact Hup]]. rewrite trim_value by done. by rewrite Ea.
Qed.
