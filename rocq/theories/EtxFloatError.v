(** * Proofs about the error of numbers with a large exponent *)
From stdpp Require Import base list option.
From Coq Require Import Ascii NArith ZArith QArith Qabs Qpower Lqa Lia.
From Verif Require Import GoBase EtxText EtxUtil EtxUtilSpec EtxLex EtxNumProofs EtxFloat EtxFloatSpec EtxFloatProofs.
Local Open Scope Q_scope.

Definition close (δ x v : Q) : Prop := x * (1 - δ) <= v ∧ v <= x * (1 + δ).
Definition approx (δ x : Q) (f : float) : Prop := ∃ m e, f = FFin m e ∧ m ≠ 0%N ∧ close δ x (dyadic m e).
#[local] Instance qle_trans : Transitive Qle := Qle_trans.
Lemma eq_le a b : a == b → a <= b.
Proof. intros E. rewrite E. apply Qle_refl. Qed.
Lemma Qmul_le a b c d : 0 <= a → a <= b → 0 <= c → c <= d → a * c <= b * d.
Proof.
  intros H1 H2 H3 H4. transitivity (b * c); [by apply Qmult_le_compat_r|].
  rewrite (Qmult_comm b c), (Qmult_comm b d). apply Qmult_le_compat_r; [done|lra].
Qed.
Lemma pow2_le a b : (a <= b)%Z → 2 ^ a <= 2 ^ b.
Proof.
  intros H. replace b with (a + Z.of_N (Z.to_N (b - a)))%Z by lia. rewrite pow2_add, pow2_N. pose proof (pow2_pos a).
  assert (1 <= ⌊2 ^ Z.to_N (b - a)⌋) as H1 by (apply (inj_le 1); pose proof (N.pow_nonzero 2 (Z.to_N (b - a))); lia).
  setoid_replace (2 ^ a) with (2 ^ a * 1) at 1 by ring. apply Qmul_le; lra.
Qed.
Lemma pow2_lt_inv a b : 2 ^ a < 2 ^ b → (a < b)%Z.
Proof. intros H. destruct (Z.lt_ge_cases a b) as [|Hge]; [done|]. apply pow2_le in Hge. lra. Qed.
Lemma dyadic_lower m e : m ≠ 0%N → 2 ^ (exp_of m e - 1) <= dyadic m e.
Proof.
  intros Hm. destruct (size_bounds m Hm) as [H _]. apply inj_le in H. rewrite <- pow2_N in H.
  unfold exp_of, dyadic. replace (Z.of_N (N.size m) + e - 1)%Z with (Z.of_N (N.size m - 1) + e)%Z by (assert (N.size m ≠ 0%N) by (by destruct m); lia).
  rewrite pow2_add. apply Qmult_le_compat_r; [done|]. pose proof (pow2_pos e). lra.
Qed.
Lemma dyadic_upper m e : dyadic m e < 2 ^ exp_of m e.
Proof.
  pose proof (N.size_gt m) as H. apply inj_lt in H. rewrite <- pow2_N in H. unfold exp_of, dyadic. rewrite pow2_add. apply Qmult_lt_compat_r; [apply pow2_pos|done].
Qed.
Lemma exp_range m e a b : m ≠ 0%N → 2 ^ a <= dyadic m e → dyadic m e < 2 ^ b → (a < exp_of m e <= b)%Z.
Proof.
  intros Hm H1 H2. pose proof (dyadic_lower m e Hm). pose proof (dyadic_upper m e).
  assert (a < exp_of m e)%Z by (apply pow2_lt_inv; lra). assert (exp_of m e - 1 < b)%Z by (apply pow2_lt_inv; lra). lia.
Qed.

Lemma round_close p m e sticky w :
  (2 <= p)%N → m ≠ 0%N → ⌊m⌋ <= w → w < ⌊m⌋ + 1 → (sticky = false → w == ⌊m⌋) → (cut p m = 0%N → sticky = false) →
  round_bits p m sticky ≠ 0%N ∧ close (2 ^ (- Z.of_N p)) (w * 2 ^ e) (dyadic (round_bits p m sticky) (e + Z.of_N (cut p m))).
Proof.
  intros Hp Hm H1 H2 H3 H4. unfold round_bits. pose proof (pow2_pos e) as He. pose proof (pow2_pos (- Z.of_N p)) as Hpp.
  assert (0 < w) as Hw by (assert (⌊1⌋ <= ⌊m⌋) as HH by (apply inj_le; lia); change ⌊1⌋ with 1 in HH; lra).
  destruct (N.eqb_spec (cut p m) 0) as [E|E].
  - split; [done|]. specialize (H3 (H4 E)). unfold close, dyadic. rewrite E, Z.add_0_r, H3. rewrite H3 in Hw.
    assert (0 <= ⌊m⌋ * 2 ^ e * 2 ^ (- Z.of_N p)) by (apply Qmult_le_0_compat; [apply Qmult_le_0_compat|]; lra). split; lra.
  - assert (N.size m = p + cut p m)%N as Ek by (unfold cut in *; lia). set (k := cut p m) in *. destruct (size_bounds m Hm) as [Hb _]. rewrite Ek in Hb.
    replace (p + k - 1)%N with (p + (k - 1))%N in Hb by lia. rewrite N.pow_add_r in Hb.
    set (h := (2 ^ (k - 1))%N) in *. assert (2 ^ k = 2 * h)%N as Eh by (unfold h; rewrite <- N.pow_succ_r'; f_equal; lia).
    assert (h ≠ 0)%N as Hh by (by apply N.pow_nonzero).
    set (q := (m / 2 ^ k)%N). set (r := (m mod 2 ^ k)%N).
    assert (m = 2 ^ k * q + r)%N as Em by (apply N.div_mod; lia). assert (r < 2 ^ k)%N as Hr by (apply N.mod_lt; lia). rewrite Eh in Em, Hr.
    set (q' := if _ : bool then (q + 1)%N else q).
    assert (w - ⌊h⌋ <= ⌊q'⌋ * (2 * ⌊h⌋) ∧ ⌊q'⌋ * (2 * ⌊h⌋) <= w + ⌊h⌋) as [Ha Hb'].
    { assert (⌊m⌋ == 2 * ⌊h⌋ * ⌊q⌋ + ⌊r⌋) as EmQ by (rewrite Em at 1; rewrite inj_add, !inj_mul; change ⌊2⌋ with 2; ring).
      assert (⌊r⌋ + 1 <= 2 * ⌊h⌋) as HrQ by (assert (r + 1 <= 2 * h)%N as H5%inj_le by lia; rewrite inj_add, inj_mul in H5; exact H5).
      pose proof (inj_le 0 r ltac:(lia)) as Hr0. change ⌊0⌋ with 0 in Hr0.
      unfold q'. destruct (N.ltb_spec h r) as [Hlt|Hge]; cbn [orb].
      - apply inj_lt in Hlt. rewrite inj_add. change ⌊1⌋ with 1. split; lra.
      - destruct (N.eqb_spec h r) as [E'|E']; cbn [andb].
        + destruct sticky; cbn [orb].
          * rewrite inj_add, E'. change ⌊1⌋ with 1. rewrite E' in EmQ, HrQ. split; lra.
          * specialize (H3 eq_refl). destruct (N.odd q); rewrite ?inj_add, E'; change ⌊1⌋ with 1; rewrite E' in EmQ, HrQ; split; lra.
        + assert (r + 1 <= h)%N as H5%inj_le by lia. rewrite inj_add in H5. change ⌊1⌋ with 1 in H5. split; lra. }
    assert (⌊h⌋ <= w * 2 ^ (- Z.of_N p)) as Hhw.
    { apply inj_le in Hb. rewrite inj_mul, <- pow2_N in Hb.
      assert (⌊h⌋ == (2 ^ Z.of_N p * ⌊h⌋) * 2 ^ (- Z.of_N p)) as -> by (transitivity (2 ^ (Z.of_N p + - Z.of_N p) * ⌊h⌋); [rewrite Z.add_opp_diag_r; cbn; ring|rewrite pow2_add; ring]).
      apply Qmult_le_compat_r; lra. }
    assert (dyadic q' (e + Z.of_N k) == ⌊q'⌋ * (2 * ⌊h⌋) * 2 ^ e) as Ed.
    { unfold dyadic. rewrite pow2_add, pow2_N, Eh, inj_mul. change ⌊2⌋ with 2. ring. }
    assert (2 * ⌊h⌋ <= w) as Hw2.
    { assert (2 * h <= m)%N as H5%inj_le. { assert (2 ^ 1 <= 2 ^ p)%N by (apply N.pow_le_mono_r; lia). change (2 ^ 1)%N with 2%N in *. nia. }
      rewrite inj_mul in H5. change ⌊2⌋ with 2 in H5. lra. }
    split.
    + intros E0. rewrite E0 in Ha. change ⌊0⌋ with 0 in Ha. assert (⌊0⌋ < ⌊h⌋) as H5 by (apply inj_lt; lia). change ⌊0⌋ with 0 in H5. lra.
    + unfold close. rewrite Ed. split.
      * transitivity ((w - ⌊h⌋) * 2 ^ e); [|apply Qmult_le_compat_r; lra]. transitivity ((w - w * 2 ^ (- Z.of_N p)) * 2 ^ e); [apply eq_le; ring|apply Qmult_le_compat_r; lra].
      * transitivity ((w + ⌊h⌋) * 2 ^ e); [apply Qmult_le_compat_r; lra|]. transitivity ((w + w * 2 ^ (- Z.of_N p)) * 2 ^ e); [apply Qmult_le_compat_r; lra|apply eq_le; ring].
Qed.
Lemma make_approx p m e sticky w :
  (2 <= p)%N → m ≠ 0%N → ⌊m⌋ <= w → w < ⌊m⌋ + 1 → (sticky = false → w == ⌊m⌋) → (cut p m = 0%N → sticky = false) →
  (min_exp <= exp_of m e)%Z → (exp_of m e < max_exp)%Z →
  approx (2 ^ (- Z.of_N p)) (w * 2 ^ e) (make p m e sticky).
Proof.
  intros ? ? ? ? ? ? ? ?. rewrite make_fin by done. destruct (round_close p m e sticky w) as [? ?]; try done. by eexists _, _.
Qed.

Definition small : Q := 2 ^ (-117).
Lemma close_weaken δ δ' x v : 0 <= x → δ <= δ' → close δ x v → close δ' x v.
Proof.
  intros Hx H [H1 H2]. pose proof (Qmul_le 0 x 0 (δ' - δ) ltac:(lra) Hx ltac:(lra) ltac:(lra)) as H3. split; lra.
Qed.
Lemma close_mul η x y v v' w ε :
  0 <= x → 0 <= y → 0 <= ε → ε <= η → η <= 1 # 8 → close η x v → close η y v' → close ε (v * v') w → close (4 * η) (x * y) w.
Proof.
  intros Hx Hy He1 He2 He3 [H1 H2] [H3 H4] [H5 H6].
  assert (0 <= x * (1 - η)) as Hx' by (apply Qmult_le_0_compat; lra). assert (0 <= y * (1 - η)) as Hy' by (apply Qmult_le_0_compat; lra).
  assert (x * (1 - η) * (y * (1 - η)) <= v * v') as Ha by (by apply Qmul_le). assert (v * v' <= x * (1 + η) * (y * (1 + η))) as Hb by (apply Qmul_le; lra).
  assert (0 <= x * y) as Hxy by (by apply Qmult_le_0_compat). assert (0 <= v * v') as Hv by (apply Qmult_le_0_compat; lra).
  split.
  - transitivity (x * (1 - η) * (y * (1 - η)) * (1 - η)).
    + transitivity (x * y * ((1 - η) * (1 - η) * (1 - η))); [|apply eq_le; ring]. rewrite !(Qmult_comm (x * y)). apply Qmult_le_compat_r; [|done]. nra.
    + transitivity (v * v' * (1 - ε)); [|done]. apply Qmul_le; [by apply Qmult_le_0_compat|done|lra|lra].
  - transitivity (x * (1 + η) * (y * (1 + η)) * (1 + η)).
    + transitivity (v * v' * (1 + ε)); [done|]. apply Qmul_le; [done|done|lra|lra].
    + transitivity (x * y * ((1 + η) * (1 + η) * (1 + η))); [apply eq_le; ring|]. rewrite !(Qmult_comm (x * y)). apply Qmult_le_compat_r; [|done]. nra.
Qed.
Lemma mul_approx p η x y f g (b : Z) :
  (117 <= p)%N → small <= η → η <= 1 # 8 → 1 <= x → 1 <= y → x * y <= 2 ^ b → (b + 2 < max_exp)%Z →
  approx η x f → approx η y g → approx (4 * η) (x * y) (mul p f g).
Proof.
  intros Hp He1 He2 Hx Hy Hb HB (m & e & -> & Hm & Hv) (m' & e' & -> & Hm' & Hv'). cbn [mul].
  assert (m * m' ≠ 0)%N as Hmm by (by apply N.neq_mul_0).
  assert (dyadic (m * m') (e + e') == dyadic m e * dyadic m' e') as Ed by (unfold dyadic; rewrite pow2_add, inj_mul; ring).
  assert (0 < small) as Hs by apply pow2_pos.
  assert (2 ^ (-2) <= dyadic (m * m') (e + e') ∧ dyadic (m * m') (e + e') < 2 ^ (b + 2)) as [Hl Hu].
  { rewrite Ed, pow2_add. change (2 ^ 2) with 4. change (2 ^ (-2)) with ((1 # 2) * (1 # 2)). destruct Hv as [Ha Hb1], Hv' as [Hc Hd].
    assert (∀ z, 1 <= z → (1 # 2) <= z * (1 - η) ∧ z * (1 + η) <= z * (9 # 8)) as HH.
    { intros z Hz. split; [|apply Qmul_le; lra]. transitivity (1 * (1 - η)); [lra|]. apply Qmult_le_compat_r; lra. }
    destruct (HH x Hx), (HH y Hy). split; [apply Qmul_le; lra|].
    apply Qle_lt_trans with (x * (9 # 8) * (y * (9 # 8))); [apply Qmul_le; lra|].
    apply Qle_lt_trans with (x * y * (81 # 64)); [apply eq_le; ring|]. pose proof (pow2_pos b).
    apply Qle_lt_trans with (2 ^ b * (81 # 64)); [|lra]. apply Qmult_le_compat_r; lra. }
  destruct (exp_range _ _ _ _ Hmm Hl Hu) as [H1 H2]. assert (min_exp < -2)%Z by done.
  destruct (make_approx p (m * m') (e + e') false ⌊m * m'⌋) as (m1 & e1 & E1 & Hm1 & Hc); [lia|done|lra|lra|done|done|lia|lia|].
  exists m1, e1. split; [done|]. split; [done|].
  eapply (close_mul η x y _ _ _ (2 ^ (- Z.of_N p))); [lra|lra|pose proof (pow2_pos (- Z.of_N p)); lra| |done|exact Hv|exact Hv'|].
  - transitivity small; [|done]. apply pow2_le. lia.
  - unfold close in *. unfold dyadic in Ed at 1. by rewrite <- Ed.
Qed.
Fixpoint bits (n : positive) : N := match n with xH => 1 | xO n | xI n => 1 + bits n end.
Lemma one_le_mul x y : 1 <= x → 1 <= y → 1 <= x * y.
Proof. intros. change 1 with (1 * 1). apply Qmul_le; lra. Qed.
Lemma pow_xO x n : x ^ Z.pos n~0 == (x * x) ^ Z.pos n.
Proof. cbn. rewrite Qmult_power_positive. done. Qed.
Lemma pow_xI x n : x ^ Z.pos n~1 == x * (x * x) ^ Z.pos n.
Proof. cbn. rewrite Qmult_power_positive. done. Qed.
Lemma one_le_pow x n : 1 <= x → 1 <= x ^ Z.pos n.
Proof.
  revert x. induction n as [n IH|n IH|]; intros x Hx; [| |done].
  - rewrite pow_xI. apply one_le_mul; [done|]. by apply IH, one_le_mul.
  - rewrite pow_xO. by apply IH, one_le_mul.
Qed.
Lemma le_pow x n : 1 <= x → x <= x ^ Z.pos n.
Proof.
  revert x. induction n as [n IH|n IH|]; intros x Hx; [| |apply Qle_refl].
  - rewrite pow_xI. transitivity (x * 1); [apply eq_le; ring|]. apply Qmul_le; [lra|lra|lra|]. by apply one_le_pow, one_le_mul.
  - rewrite pow_xO. transitivity (x * x); [|by apply IH, one_le_mul]. transitivity (x * 1); [apply eq_le; ring|]. apply Qmul_le; lra.
Qed.
Lemma approx_eq δ δ' x x' f : δ == δ' → x == x' → approx δ x f → approx δ' x' f.
Proof. intros E E' (m & e & H1 & H2 & H3). exists m, e. split; [done|]. split; [done|]. unfold close in *. by rewrite <- E, <- E'. Qed.
Lemma approx_weaken δ δ' x f : 0 <= x → δ <= δ' → approx δ x f → approx δ' x f.
Proof. intros Hx Hd (m & e & H1 & H2 & H3). exists m, e. split; [done|]. split; [done|]. by eapply close_weaken. Qed.
Lemma pow4_le n : 4 <= 4 ^ Z.pos n.
Proof. apply le_pow. lra. Qed.
Fixpoint pos_bits (n : positive) : positive := match n with xH => 1%positive | xO n | xI n => Pos.succ (pos_bits n) end.
Lemma pow4_succ n : 4 ^ Z.pos (Pos.succ n) == 4 * 4 ^ Z.pos n.
Proof. rewrite Pos2Z.inj_succ, <- Z.add_1_r, Qpower_plus by done. change (4 ^ 1) with 4. ring. Qed.
Lemma pow5_loop_approx n : ∀ z f x y η (b : Z),
  small <= η → η * 4 ^ Z.pos (pos_bits n) <= 1 # 2 → 1 <= x → 1 <= y → x * y ^ Z.pos n <= 2 ^ b → (b + 2 < max_exp)%Z →
  approx η x z → approx η y f → approx (η * 4 ^ Z.pos (pos_bits n)) (x * y ^ Z.pos n) (pow5_loop 117 z f n).
Proof.
  assert (0 < small) as Hs by apply pow2_pos.
  assert (∀ η n, small <= η → η * 4 ^ Z.pos n <= 1 # 2 → η <= 1 # 8) as H8.
  { intros η k H1 H2. pose proof (pow4_le k) as H3. pose proof (Qmul_le η η 4 (4 ^ Z.pos k) ltac:(lra) ltac:(lra) ltac:(lra) H3). lra. }
  induction n as [n IH|n IH|]; intros z f x y η b He1 He2 Hx Hy Hb HB Hz Hf; cbn [pow5_loop pos_bits] in *.
  - pose proof (H8 _ _ He1 He2) as He3. rewrite pow4_succ in He2.
    assert (1 <= (y * y) ^ Z.pos n) as Hp by (by apply one_le_pow, one_le_mul).
    assert (x * y * (y * y) ^ Z.pos n <= 2 ^ b) as Hb' by (rewrite pow_xI in Hb; lra).
    assert (1 <= x * y) as Hxy by (by apply one_le_mul).
    eapply approx_eq; [|rewrite pow_xI; symmetry; apply Qmult_assoc|apply (IH _ _ (x * y) (y * y) (4 * η) b)].
    + rewrite pow4_succ. ring.
    + lra.
    + lra.
    + done.
    + by apply one_le_mul.
    + done.
    + done.
    + apply (mul_approx 117 η x y _ _ b); try done. transitivity (x * y * 1); [apply eq_le; ring|]. transitivity (x * y * (y * y) ^ Z.pos n); [apply Qmul_le; lra|done].
    + apply (mul_approx (117 + 64) η y y _ _ b); try done. transitivity ((y * y) ^ Z.pos n); [by apply le_pow, one_le_mul|].
      transitivity (1 * (y * y) ^ Z.pos n); [apply eq_le; ring|]. transitivity (x * y * (y * y) ^ Z.pos n); [|done]. apply Qmult_le_compat_r; lra.
  - pose proof (H8 _ _ He1 He2) as He3. rewrite pow4_succ in He2.
    assert (1 <= (y * y) ^ Z.pos n) as Hp by (by apply one_le_pow, one_le_mul).
    assert (x * (y * y) ^ Z.pos n <= 2 ^ b) as Hb' by (by rewrite pow_xO in Hb).
    eapply approx_eq; [|rewrite pow_xO; reflexivity|apply (IH _ _ x (y * y) (4 * η) b)].
    + rewrite pow4_succ. ring.
    + lra.
    + lra.
    + done.
    + by apply one_le_mul.
    + done.
    + done.
    + eapply approx_weaken; [| |exact Hz]; lra.
    + apply (mul_approx (117 + 64) η y y _ _ b); try done. transitivity ((y * y) ^ Z.pos n); [by apply le_pow, one_le_mul|].
      transitivity (1 * (y * y) ^ Z.pos n); [apply eq_le; ring|]. transitivity (x * (y * y) ^ Z.pos n); [|done]. apply Qmult_le_compat_r; lra.
  - eapply approx_eq; [| |apply (mul_approx 117 η x y _ _ b)]; try done.
    + change (4 ^ 1) with 4. ring.
    + by apply (H8 _ 1%positive).
Qed.
Lemma pos_bits_bound n k : (N.pos n < 2 ^ k)%N → (N.pos (pos_bits n) <= k)%N.
Proof.
  revert k. induction n as [n IH|n IH|]; intros k H; cbn [pos_bits].
  - assert (k ≠ 0)%N by (intros ->; done). specialize (IH (N.pred k)). replace k with (N.succ (N.pred k)) in H by lia. rewrite N.pow_succ_r' in H. lia.
  - assert (k ≠ 0)%N by (intros ->; done). specialize (IH (N.pred k)). replace k with (N.succ (N.pred k)) in H by lia. rewrite N.pow_succ_r' in H. lia.
  - assert (k ≠ 0)%N by (intros ->; done). lia.
Qed.
Lemma exact_approx m e δ : m ≠ 0%N → 0 <= δ → approx δ (dyadic m e) (FFin m e).
Proof.
  intros Hm Hd. exists m, e. split; [done|]. split; [done|]. assert (0 <= dyadic m e * δ).
  { apply Qmult_le_0_compat; [|done]. pose proof (dyadic_lower m e Hm). pose proof (pow2_pos (exp_of m e - 1)). lra. }
  split; lra.
Qed.
Lemma pow4_mono a b : (a <= b)%positive → 4 ^ Z.pos a <= 4 ^ Z.pos b.
Proof.
  intros H. destruct (decide (a = b)) as [->|]; [apply Qle_refl|]. replace (Z.pos b) with (Z.pos a + Z.pos (b - a))%Z by lia. rewrite Qpower_plus by done.
  pose proof (one_le_pow 4 (b - a) ltac:(lra)). pose proof (one_le_pow 4 a ltac:(lra)). transitivity (4 ^ Z.pos a * 1); [apply eq_le; ring|]. apply Qmul_le; lra.
Qed.
Lemma pow5_approx n : (N.pos n < 2 ^ 29)%N → approx (2 ^ (-59)) (5 ^ Z.pos n) (pow5 117 (N.pos n)).
Proof.
  intros Hn. unfold pow5. destruct (N.pos n - 27)%N as [|k] eqn:E.
  - eapply approx_eq; [reflexivity| |apply exact_approx; [by apply N.pow_nonzero|pose proof (pow2_pos (-59)); lra]].
    unfold dyadic. rewrite <- pow_N. change (2 ^ 0) with 1. change ⌊5⌋ with 5. change (Z.of_N (N.pos n)) with (Z.pos n). ring.
  - assert (Z.pos n = 27 + Z.pos k)%Z as En by lia.
    assert (N.pos (pos_bits k) <= 29)%N as Hk by (apply pos_bits_bound; lia).
    pose proof (pow4_mono (pos_bits k) 29 ltac:(lia)) as H4. assert (small * 4 ^ 29 == 2 ^ (-59)) as Es by (vm_compute; reflexivity).
    assert (0 < small) as Hs by apply pow2_pos.
    assert (small * 4 ^ Z.pos (pos_bits k) <= 2 ^ (-59)) as H5.
    { rewrite <- Es. apply Qmul_le; try lra. pose proof (pow4_le (pos_bits k)). lra. }
    assert (5 ^ Z.pos n == 5 ^ 27 * 5 ^ Z.pos k) as Ep by (by rewrite En, Qpower_plus).
    assert (2 ^ (-59) <= 1 # 2) as H6 by done.
    eapply approx_weaken; [| |eapply approx_eq; [reflexivity|symmetry; exact Ep|apply (pow5_loop_approx k _ _ (5 ^ 27) 5 small (3 * Z.pos n))]].
    + pose proof (one_le_pow 5 n ltac:(lra)). lra.
    + done.
    + lra.
    + lra.
    + done.
    + done.
    + rewrite <- Ep. transitivity (8 ^ Z.pos n).
      * clear. induction n as [|n IH] using Pos.peano_ind; [done|]. rewrite Pos2Z.inj_succ, <- Z.add_1_r, !Qpower_plus by done.
        pose proof (one_le_pow 5 n ltac:(lra)). apply Qmul_le; [lra|done|done|done].
      * change 8 with (2 ^ 3). rewrite <- Qpower_mult. apply Qle_refl.
    + assert (max_exp = 2 ^ 31 - 1)%Z by done. lia.
    + eapply approx_eq; [reflexivity| |apply (exact_approx (5 ^ 27) 0); [done|lra]]. by vm_compute.
    + eapply approx_eq; [reflexivity| |apply (exact_approx 5 0); [done|lra]]. by vm_compute.
Qed.

Lemma mul_last m e y f :
  m ≠ 0%N → 1 <= y → (min_exp + 2 < Z.of_N (N.size m) + e)%Z → (∃ b, y <= 2 ^ b ∧ (Z.of_N (N.size m) + e + b + 1 < max_exp)%Z) →
  approx (2 ^ (-59)) y f → approx (2 ^ (-52)) (dyadic m e * y) (mul 53 (FFin m e) f).
Proof.
  intros Hm Hy Hmin (b & Hb & Hmax) (m' & e' & -> & Hm' & [Hv1 Hv2]). cbn [mul].
  assert (m * m' ≠ 0)%N as Hmm by (by apply N.neq_mul_0).
  assert (dyadic (m * m') (e + e') == dyadic m e * dyadic m' e') as Ed by (unfold dyadic; rewrite pow2_add, inj_mul; ring).
  assert (2 ^ (-59) <= 1 # 2) as Hs by done. pose proof (pow2_pos (-59)) as Hs0.
  pose proof (dyadic_lower m e Hm) as Hd1. pose proof (dyadic_upper m e) as Hd2. pose proof (pow2_pos (exp_of m e - 1)) as Hd0.
  assert ((1 # 2) <= dyadic m' e' ∧ dyadic m' e' <= 2 ^ (b + 1)) as [Hl Hu].
  { split.
    - transitivity (1 * (1 - 2 ^ (-59))); [lra|]. transitivity (y * (1 - 2 ^ (-59))); [apply Qmult_le_compat_r; lra|done].
    - rewrite pow2_add. change (2 ^ 1) with 2. transitivity (y * (1 + 2 ^ (-59))); [done|]. apply Qmul_le; lra. }
  assert (min_exp + 1 < exp_of (m * m') (e + e') ∧ exp_of (m * m') (e + e') <= exp_of m e + (b + 1))%Z as [H1 H2].
  { assert (2 ^ (exp_of m e - 2) <= dyadic (m * m') (e + e')) as HA.
    { rewrite Ed. replace (exp_of m e - 2)%Z with ((exp_of m e - 1) + (-1))%Z by lia. rewrite pow2_add. change (2 ^ (-1)) with (1 # 2). apply Qmul_le; lra. }
    assert (dyadic (m * m') (e + e') < 2 ^ (exp_of m e + (b + 1))) as HB.
    { rewrite Ed, pow2_add. apply Qle_lt_trans with (dyadic m e * 2 ^ (b + 1)); [apply Qmul_le; lra|]. apply Qmult_lt_compat_r; [apply pow2_pos|done]. }
    destruct (exp_range _ _ _ _ Hmm HA HB). unfold exp_of in *. lia. }
  destruct (make_approx 53 (m * m') (e + e') false ⌊m * m'⌋) as (m1 & e1 & E1 & Hm1 & [Hc1 Hc2]); [done|done|lra|lra|done|done|lia|unfold exp_of in *; lia|].
  exists m1, e1. split; [done|]. split; [done|]. change (- Z.of_N 53)%Z with (-53)%Z in *. fold (dyadic (m * m') (e + e')) in Hc1, Hc2. rewrite Ed in Hc1, Hc2.
  set (a := dyadic m e) in *. set (v := dyadic m' e') in *. set (u := dyadic m1 e1) in *. pose proof (pow2_pos (-53)) as H53.
  assert (2 ^ (-53) <= 1 # 2) as H53' by done.
  assert (0 <= a * y) as Hay by (apply Qmult_le_0_compat; lra).
  assert (1 - 2 ^ (-52) <= (1 - 2 ^ (-59)) * (1 - 2 ^ (-53))) as K1 by done. assert ((1 + 2 ^ (-59)) * (1 + 2 ^ (-53)) <= 1 + 2 ^ (-52)) as K2 by done.
  split.
  - transitivity (a * (y * (1 - 2 ^ (-59))) * (1 - 2 ^ (-53))).
    + transitivity (a * y * ((1 - 2 ^ (-59)) * (1 - 2 ^ (-53)))); [|apply eq_le; ring]. rewrite !(Qmult_comm (a * y)). by apply Qmult_le_compat_r.
    + transitivity (a * v * (1 - 2 ^ (-53))); [|done]. apply Qmult_le_compat_r; [|lra]. apply Qmul_le; [lra|lra| |done]. apply Qmult_le_0_compat; lra.
  - transitivity (a * (y * (1 + 2 ^ (-59))) * (1 + 2 ^ (-53))).
    + transitivity (a * v * (1 + 2 ^ (-53))); [done|]. apply Qmult_le_compat_r; [|lra]. apply Qmul_le; lra.
    + transitivity (a * y * ((1 + 2 ^ (-59)) * (1 + 2 ^ (-53)))); [apply eq_le; ring|]. rewrite !(Qmult_comm (a * y)). by apply Qmult_le_compat_r.
Qed.
Lemma quo_make p m e m' e' : (2 <= p)%N → m ≠ 0%N → m' ≠ 0%N →
  (∃ a b, 2 ^ a <= dyadic m e / dyadic m' e' ∧ dyadic m e / dyadic m' e' < 2 ^ b ∧ (min_exp + 1 < a)%Z ∧ (b < max_exp)%Z) →
  approx (2 ^ (- Z.of_N p)) (dyadic m e / dyadic m' e') (quo p (FFin m e) (FFin m' e')).
Proof.
  intros Hp Hm Hm' (a & b & Ha & Hb & HA & HB). cbn [quo]. set (s := (N.size m' + p + 1)%N). set (d := (m * 2 ^ s)%N).
  destruct (size_bounds m' Hm') as [_ Hb'].
  assert (0 < 2 ^ N.size m')%N as Hz by (by apply N.neq_0_lt_0, N.pow_nonzero).
  assert (2 ^ s = 2 ^ N.size m' * 2 ^ (p + 1))%N as Es by (rewrite <- N.pow_add_r; f_equal; unfold s; lia).
  assert (2 ^ (p + 1) <= d / m')%N as Hq.
  { apply N.div_le_lower_bound; [done|]. unfold d. rewrite Es. nia. }
  assert (d / m' ≠ 0)%N as Hq0 by (pose proof (N.pow_nonzero 2 (p + 1)); lia).
  assert (p + 1 < N.size (d / m'))%N as Hsz.
  { destruct (size_bounds _ Hq0) as [_ H]. destruct (N.le_gt_cases (N.size (d / m')) (p + 1)) as [Hle|]; [|done].
    assert (2 ^ N.size (d / m') <= 2 ^ (p + 1))%N by (by apply N.pow_le_mono_r). lia. }
  assert (0 < ⌊m'⌋) as HmQ by (apply (inj_lt 0); lia).
  pose proof (pow2_pos e') as He'.
  assert (dyadic m e / dyadic m' e' == (⌊d⌋ / ⌊m'⌋) * 2 ^ (e - e' - Z.of_N s)) as Ex.
  { unfold d, dyadic. rewrite inj_mul, <- pow2_N. replace e with (Z.of_N s + e' + (e - e' - Z.of_N s))%Z at 1 by lia. rewrite !pow2_add. field. split; lra. }
  pose proof (N.div_mod d m' Hm') as Ed. pose proof (N.mod_lt d m' Hm') as Hlt. set (q := (d / m')%N) in *. set (r := (d mod m')%N) in *.
  assert (⌊d⌋ == ⌊m'⌋ * ⌊q⌋ + ⌊r⌋) as EdQ by (rewrite Ed at 1; by rewrite inj_add, inj_mul).
  assert (⌊d⌋ / ⌊m'⌋ == ⌊q⌋ + ⌊r⌋ / ⌊m'⌋) as Eq by (rewrite EdQ; field; lra).
  pose proof (inj_le 0 r ltac:(lia)) as Hr0. change ⌊0⌋ with 0 in Hr0. apply inj_lt in Hlt.
  assert (0 <= ⌊r⌋ / ⌊m'⌋) as H1 by (apply Qle_shift_div_l; [done|lra]). assert (⌊r⌋ / ⌊m'⌋ < 1) as H2 by (apply Qlt_shift_div_r; [done|lra]).
  set (x := (e - e' - Z.of_N s)%Z) in *. pose proof (pow2_pos x) as Hx.
  assert (dyadic q x <= dyadic m e / dyadic m' e' ∧ dyadic m e / dyadic m' e' < 2 * dyadic q x) as [Hw1 Hw2].
  { rewrite Ex, Eq. unfold dyadic. split; [apply Qmult_le_compat_r; lra|]. rewrite Qmult_assoc. apply Qmult_lt_compat_r; [done|].
    assert (⌊1⌋ <= ⌊q⌋) as H3 by (apply inj_le; lia). change ⌊1⌋ with 1 in H3. lra. }
  assert (a - 1 < exp_of q x <= b)%Z as [H3 H4].
  { apply exp_range; [done| |lra]. replace (a - 1)%Z with (a + -1)%Z by lia. rewrite pow2_add. change (2 ^ (-1)) with (1 # 2). lra. }
  eapply approx_eq; [reflexivity|symmetry; exact Ex|].
  apply make_approx; [done|done|lra|lra| | |lia|lia].
  - intros E%negb_false_iff%N.eqb_eq. rewrite Eq, E. change ⌊0⌋ with 0. unfold Qdiv. ring.
  - unfold cut. lia.
Qed.
Lemma quo_last m e y f :
  m ≠ 0%N → 1 <= y → (Z.of_N (N.size m) + e + 2 < max_exp)%Z → (∃ b, y <= 2 ^ b ∧ (min_exp + b + 5 < Z.of_N (N.size m) + e)%Z) →
  approx (2 ^ (-59)) y f → approx (2 ^ (-52)) (dyadic m e / y) (quo 53 (FFin m e) f).
Proof.
  intros Hm Hy Hmax (b & Hb & Hmin) (m' & e' & -> & Hm' & [Hv1 Hv2]).
  assert (2 ^ (-59) <= 1 # 2) as Hs by done. pose proof (pow2_pos (-59)) as Hs0.
  pose proof (dyadic_lower m e Hm) as Hd1. pose proof (dyadic_upper m e) as Hd2. pose proof (pow2_pos (exp_of m e - 1)) as Hd0. pose proof (pow2_pos b) as Hb0.
  assert ((1 # 2) <= dyadic m' e' ∧ dyadic m' e' <= 2 ^ (b + 1)) as [Hl Hu].
  { split.
    - transitivity (1 * (1 - 2 ^ (-59))); [lra|]. transitivity (y * (1 - 2 ^ (-59))); [apply Qmult_le_compat_r; lra|done].
    - rewrite pow2_add. change (2 ^ 1) with 2. transitivity (y * (1 + 2 ^ (-59))); [done|]. apply Qmul_le; lra. }
  destruct (quo_make 53 m e m' e') as (m1 & e1 & E1 & Hm1 & [Hc1 Hc2]); [done..| |].
  { exists (exp_of m e - 1 - (b + 1))%Z, (exp_of m e + 1)%Z. split; [|split; [|unfold exp_of; lia]].
    - apply Qle_shift_div_l; [lra|]. transitivity (2 ^ (exp_of m e - 1 - (b + 1)) * 2 ^ (b + 1)).
      + pose proof (pow2_pos (exp_of m e - 1 - (b + 1))). apply Qmul_le; lra.
      + rewrite <- pow2_add. replace (exp_of m e - 1 - (b + 1) + (b + 1))%Z with (exp_of m e - 1)%Z by lia. done.
    - apply Qlt_shift_div_r; [lra|]. rewrite pow2_add. change (2 ^ 1) with 2. apply Qlt_le_trans with (2 ^ exp_of m e); [done|].
      pose proof (pow2_pos (exp_of m e)). transitivity (2 ^ exp_of m e * 2 * (1 # 2)); [apply eq_le; ring|]. apply Qmul_le; lra. }
  exists m1, e1. split; [done|]. split; [done|]. change (- Z.of_N 53)%Z with (-53)%Z in *.
  set (a := dyadic m e) in *. set (v := dyadic m' e') in *. set (u := dyadic m1 e1) in *. pose proof (pow2_pos (-53)) as H53.
  assert (2 ^ (-53) <= 1 # 2) as H53' by done.
  assert (0 < v) as Hv0 by lra. assert (0 < y) as Hy0 by lra.
  assert (0 < / y) as Hiy by (by apply Qinv_lt_0_compat). assert (0 < / v) as Hiv by (by apply Qinv_lt_0_compat).
  assert (0 <= a * / y) as Hay by (apply Qmult_le_0_compat; lra).
  (* 1/v against 1/y *)
  assert (/ y * / (1 + 2 ^ (-59)) <= / v) as K3.
  { rewrite <- Qinv_mult_distr. setoid_replace (/ v) with (1 / v) by (unfold Qdiv; ring). apply Qle_shift_div_l; [done|].
    assert (0 < / (y * (1 + 2 ^ (-59)))) by (apply Qinv_lt_0_compat; lra).
    transitivity (/ (y * (1 + 2 ^ (-59))) * (y * (1 + 2 ^ (-59)))); [apply Qmul_le; lra|]. apply eq_le. field. split; lra. }
  assert (/ v <= / y * / (1 - 2 ^ (-59))) as K4.
  { rewrite <- Qinv_mult_distr. assert (0 < y * (1 - 2 ^ (-59))) as H0.
    { apply Qlt_le_trans with (1 * (1 - 2 ^ (-59))); [lra|]. apply Qmult_le_compat_r; lra. }
    setoid_replace (/ (y * (1 - 2 ^ (-59)))) with (1 / (y * (1 - 2 ^ (-59)))) by (unfold Qdiv; ring). apply Qle_shift_div_l; [done|].
    transitivity (/ v * v); [apply Qmul_le; lra|]. apply eq_le. field. lra. }
  assert (1 - 2 ^ (-52) <= / (1 + 2 ^ (-59)) * (1 - 2 ^ (-53))) as K1 by done. assert (/ (1 - 2 ^ (-59)) * (1 + 2 ^ (-53)) <= 1 + 2 ^ (-52)) as K2 by done.
  unfold close, Qdiv in *. assert (0 < / (1 + 2 ^ (-59))) as K5 by done.
  split.
  - transitivity (a * (/ y * / (1 + 2 ^ (-59))) * (1 - 2 ^ (-53))).
    + transitivity (a * / y * (/ (1 + 2 ^ (-59)) * (1 - 2 ^ (-53)))); [|apply eq_le; ring]. rewrite !(Qmult_comm (a * / y)). by apply Qmult_le_compat_r.
    + transitivity (a * / v * (1 - 2 ^ (-53))); [|done]. apply Qmult_le_compat_r; [|lra]. apply Qmul_le; [lra|lra| |done]. apply Qmult_le_0_compat; lra.
  - transitivity (a * (/ y * / (1 - 2 ^ (-59))) * (1 + 2 ^ (-53))).
    + transitivity (a * / v * (1 + 2 ^ (-53))); [done|]. apply Qmult_le_compat_r; [|lra]. apply Qmul_le; lra.
    + transitivity (a * / y * (/ (1 - 2 ^ (-59)) * (1 + 2 ^ (-53)))); [apply eq_le; ring|]. rewrite !(Qmult_comm (a * / y)). by apply Qmult_le_compat_r.
Qed.
Lemma pow5_upper n : 5 ^ Z.pos n <= 2 ^ (3 * Z.pos n).
Proof.
  transitivity (8 ^ Z.pos n).
  - induction n as [|n IH] using Pos.peano_ind; [done|]. rewrite Pos2Z.inj_succ, <- Z.add_1_r, !Qpower_plus by done.
    pose proof (one_le_pow 5 n ltac:(lra)). apply Qmul_le; [lra|done|done|done].
  - change 8 with (2 ^ 3). rewrite <- Qpower_mult. apply Qle_refl.
Qed.
Lemma approx_off x f : approx (2 ^ (-52)) x f → ∃ v, finite_value f = Some v ∧ off_by (2 ^ (-52)) x v.
Proof.
  intros (m & e & -> & _ & H1 & H2). eexists. split; [done|]. unfold off_by. apply Qabs_Qle_condition. split; lra.
Qed.
Lemma float_close s n : literal s n → (Z.abs (exponent n - Z.of_nat (fraction n)) < 2 ^ 28)%Z → (N.of_nat (length s) < 2 ^ 27)%N →
  ∃ v, finite_value (float_of n) = Some v ∧ off_by (2 ^ (-52)) (denoted n) v.
Proof.
  intros Hl Hd Hs. destruct (literal_shape s n Hl) as (E1 & E2 & Hm). unfold float_of, denoted. rewrite E1, E2.
  set (d := (exponent n - Z.of_nat (fraction n))%Z) in *. set (m := mantissa n) in *.
  destruct (N.eqb_spec m 0) as [E|Hm0].
  { exists 0. split; [done|]. unfold off_by. rewrite E. change ⌊0⌋ with 0. apply Qabs_Qle_condition. split; lra. }
  assert (N.size m <= 2 ^ 29)%N as Hz.
  { transitivity (4 * N.of_nat (length s))%N; [|lia]. apply size_le. rewrite N.pow_mul_r. done. }
  assert (max_exp = 2 ^ 31 - 1)%Z as EM by done. assert (min_exp = - 2 ^ 31)%Z as Em by done.
  apply approx_off. destruct d as [|k|k] eqn:Ed.
  - eapply approx_weaken; [| |apply make_approx]; try done; [|lra|lra|unfold exp_of; lia..].
    pose proof (inj_le 0 m ltac:(lia)) as Hr0. change ⌊0⌋ with 0 in Hr0. change (10 ^ 0) with 1. lra.
  - eapply approx_eq; [reflexivity| |apply (mul_last m (Z.pos k) (5 ^ Z.pos k))].
    + rewrite ten_pow. unfold dyadic. ring.
    + done.
    + apply one_le_pow. lra.
    + lia.
    + exists (3 * Z.pos k)%Z. split; [apply pow5_upper|lia].
    + apply pow5_approx. lia.
  - eapply approx_eq; [reflexivity| |apply (quo_last m (Z.neg k) (5 ^ Z.pos k))].
    + rewrite ten_pow. unfold dyadic. change (5 ^ Z.neg k) with (5 ^ (- Z.pos k)). rewrite (Qpower_opp 5). unfold Qdiv. ring.
    + done.
    + apply one_le_pow. lra.
    + lia.
    + exists (3 * Z.pos k)%Z. split; [apply pow5_upper|lia].
    + apply pow5_approx. lia.
Qed.
