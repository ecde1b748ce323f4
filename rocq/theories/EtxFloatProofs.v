(** * Proofs about the value of numbers *)
From stdpp Require Import base list option.
From Coq Require Import Ascii String NArith ZArith QArith Qabs Qpower Lqa Lia.
From Verif Require Import GoBase EtxText EtxUtil EtxUtilSpec EtxLex EtxNumProofs EtxFloat EtxFloatSpec.
Local Open Scope string_scope.
Local Open Scope list_scope.
Local Open Scope Q_scope.

Notation "⌊ m ⌋" := (inject_Z (Z.of_N m)) (format "⌊ m ⌋").
Lemma pow2_pos e : 0 < 2 ^ e.
Proof. by apply Qpower_0_lt. Qed.
Lemma pow2_add a b : 2 ^ (a + b) == 2 ^ a * 2 ^ b.
Proof. by apply Qpower_plus. Qed.
Lemma pow_N b k : inject_Z (Z.of_N b) ^ (Z.of_N k) == ⌊b ^ k⌋.
Proof. rewrite N2Z.inj_pow. rewrite Zpower_Qpower by lia. done. Qed.
Lemma pow2_N k : 2 ^ (Z.of_N k) == ⌊2 ^ k⌋.
Proof. exact (pow_N 2 k). Qed.
Lemma inj_le a b : (a <= b)%N → ⌊a⌋ <= ⌊b⌋.
Proof. intros H. rewrite <- Zle_Qle. lia. Qed.
Lemma inj_lt a b : (a < b)%N → ⌊a⌋ < ⌊b⌋.
Proof. intros H. rewrite <- Zlt_Qlt. lia. Qed.
Lemma inj_add a b : ⌊a + b⌋ == ⌊a⌋ + ⌊b⌋.
Proof. rewrite N2Z.inj_add. by rewrite inject_Z_plus. Qed.
Lemma inj_mul a b : ⌊a * b⌋ == ⌊a⌋ * ⌊b⌋.
Proof. rewrite N2Z.inj_mul. by rewrite inject_Z_mult. Qed.
Lemma abs_case (x : Q) : 0 <= x ∧ Qabs x == x ∨ x < 0 ∧ Qabs x == - x.
Proof.
  destruct (Qlt_le_dec x 0) as [H|H]; [right|left]; (split; [done|]); [apply Qabs_neg; lra|by apply Qabs_pos].
Qed.

(** ** The nearest number *)
(** In units of the last place: *)
Lemma nearest_unit (p : N) (t s : Q) (q : N) :
  ⌊2 ^ (p - 1)⌋ <= t → (2 ^ (p - 1) <= q)%N → Qabs (t - ⌊q⌋) <= 1 # 2 →
  s < ⌊2 ^ (p - 1)⌋ ∨ (∃ j : N, s == ⌊j⌋) →
  s == ⌊q⌋ ∨ Qabs (t - ⌊q⌋) < Qabs (t - s) ∨ (Qabs (t - ⌊q⌋) == Qabs (t - s) ∧ Qabs (t - ⌊q⌋) == 1 # 2).
Proof.
  intros Ht Hq Ha [Hs|(j & Hs)].
  - right. left. assert (q = 2 ^ (p - 1) ∨ 2 ^ (p - 1) + 1 <= q)%N as [->|H] by lia.
    + destruct (abs_case (t - ⌊2 ^ (p - 1)⌋)) as [[? ->]|[? ->]], (abs_case (t - s)) as [[? ->]|[? ->]]; lra.
    + apply inj_le in H. rewrite inj_add in H. change (⌊1⌋) with 1 in H. destruct (abs_case (t - ⌊q⌋)) as [[? E]|[? E]], (abs_case (t - s)) as [[? E']|[? E']]; rewrite E in *; rewrite E' in *; lra.
  - assert (j = q ∨ j + 1 <= q ∨ q + 1 <= j)%N as [->|[H|H]] by lia; [by left|right..]; apply inj_le in H; rewrite inj_add in H; change (⌊1⌋) with 1 in H; rewrite <- Hs in H.
    all: destruct (Qlt_le_dec (Qabs (t - ⌊q⌋)) (Qabs (t - s))) as [Hlt|Hle]; [by left|right].
    all: destruct (abs_case (t - ⌊q⌋)) as [[? E]|[? E]], (abs_case (t - s)) as [[? E']|[? E']]; rewrite E in *; rewrite E' in *; split; lra.
Qed.
Lemma nearest_of (p : N) (t : Q) (q : N) (e : Z) (x : Q) :
  (2 <= p)%N → ⌊2 ^ (p - 1)⌋ <= t → (2 ^ (p - 1) <= q <= 2 ^ p)%N → Qabs (t - ⌊q⌋) <= 1 # 2 → (Qabs (t - ⌊q⌋) == 1 # 2 → N.even q = true) →
  x == t * 2 ^ e → nearest p x (dyadic q e).
Proof.
  intros Hp Ht [Hq1 Hq2] Ha He Hx. pose proof (pow2_pos e) as Hu.
  assert (2 ^ p = 2 * 2 ^ (p - 1))%N as Ep by (rewrite <- N.pow_succ_r'; f_equal; lia).
  assert (2 ^ (p - 1) = 2 * 2 ^ (p - 2))%N as Ep' by (rewrite <- N.pow_succ_r'; f_equal; lia).
  assert (q = (2 ^ p)%N → dyadic q e == dyadic (2 ^ (p - 1)) (e + 1)) as Hc.
  { intros ->. unfold dyadic. rewrite pow2_add, Ep, inj_mul. change (⌊2⌋) with 2. change (2 ^ 1) with 2. ring. }
  pose proof (N.pow_nonzero 2 (p - 2)) as Hz. split.
  - destruct (N.eq_dec q (2 ^ p)) as [E|Hn]; [exists (2 ^ (p - 1))%N, (e + 1)%Z; split; [lia|by apply Hc]|]. exists q, e. split; [lia|done].
  - intros y (m & e' & Hm & Hy).
    assert (y == (⌊m⌋ * 2 ^ (e' - e)) * 2 ^ e) as Hy'.
    { rewrite Hy. unfold dyadic. rewrite <- Qmult_assoc, <- pow2_add. by replace (e' - e + e)%Z with e' by lia. }
    set (s := ⌊m⌋ * 2 ^ (e' - e)) in *.
    assert (s < ⌊2 ^ (p - 1)⌋ ∨ (∃ j : N, s == ⌊j⌋)) as Hs.
    { destruct (Z_lt_le_dec e' e) as [H|H]; [left|right].
      - assert (2 ^ (e' - e) <= 2 ^ (-1)) as Hh by (apply Qpower_le_compat_l; [lia|done]). change (2 ^ (-1)) with (1 # 2) in Hh.
        apply inj_lt in Hm. rewrite Ep, inj_mul in Hm. change (⌊2⌋) with 2 in Hm. subst s. pose proof (pow2_pos (e' - e)) as Hpos.
        assert (0 <= ⌊m⌋) as H0 by (apply (inj_le 0); lia). nra.
      - exists (m * 2 ^ Z.to_N (e' - e))%N. subst s. rewrite inj_mul, <- pow2_N, Z2N.id by lia. done. }
    destruct (nearest_unit p t s q Ht Hq1 Ha Hs) as [H|H].
    + left. rewrite Hy', H. done.
    + right. assert (Qabs (x - dyadic q e) == Qabs (t - ⌊q⌋) * 2 ^ e) as E1.
      { rewrite Hx. unfold dyadic. setoid_replace (t * 2 ^ e - ⌊q⌋ * 2 ^ e) with ((t - ⌊q⌋) * 2 ^ e) by ring. rewrite Qabs_Qmult, (Qabs_pos (2 ^ e)) by lra. done. }
      assert (Qabs (x - y) == Qabs (t - s) * 2 ^ e) as E2.
      { rewrite Hx, Hy'. setoid_replace (t * 2 ^ e - s * 2 ^ e) with ((t - s) * 2 ^ e) by ring. rewrite Qabs_Qmult, (Qabs_pos (2 ^ e)) by lra. done. }
      rewrite E1, E2. destruct H as [H|[H1 H2]]; [left; by apply Qmult_lt_compat_r|right]. split; [by rewrite H1|].
      specialize (He H2). destruct (N.eq_dec q (2 ^ p)) as [E|Hn].
      * exists (2 ^ (p - 1))%N, (e + 1)%Z. split; [lia|]. split; [|by apply Hc]. rewrite Ep'. by rewrite N.even_mul.
      * exists q, e. split; [lia|]. done.
Qed.
Lemma nearest_exact p x v : representable p v → x == v → nearest p x v.
Proof.
  intros Hr Hx. split; [done|]. intros y _. destruct (Qeq_dec y v) as [H|H]; [by left|right; left].
  destruct (abs_case (x - v)) as [[? ->]|[? ->]], (abs_case (x - y)) as [[? ->]|[? ->]]; try lra.
Qed.
Lemma size_bounds m : m ≠ 0%N → (2 ^ (N.size m - 1) <= m < 2 ^ N.size m)%N.
Proof.
  intros Hm. split; [|apply N.size_gt]. pose proof (N.size_le m) as H. destruct m as [|m]; [done|].
  rewrite N.succ_double_spec in H. assert (2 ^ N.size (N.pos m) = 2 * 2 ^ (N.size (N.pos m) - 1))%N as E.
  { rewrite <- N.pow_succ_r'. f_equal. assert (N.size (N.pos m) ≠ 0)%N by done. lia. }
  lia.
Qed.
Lemma round_nearest p m e sticky (w : Q) :
  (2 <= p)%N → m ≠ 0%N → ⌊m⌋ <= w → w < ⌊m⌋ + 1 → (sticky = false → w == ⌊m⌋) → (sticky = true → ⌊m⌋ < w) → (cut p m = 0%N → sticky = false) →
  nearest p (w * 2 ^ e) (dyadic (round_bits p m sticky) (e + Z.of_N (cut p m))).
Proof.
  intros Hp Hm H1 H2 Hf Ht Hc. pose proof (size_bounds m Hm) as [Hs1 Hs2]. unfold round_bits. destruct (N.eqb_spec (cut p m) 0) as [E|E].
  - rewrite E. cbn [Z.of_N]. rewrite Z.add_0_r. apply nearest_exact.
    + exists m, e. split; [|done]. eapply N.lt_le_trans; [exact Hs2|]. apply N.pow_le_mono_r; [done|]. unfold cut in E. lia.
    + unfold dyadic. by rewrite (Hf (Hc E)).
  - set (k := cut p m) in *. assert (N.size m = p + k)%N as Ek by (unfold k, cut in *; lia). rewrite Ek in Hs1, Hs2. clearbody k.
    set (q := (m / 2 ^ k)%N). set (r := (m mod 2 ^ k)%N).
    assert (2 ^ k ≠ 0)%N as Hk0 by (by apply N.pow_nonzero).
    assert (m = 2 ^ k * q + r)%N as Em by (by apply N.div_mod). assert (r < 2 ^ k)%N as Hr by (by apply N.mod_lt).
    assert (2 ^ k = 2 * 2 ^ (k - 1))%N as Eh by (rewrite <- N.pow_succ_r'; f_equal; lia).
    replace (p + k - 1)%N with (k + (p - 1))%N in Hs1 by lia. replace (p + k)%N with (k + p)%N in Hs2 by lia. rewrite N.pow_add_r in Hs1, Hs2.
    assert (2 ^ (p - 1) <= q)%N as Hq1 by (apply N.div_le_lower_bound; done). assert (q < 2 ^ p)%N as Hq2 by (by apply N.div_lt_upper_bound).
    clearbody q r.
    assert (⌊m⌋ == ⌊2 ^ k⌋ * ⌊q⌋ + ⌊r⌋) as EmQ by (by rewrite Em at 1; rewrite inj_add, inj_mul).
    assert (⌊2 ^ k⌋ == 2 * ⌊2 ^ (k - 1)⌋) as EhQ by (by rewrite Eh, inj_mul).
    set (h := (2 ^ (k - 1))%N) in *. assert (0 < ⌊2 ^ k⌋) as HkQ by (apply (inj_lt 0); lia).
    set (t := w / ⌊2 ^ k⌋). assert (w == t * ⌊2 ^ k⌋) as Ew by (unfold t; field; lra). clearbody t.
    assert (w * 2 ^ e == t * 2 ^ (e + Z.of_N k)) as Ex by (rewrite pow2_add, pow2_N, Ew; ring).
    assert (⌊2 ^ (p - 1)⌋ <= t) as Htl.
    { apply inj_le in Hs1. rewrite inj_mul in Hs1. apply Qmult_lt_0_le_reg_r with ⌊2 ^ k⌋; [done|]. lra. }
    assert (∀ b : N, Qabs (t - ⌊b⌋) * ⌊2 ^ k⌋ == Qabs (w - ⌊b⌋ * ⌊2 ^ k⌋)) as Hd.
    { intros b. rewrite <- (Qabs_pos ⌊2 ^ k⌋) at 1 by lra. rewrite <- Qabs_Qmult. rewrite Ew. setoid_replace ((t - ⌊b⌋) * ⌊2 ^ k⌋) with (t * ⌊2 ^ k⌋ - ⌊b⌋ * ⌊2 ^ k⌋) by ring. done. }
    assert (∀ b : N, (2 ^ (p - 1) <= b <= 2 ^ p)%N → Qabs (w - ⌊b⌋ * ⌊2 ^ k⌋) <= ⌊h⌋ → (Qabs (w - ⌊b⌋ * ⌊2 ^ k⌋) == ⌊h⌋ → N.even b = true) →
      nearest p (w * 2 ^ e) (dyadic b (e + Z.of_N k))) as Hgo.
    { intros b Hb Hle Heq. eapply nearest_of; [done|exact Htl|done| | |exact Ex].
      - apply Qmult_lt_0_le_reg_r with ⌊2 ^ k⌋; [done|]. rewrite Hd. lra.
      - intros H. apply Heq. rewrite <- Hd, H, EhQ. ring. }
    assert (r + 1 <= 2 ^ k)%N as Hr' by lia. apply inj_le in Hr'. rewrite inj_add in Hr'. change ⌊1⌋ with 1 in Hr'.
    pose proof (inj_le 0 r ltac:(lia)) as Hr0. change ⌊0⌋ with 0 in Hr0.
    destruct ((h <? r)%N || (h =? r)%N && (sticky || N.odd q)) eqn:Eu; apply Hgo; try lia; rewrite ?inj_add; change ⌊1⌋ with 1.
    + assert (h <= r)%N as Hhr%inj_le by (destruct (N.ltb_spec h r), (N.eqb_spec h r); cbn in Eu; try lia; done).
      destruct (abs_case (w - (⌊q⌋ + 1) * ⌊2 ^ k⌋)) as [[? ->]|[? ->]]; lra.
    + intros Hq. destruct (N.ltb_spec h r) as [Hhr|Hhr].
      * apply inj_lt in Hhr. exfalso. destruct (abs_case (w - (⌊q⌋ + 1) * ⌊2 ^ k⌋)) as [[? E']|[? E']]; rewrite E' in Hq; lra.
      * destruct (N.eqb_spec h r) as [->|]; [|done]. cbn in Eu. destruct sticky; cbn in Eu.
        -- exfalso. specialize (Ht eq_refl). destruct (abs_case (w - (⌊q⌋ + 1) * ⌊2 ^ k⌋)) as [[? E']|[? E']]; rewrite E' in Hq; lra.
        -- rewrite N.add_1_r, N.even_succ. done.
    + destruct (N.ltb_spec h r) as [Hhr|Hhr]; [done|]. destruct (N.eqb_spec h r) as [Ehr|Hn]; cbn in Eu.
      * destruct sticky; [done|]. rewrite <- Ehr in *. specialize (Hf eq_refl).
        destruct (abs_case (w - ⌊q⌋ * ⌊2 ^ k⌋)) as [[? ->]|[? ->]]; lra.
      * assert (r + 1 <= h)%N as H3%inj_le by lia. rewrite inj_add in H3. change ⌊1⌋ with 1 in H3.
        destruct (abs_case (w - ⌊q⌋ * ⌊2 ^ k⌋)) as [[? ->]|[? ->]]; lra.
    + intros Hq. destruct (N.ltb_spec h r) as [Hhr|Hhr]; [done|]. destruct (N.eqb_spec h r) as [Ehr|Hn]; cbn in Eu.
      * destruct sticky; [done|]. cbn in Eu. rewrite <- N.negb_odd. by rewrite Eu.
      * exfalso. assert (r + 1 <= h)%N as H3%inj_le by lia. rewrite inj_add in H3. change ⌊1⌋ with 1 in H3.
        destruct (abs_case (w - ⌊q⌋ * ⌊2 ^ k⌋)) as [[? E']|[? E']]; rewrite E' in Hq; lra.
Qed.

(** ** Operations *)
Lemma size_le m a : (m < 2 ^ a)%N → (N.size m <= a)%N.
Proof.
  intros H. destruct (N.eq_dec m 0) as [->|Hm]; [cbn; lia|]. destruct (size_bounds m Hm) as [H1 _].
  destruct (N.le_gt_cases (N.size m) a) as [|Hgt]; [done|]. assert (2 ^ a <= 2 ^ (N.size m - 1))%N by (apply N.pow_le_mono_r; lia). lia.
Qed.
Lemma round_exp p m e sticky : m ≠ 0%N → (exp_of (round_bits p m sticky) (e + Z.of_N (cut p m)) <= exp_of m e + 1)%Z.
Proof.
  intros Hm. unfold exp_of, round_bits. destruct (N.eqb_spec (cut p m) 0) as [E|E]; [rewrite E; lia|].
  assert (N.size m = p + cut p m)%N as Ek by (unfold cut in *; lia). set (k := cut p m) in *. destruct (size_bounds m Hm) as [_ H2]. rewrite Ek, N.add_comm, N.pow_add_r in H2.
  assert (m / 2 ^ k < 2 ^ p)%N as H by (apply N.div_lt_upper_bound; [by apply N.pow_nonzero|done]).
  assert (2 ^ (p + 1) = 2 * 2 ^ p)%N as E1 by (by rewrite N.add_1_r, N.pow_succ_r').
  rewrite Ek. destruct (_ || _); assert (∀ a, a < 2 ^ (p + 1) → N.size a <= p + 1)%N as Hs by (intros a; apply size_le).
  - specialize (Hs (m / 2 ^ k + 1)%N ltac:(lia)). lia.
  - specialize (Hs (m / 2 ^ k)%N ltac:(lia)). lia.
Qed.
Lemma make_fin p m e sticky :
  m ≠ 0%N → (min_exp <= exp_of m e)%Z → (exp_of m e < max_exp)%Z →
  make p m e sticky = FFin (round_bits p m sticky) (e + Z.of_N (cut p m)).
Proof.
  intros Hm H1 H2. unfold make. pose proof (round_exp p m e sticky Hm). destruct (Z.ltb_spec (exp_of m e) min_exp); [lia|].
  destruct (Z.ltb_spec max_exp (exp_of m e)); [lia|]. cbn zeta. destruct (Z.ltb_spec max_exp (exp_of (round_bits p m sticky) (e + Z.of_N (cut p m)))); [lia|done].
Qed.
Lemma pow5_exact (k : N) : (k <= 50)%N → pow5 117 k = FFin (5 ^ k) 0.
Proof.
  intros H. assert (∀ j : nat, (j < 51)%nat → pow5 117 (N.of_nat j) = FFin (5 ^ N.of_nat j) 0) as Hall.
  { assert (forallb (λ j, match pow5 117 (N.of_nat j) with FFin m e => (m =? 5 ^ N.of_nat j)%N && (e =? 0)%Z | _ => false end) (seq 0 51) = true) as E by (vm_compute; reflexivity).
    rewrite forallb_forall in E. intros j Hj. specialize (E j). destruct (pow5 117 (N.of_nat j)) as [|m e|]; try (by specialize (E ltac:(apply in_seq; lia))).
    specialize (E ltac:(apply in_seq; lia)). apply andb_true_iff in E as [->%N.eqb_eq ->%Z.eqb_eq]. done. }
  rewrite <- (N2Nat.id k). apply Hall. lia.
Qed.
Lemma size_mul a b : (N.size (a * b) <= N.size a + N.size b)%N.
Proof.
  apply size_le. rewrite N.pow_add_r. pose proof (N.size_gt a). pose proof (N.size_gt b). nia.
Qed.
Lemma nearest_eq p x x' v : x == x' → nearest p x' v → nearest p x v.
Proof. intros E [Hr H]. split; [done|]. intros y Hy. specialize (H y Hy). by rewrite <- E in H. Qed.
Lemma mul_nearest m e m' p : (2 <= p)%N → m ≠ 0%N → m' ≠ 0%N → (min_exp < e)%Z → (Z.of_N (N.size m) + Z.of_N (N.size m') + e < max_exp)%Z →
  ∃ v, finite_value (mul p (FFin m e) (FFin m' 0)) = Some v ∧ nearest p (⌊m⌋ * ⌊m'⌋ * 2 ^ e) v.
Proof.
  intros Hp Hm Hm' He1 He2. cbn [mul]. rewrite Z.add_0_r. pose proof (size_mul m m') as Hs. assert (m * m' ≠ 0)%N as Hn by (by apply N.neq_mul_0).
  rewrite make_fin; [|done|unfold exp_of; lia..]. eexists. split; [done|]. eapply nearest_eq; [by rewrite <- inj_mul|]. apply round_nearest; try done; lra.
Qed.
Lemma quo_nearest m e m' p : (2 <= p)%N → m ≠ 0%N → m' ≠ 0%N → (min_exp + Z.of_N (N.size m') + Z.of_N p + 1 < e)%Z → (Z.of_N (N.size m) + e < max_exp)%Z →
  ∃ v, finite_value (quo p (FFin m e) (FFin m' 0)) = Some v ∧ nearest p (⌊m⌋ / ⌊m'⌋ * 2 ^ e) v.
Proof.
  intros Hp Hm Hm' He1 He2. cbn [quo]. set (s := (N.size m' + p + 1)%N). set (d := (m * 2 ^ s)%N). rewrite Z.sub_0_r.
  destruct (size_bounds m' Hm') as [_ Hb'].
  assert (0 < 2 ^ N.size m')%N as Hz by (by apply N.neq_0_lt_0, N.pow_nonzero).
  assert (2 ^ s = 2 ^ N.size m' * 2 ^ (p + 1))%N as Es by (rewrite <- N.pow_add_r; f_equal; unfold s; lia).
  assert (2 ^ (p + 1) <= d / m')%N as Hq.
  { apply N.div_le_lower_bound; [done|]. unfold d. rewrite Es. nia. }
  assert (d / m' ≠ 0)%N as Hq0 by (pose proof (N.pow_nonzero 2 (p + 1)); lia).
  assert (p + 1 < N.size (d / m'))%N as Hsz.
  { destruct (size_bounds _ Hq0) as [_ H]. destruct (N.le_gt_cases (N.size (d / m')) (p + 1)) as [Hle|]; [|done].
    assert (2 ^ N.size (d / m') <= 2 ^ (p + 1))%N by (by apply N.pow_le_mono_r). lia. }
  assert (N.size (d / m') <= N.size m + s)%N as Hsz'.
  { apply size_le. rewrite N.pow_add_r. apply N.le_lt_trans with d; [apply N.div_le_upper_bound; [done|]; nia|]. unfold d. apply N.mul_lt_mono_pos_r; [|apply N.size_gt]. rewrite Es. pose proof (N.pow_nonzero 2 (p + 1)). nia. }
  rewrite make_fin; [|done|unfold exp_of; lia..]. eexists. split; [done|].
  assert (0 < ⌊m'⌋) as HmQ by (apply (inj_lt 0); lia).
  assert (⌊m⌋ / ⌊m'⌋ * 2 ^ e == (⌊d⌋ / ⌊m'⌋) * 2 ^ (e - Z.of_N s)) as Ex.
  { unfold d. rewrite inj_mul, <- pow2_N. replace e with (Z.of_N s + (e - Z.of_N s))%Z at 1 by lia. rewrite pow2_add. field. lra. }
  assert (nearest p ((⌊d⌋ / ⌊m'⌋) * 2 ^ (e - Z.of_N s)) (dyadic (round_bits p (d / m') (negb (d mod m' =? 0)%N)) (e - Z.of_N s + Z.of_N (cut p (d / m'))))) as Hn.
  { pose proof (N.div_mod d m' Hm') as Ed. pose proof (N.mod_lt d m' Hm') as Hlt. set (q := (d / m')%N) in *. set (r := (d mod m')%N) in *.
    assert (⌊d⌋ == ⌊m'⌋ * ⌊q⌋ + ⌊r⌋) as EdQ by (rewrite Ed at 1; by rewrite inj_add, inj_mul).
    assert (⌊d⌋ / ⌊m'⌋ == ⌊q⌋ + ⌊r⌋ / ⌊m'⌋) as Eq by (rewrite EdQ; field; lra).
    pose proof (inj_le 0 r ltac:(lia)) as Hr0. change ⌊0⌋ with 0 in Hr0. apply inj_lt in Hlt.
    assert (0 <= ⌊r⌋ / ⌊m'⌋) as H1 by (apply Qle_shift_div_l; [done|lra]). assert (⌊r⌋ / ⌊m'⌋ < 1) as H2 by (apply Qlt_shift_div_r; [done|lra]).
    apply round_nearest; [done|done|lra|lra|..].
    - intros E%negb_false_iff%N.eqb_eq. rewrite Eq, E. change ⌊0⌋ with 0. unfold Qdiv. ring.
    - intros E%negb_true_iff%N.eqb_neq. assert (0 < ⌊r⌋) as H3 by (apply (inj_lt 0); lia).
      assert (0 < ⌊r⌋ / ⌊m'⌋) by (apply Qlt_shift_div_l; [done|lra]). lra.
    - unfold cut. lia. }
  by eapply nearest_eq.
Qed.

(** ** Literals *)
Lemma digit_bound c : (digit_of c <= 15)%N.
Proof.
  unfold digit_of. assert (∀ l i d, List.length l = 16%nat → list_find (λ d : ascii, d = c) l = Some (i, d) → (N.of_nat i <= 15)%N) as H.
  { intros l i d Hl (H & _)%list_find_Some. apply lookup_lt_Some in H. lia. }
  destruct (list_find _ (chars "0123456789abcdef")) as [[i d]|] eqn:E; [by eapply H; [|exact E]|].
  destruct (list_find _ (chars "0123456789ABCDEF")) as [[i d]|] eqn:E'; [by eapply H; [|exact E']|lia].
Qed.
Lemma numeral_acc b (s : text) v k : (b <= 16)%N → (v < 16 ^ k)%N →
  (foldl (λ v c, (v * b + digit_of c)%N) v s < 16 ^ (k + N.of_nat (List.length s)))%N.
Proof.
  intros Hb. revert v k. induction s as [|c s IH]; intros v k Hv; [by rewrite N.add_0_r|].
  cbn [foldl List.length]. rewrite Nat2N.inj_succ, N.add_succ_r, <- N.add_succ_l. apply IH. pose proof (digit_bound c). rewrite N.pow_succ_r'. nia.
Qed.
Lemma numeral_bound b (s : text) : (b <= 16)%N → (numeral b s < 16 ^ N.of_nat (List.length s))%N.
Proof.
  intros Hb. unfold numeral. eapply N.lt_le_trans; [by apply (numeral_acc _ _ _ 0)|]. apply N.pow_le_mono_r; [done|]. rewrite N.add_0_l.
  assert (List.length (filter (λ c, c ≠ "_"%char) s) <= List.length s)%nat by (apply filter_length). lia.
Qed.
Lemma literal_shape s n : literal s n →
  decimal_exponent n = (exponent n - Z.of_nat (fraction n))%Z ∧ (binary_exponent n - Z.of_N (N.size (mantissa n)) = exponent n - Z.of_nat (fraction n))%Z ∧
  (mantissa n < 16 ^ N.of_nat (List.length s))%N.
Proof.
  assert (∀ b (ds s : text), (b <= 16)%N → (List.length ds <= List.length s)%nat → (numeral b ds < 16 ^ N.of_nat (List.length s))%N) as H.
  { intros b ds s' Hb Hl. eapply N.lt_le_trans; [by apply numeral_bound|]. apply N.pow_le_mono_r; [done|lia]. }
  intros [x ds _ _|x ds _ _|x ds _ _|ds _|ds e x _ _ _|ds fs e x _ _ _]; unfold decimal_exponent, binary_exponent; cbn -[numeral N.size Z.of_nat List.length];
    (split; [lia|]); (split; [lia|]); (apply H; [done|]); rewrite ?app_length; cbn [List.length]; rewrite ?app_length; lia.
Qed.
Lemma ten_pow z : 10 ^ z == 5 ^ z * 2 ^ z.
Proof. change 10 with (5 * 2). apply Qmult_power. Qed.
Lemma float_nearest s n : literal s n → (Z.abs (exponent n - Z.of_nat (fraction n)) <= 50)%Z → (N.of_nat (List.length s) < 2 ^ 28)%N →
  ∃ v, finite_value (float_of n) = Some v ∧ nearest 53 (denoted n) v.
Proof.
  intros Hl Hd Hs. destruct (literal_shape s n Hl) as (E1 & E2 & Hm). unfold float_of, denoted. rewrite E1, E2.
  set (d := (exponent n - Z.of_nat (fraction n))%Z) in *. set (m := mantissa n) in *.
  destruct (N.eqb_spec m 0) as [E|Hm0].
  { exists 0. split; [done|]. apply nearest_exact; [by exists 0%N, 0%Z|]. rewrite E. change ⌊0⌋ with 0. ring. }
  assert (N.size m <= 2 ^ 30)%N as Hz.
  { transitivity (4 * N.of_nat (List.length s))%N; [|lia]. apply size_le. rewrite N.pow_mul_r. done. }
  assert (∀ k, (k <= 50)%N → (N.size (5 ^ k) <= 150)%N) as H5.
  { intros k Hk. apply size_le. apply N.le_lt_trans with (5 ^ 50)%N; [by apply N.pow_le_mono_r|by vm_compute]. }
  assert (max_exp = 2 ^ 31 - 1)%Z as EM by done. assert (min_exp = - 2 ^ 31)%Z as Em by done.
  destruct d as [|k|k] eqn:Ed.
  - rewrite make_fin; [|done|unfold exp_of; lia..]. eexists. split; [done|]. eapply nearest_eq; [reflexivity|]. apply round_nearest; try done; lra.
  - rewrite pow5_exact by lia. destruct (mul_nearest m (Z.pos k) (5 ^ N.pos k) 53) as (v & Hv & Hn); [done..|by apply N.pow_nonzero|lia| |].
    { specialize (H5 (N.pos k)). lia. }
    exists v. split; [done|]. eapply nearest_eq; [|exact Hn]. rewrite ten_pow, <- pow_N. change (Z.of_N (N.pos k)) with (Z.pos k). change (inject_Z (Z.of_N 5)) with 5. ring.
  - rewrite pow5_exact by lia. destruct (quo_nearest m (Z.neg k) (5 ^ N.pos k) 53) as (v & Hv & Hn); [done..|by apply N.pow_nonzero| |lia|].
    { specialize (H5 (N.pos k)). lia. }
    exists v. split; [done|]. eapply nearest_eq; [|exact Hn]. rewrite ten_pow, <- pow_N. change (Z.of_N (N.pos k)) with (Z.pos k). change (inject_Z (Z.of_N 5)) with 5.
    change (Z.neg k) with (- Z.pos k)%Z. rewrite (Qpower_opp 5). unfold Qdiv. ring.
Qed.
