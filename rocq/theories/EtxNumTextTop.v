(** * Proofs about the text of numbers: the claims *)
From Coq Require Import Ascii String NArith ZArith QArith Qabs Qpower Lqa Lia.
From stdpp Require Import base list option.
From Verif Require Import GoBase EtxAst EtxHeap EtxHeapSpec EtxGram EtxParse EtxText EtxUtil EtxUtilSpec EtxLex EtxLexSpec EtxLexOps EtxNumProofs EtxFloat EtxFloatSpec EtxFloatProofs EtxFloatError EtxFloatMain.
From Verif Require Import EtxFormat EtxFormatTotal EtxNumText EtxNumTextSpec EtxNumTextProofs EtxNumTextMain.
Local Open Scope string_scope.
Local Open Scope list_scope.
Local Open Scope Q_scope.

Lemma rounded_unique_aux p x v v' : (2 <= p)%N → rounded p x v → v < v' → last_digit_even p v → last_digit_even p v' → Qabs (x - v) == Qabs (x - v') → False.
Proof.
  intros Hp [_ Hv] Hlt (m & e & [Hm1 Hm2] & Hme & E) (m' & e' & [Hm1' Hm2'] & Hme' & E') Hd.
  apply N.even_spec in Hme as [j Ej]. apply N.even_spec in Hme' as [j' Ej'].
  assert (10 ^ p = 10 * 10 ^ (p - 1))%N as Ep by (rewrite <- N.pow_succ_r'; f_equal; lia).
  assert (10 ^ (p - 1) = 10 * 10 ^ (p - 2))%N as Ep2 by (rewrite <- N.pow_succ_r'; f_equal; lia).
  pose proof (pow10_pos e) as He. pose proof (pow10_pos e') as He'.
  destruct (Z.lt_ge_cases e' e) as [Hc|Hc].
  { assert (v' < v); [|lra]. rewrite E, E'. unfold scaled.
    apply Qlt_le_trans with (⌊10 ^ p⌋ * 10 ^ e'); [apply Qmult_lt_compat_r; [done|by apply inj_lt]|].
    apply Qle_trans with (⌊10 ^ (p - 1)⌋ * 10 ^ (e' + 1)).
    - apply eq_le. rewrite Ep, inj_mul, pow10_add. change ⌊10⌋ with 10. change (10 ^ 1) with 10. ring.
    - assert (⌊0⌋ <= ⌊10 ^ (p - 1)⌋) as H0 by (apply inj_le; lia). change ⌊0⌋ with 0 in H0. pose proof (pow10_pos (e' + 1)).
      apply Qmul_le; [done|by apply inj_le|lra|]. apply Qpower_le_compat_l; [lia|done]. }
  set (k := Z.to_N (e' - e)). assert (v' == ⌊m' * 10 ^ k⌋ * 10 ^ e) as Ev'.
  { rewrite E'. unfold scaled. rewrite inj_mul, <- pow10_N. replace e' with (Z.of_N k + e)%Z at 1 by lia. rewrite pow10_add. ring. }
  assert (m < m' * 10 ^ k)%N as Hlt'.
  { destruct (N.lt_ge_cases m (m' * 10 ^ k)) as [|Hge]; [done|]. apply inj_le in Hge.
    assert (v' <= v); [|lra]. rewrite Ev', E. unfold scaled. apply Qmult_le_compat_r; lra. }
  assert (m + 1 < m' * 10 ^ k)%N as Hlt''.
  { assert (m' * 10 ^ k = 2 * (j' * 10 ^ k))%N by (rewrite Ej'; ring). lia. }
  set (y := scaled (m + 1) e).
  assert (y == v + 10 ^ e) as Ey by (unfold y; rewrite E; unfold scaled; rewrite inj_add; change ⌊1⌋ with 1; ring).
  assert (y < v') as Hy by (rewrite Ev'; unfold y, scaled; apply Qmult_lt_compat_r; [done|by apply inj_lt]).
  assert (short p y) as Hr by (exists (m + 1)%N, e; split; [|done]; assert (10 ^ p = 2 * (5 * 10 ^ (p - 1)))%N by (rewrite Ep; ring); lia).
  specialize (Hv y Hr).
  assert (x == (v + v') * (1 # 2)) as Ex.
  { destruct (abs_case (x - v)) as [[? E1]|[? E1]], (abs_case (x - v')) as [[? E2]|[? E2]]; rewrite E1, E2 in Hd; lra. }
  destruct Hv as [Hv|[Hv|[Hv _]]]; [lra|..];
    destruct (abs_case (x - v)) as [[? E1]|[? E1]], (abs_case (x - y)) as [[? E2]|[? E2]]; rewrite E1, E2 in Hv; lra.
Qed.
(*P C87_one_rounded *)
(** There is only one such number. *)
Lemma rounded_unique p x v v' :
  (2 <= p)%N → rounded p x v → rounded p x v' → v == v'.
Proof.
  intros Hp H H'. destruct (Qlt_le_dec v v') as [Hlt|Hle]; [|destruct (Qlt_le_dec v' v) as [Hlt|Hle']; [|lra]]; exfalso.
  - pose proof H as [Hr Hn]. pose proof H' as [Hr' Hn']. specialize (Hn v' Hr'). specialize (Hn' v Hr).
    destruct Hn as [?|[?|[? ?]]], Hn' as [?|[?|[? ?]]]; try lra. by eapply (rounded_unique_aux p x v v').
  - pose proof H as [Hr Hn]. pose proof H' as [Hr' Hn']. specialize (Hn v' Hr'). specialize (Hn' v Hr).
    destruct Hn as [?|[?|[? ?]]], Hn' as [?|[?|[? ?]]]; try lra. by eapply (rounded_unique_aux p x v' v).
Qed.

Lemma chars_str (s : text) : chars (str s) = s.
Proof. apply list_ascii_of_string_of_list_ascii. Qed.
Lemma number_format (t : ast) s : kind_of t = KValueNumber → str_of FSource t = [] → get FValue t = Some (VFloat (Some (tt, s))) →
  format t = Ok (number_string (chars s)).
Proof.
  intros Hk Hs Hv. destruct t as [p k fs]. cbn in Hk. subst k. rewrite format_unfold. cbn [format_node kind_of]. rewrite Hs, decide_True by done. by rewrite Hv.
Qed.
Lemma no_minus u x : number_value u = Some x → number_string u = float_string false x.
Proof.
  intros H. unfold number_string. destruct u as [|c u]; [by rewrite H|]. destruct (Ascii.eqb_spec c "-") as [->|_]; [|by rewrite H].
  exfalso. unfold number_value, capture_number in H. change (normalise ("-"%char :: u)) with ("-"%char :: u) in H. done.
Qed.
Lemma minus u x : number_value u = Some x → number_string ("-"%char :: u) = float_string true x.
Proof. intros H. unfold number_string. change (Ascii.eqb "-" "-") with true. cbv iota. by rewrite H. Qed.
(*P C87_rounded *)
(** The text of a finite number without a source is a number token, and what the literal denotes is the
    number of ten decimal digits that is nearest to the Value. *)
Lemma p87 file (t : ast) u x v :
  kind_of t = KValueNumber → str_of FSource t = [] → get FValue t = Some (VFloat (Some (tt, str u))) →
  number_value u = Some x → finite_value x = Some v →
  ∃ w n, format t = Ok w ∧ lex file w = Ok (Lexed [Token TNumber w (start_pos file)] [(SRoot, [])]) ∧ literal w n ∧ rounded 10 v (denoted n).
Proof.
  intros Hk Hs Hg Hx Hv. destruct (finite_text u x v Hx Hv) as (n & Hl & Hr). exists (float_text x), n. split; [|split; [|done]].
  - rewrite (number_format _ _ Hk Hs Hg), chars_str, (no_minus u x Hx). by destruct x.
  - by eapply literal_lexed.
Qed.
(*P C87_negative *)
(** A negative number is written with a minus in front. *)
Lemma p87_negative file (t : ast) u x v :
  kind_of t = KValueNumber → str_of FSource t = [] → get FValue t = Some (VFloat (Some (tt, str ("-"%char :: u)))) →
  number_value u = Some x → finite_value x = Some v →
  ∃ w n, format t = Ok ("-"%char :: w) ∧ lex file w = Ok (Lexed [Token TNumber w (start_pos file)] [(SRoot, [])]) ∧ literal w n ∧ rounded 10 v (denoted n).
Proof.
  intros Hk Hs Hg Hx Hv. destruct (finite_text u x v Hx Hv) as (n & Hl & Hr). exists (float_text x), n. split; [|split; [|done]].
  - rewrite (number_format _ _ Hk Hs Hg), chars_str, (minus u x Hx). done.
  - by eapply literal_lexed.
Qed.
(*P C87_infinite *)
(** An infinite number is written as no literal: it is read as a plus and a name. *)
Lemma p87_infinite file (t : ast) u :
  kind_of t = KValueNumber → str_of FSource t = [] → get FValue t = Some (VFloat (Some (tt, str u))) →
  number_value u = Some FInf →
  format t = Ok (chars "+Inf") ∧ (∀ n, ¬ literal (chars "+Inf") n) ∧
  ∃ l, lex file (chars "+Inf") = Ok l ∧ map (λ t, (kind_of_token t, str (value t))) (tokens_of l) = [(TOpPlus, "+"); (TIdent, "Inf")].
Proof.
  intros Hk Hs Hg Hx. split; [|split].
  - by rewrite (number_format _ _ Hk Hs Hg), chars_str, (no_minus u _ Hx).
  - intros n H%literal_text. destruct (number_head _ H) as (c & w & E & Hc). injection E as <- _. done.
  - eexists. split; [vm_compute; reflexivity|]. reflexivity.
Qed.

Lemma decimal_near d : wf d → ∃ y, short 10 y ∧ Qabs (y - decimal_value d) <= (1 # 2) * 10 ^ (-9) * decimal_value d.
Proof.
  intros W. pose proof W as (H1 & H2 & H3 & H4). destruct (Nat.le_gt_cases (List.length (digits d)) 10) as [Hle|Hgt].
  { exists (decimal_value d). split; [by apply (decimal_short 10)|].
    assert (0 <= decimal_value d). { unfold decimal_value, scaled. assert (⌊0⌋ <= ⌊num (digits d)⌋) as H0 by (apply inj_le; lia). change ⌊0⌋ with 0 in H0. pose proof (pow10_pos (point d - Z.of_nat (List.length (digits d)))). nra. }
    change (10 ^ (-9)) with (1 # 1000000000). destruct (abs_case (decimal_value d - decimal_value d)) as [[? ->]|[? ->]]; lra. }
  destruct d as [s x]. cbn [digits point] in *. set (a := take 10 s). set (b := drop 10 s).
  assert (s = a ++ b) as Es by (symmetry; apply take_drop). assert (List.length a = 10)%nat as Ea by (apply take_length_le; lia). clearbody a b. subst s.
  pose proof H1 as [Ha Hb]%list.Forall_app. set (k := N.of_nat (List.length b)).
  assert (decimal_value (Decimal (a ++ b) x) == scaled (num a * 10 ^ k + num b) (x - 10 - Z.of_N k)) as Ev.
  { unfold decimal_value. cbn [digits point]. rewrite num_app, app_length, Ea by done. fold k. by replace (x - Z.of_nat (10 + List.length b))%Z with (x - 10 - Z.of_N k)%Z by lia. }
  assert (10 ^ 9 <= num a)%N as Hq1. { destruct a as [|c a]; [done|]. replace (10 ^ 9)%N with (10 ^ N.of_nat (List.length a))%N by (f_equal; cbn in Ea; lia). apply num_lower; [done|]. cbn in H3. congruence. }
  assert (num a < 10 ^ 10)%N as Hq2. { pose proof (num_upper a Ha) as Hu. by rewrite Ea in Hu. }
  pose proof (num_upper b Hb) as Hr. fold k in Hr. set (q := num a) in *. set (r := num b) in *.
  set (u := 10 ^ (x - 10)). assert (0 < u) as Hu by apply pow10_pos.
  set (f := ⌊r⌋ / ⌊10 ^ k⌋). assert (0 < ⌊10 ^ k⌋) as HkQ by (apply (inj_lt 0); assert (10 ^ k ≠ 0)%N by (by apply N.pow_nonzero); lia).
  assert (0 <= f) as Hf0 by (apply Qle_shift_div_l; [done|]; rewrite Qmult_0_l; apply (inj_le 0); lia).
  assert (f < 1) as Hf1 by (apply Qlt_shift_div_r; [done|]; rewrite Qmult_1_l; by apply inj_lt).
  assert (decimal_value (Decimal (a ++ b) x) == (⌊q⌋ + f) * u) as Ev'.
  { rewrite Ev. unfold scaled. rewrite inj_add, inj_mul. unfold Z.sub at 1. rewrite pow10_add, (Qpower_opp 10), pow10_N. fold u. unfold f. field. lra. }
  apply inj_le in Hq1 as Hq1'. change ⌊10 ^ 9⌋ with 1000000000 in Hq1'.
  assert (∃ y, short 10 y ∧ Qabs (y - (⌊q⌋ + f) * u) <= (1 # 2) * u) as (y & Hy & Hd).
  { destruct (Qlt_le_dec f (1 # 2)) as [Hf|Hf].
    - exists (scaled q (x - 10)). split; [by exists q, (x - 10)%Z|]. unfold scaled. fold u. destruct (abs_case (⌊q⌋ * u - (⌊q⌋ + f) * u)) as [[? ->]|[? ->]]; nra.
    - exists (scaled (q + 1) (x - 10)). split.
      + destruct (N.eq_dec (q + 1) (10 ^ 10)) as [E|E]; [|exists (q + 1)%N, (x - 10)%Z; split; [lia|done]].
        exists 1%N, x. split; [done|]. rewrite E, <- (N.mul_1_l (10 ^ 10)), scaled_shift. by replace (x - 10 + Z.of_N 10)%Z with x by lia.
      + unfold scaled. fold u. rewrite inj_add. change ⌊1⌋ with 1. destruct (abs_case ((⌊q⌋ + 1) * u - (⌊q⌋ + f) * u)) as [[? ->]|[? ->]]; nra. }
  exists y. split; [done|]. rewrite Ev'. change (10 ^ (-9)) with (1 # 1000000000).
  assert (u <= (1 # 1000000000) * ((⌊q⌋ + f) * u)); [|lra]. assert (1 <= (1 # 1000000000) * (⌊q⌋ + f)) as H by lra. nra.
Qed.
Lemma rounded_error u x v w : number_value u = Some x → finite_value x = Some v → rounded 10 v w → off_by ((1 # 2) * 10 ^ (-9)) v w.
Proof.
  intros Hx Hv [Hs Hr]. assert (∃ y, short 10 y ∧ Qabs (y - v) <= (1 # 2) * 10 ^ (-9) * v) as (y & Hy & Hd).
  { destruct (finite_cases x v Hv) as [[-> ->]|(m & e & -> & ->)].
    - exists 0. split; [by exists 0%N, 0%Z|]. by vm_compute.
    - destruct (decimal_near _ (decimal_of_wf m e (number_value_sound _ _ Hx))) as (y & Hy & Hd). exists y. split; [done|]. by rewrite decimal_of_value in Hd. }
  unfold off_by. apply Qle_trans with (Qabs (y - v)); [|done]. rewrite (Qabs_Qminus w), (Qabs_Qminus y).
  destruct (Hr y Hy) as [E|[?|[? _]]]; [by rewrite E; apply Qle_refl|lra..].
Qed.
(*P C87_error *)
(** It is off from the Value by at most half a part in 10^9, *)
Lemma p87_error (t : ast) u x v :
  kind_of t = KValueNumber → str_of FSource t = [] → get FValue t = Some (VFloat (Some (tt, str u))) →
  number_value u = Some x → finite_value x = Some v →
  ∃ w n, format t = Ok w ∧ literal w n ∧ off_by ((1 # 2) * 10 ^ (-9)) v (denoted n).
Proof.
  intros Hk Hs Hg Hx Hv. destruct (p87 "" t u x v Hk Hs Hg Hx Hv) as (w & n & H1 & _ & H2 & H3). exists w, n. split; [done|]. split; [done|].
  by eapply rounded_error.
Qed.
(*P C87_exact *)
(** and exact if ten digits are enough. *)
Lemma p87_exact (t : ast) u x v :
  kind_of t = KValueNumber → str_of FSource t = [] → get FValue t = Some (VFloat (Some (tt, str u))) →
  number_value u = Some x → finite_value x = Some v → short 10 v →
  ∃ w n, format t = Ok w ∧ literal w n ∧ denoted n == v.
Proof.
  intros Hk Hs Hg Hx Hv Hsh. destruct (p87 "" t u x v Hk Hs Hg Hx Hv) as (w & n & H1 & _ & H2 & H3). exists w, n. split; [done|]. split; [done|].
  eapply (rounded_unique 10 v); [done|done|]. by apply rounded_exact.
Qed.

(*P C88_value_survives_refuted *)
(** The Value can be another one after formatting and reading: *)
Lemma p88_refuted :
  ∃ (t : ast) u x v w x' v', kind_of t = KValueNumber ∧ str_of FSource t = [] ∧ get FValue t = Some (VFloat (Some (tt, str u))) ∧
    number_value u = Some x ∧ finite_value x = Some v ∧
    format t = Ok w ∧ number_value w = Some x' ∧ finite_value x' = Some v' ∧ ¬ v' == v.
Proof.
  exists (T no_pos KValueNumber [(FValue, VFloat (Some (tt, "1234567890.5"))); (FSource, VStr "")]), (chars "1234567890.5").
  eexists _, _, _, _, _. split; [done|]. split; [done|]. split; [done|]. split; [vm_compute; reflexivity|]. split; [done|].
  split; [vm_compute; reflexivity|]. split; [vm_compute; reflexivity|]. split; [done|]. by vm_compute.
Qed.
(*P C88_ten_digits_partial *)
(** It is the same if the number was read from a literal of at most ten digits. *)
Lemma p88 (t : ast) u n :
  kind_of t = KValueNumber → str_of FSource t = [] → get FValue t = Some (VFloat (Some (tt, str u))) →
  literal u n → (mantissa n < 10 ^ 10)%N → (Z.abs (exponent n - Z.of_nat (fraction n)) <= 40)%Z → (N.of_nat (List.length u) < 2 ^ 27)%N →
  ∃ x v w x' v', number_value u = Some x ∧ finite_value x = Some v ∧
    format t = Ok w ∧ number_value w = Some x' ∧ finite_value x' = Some v' ∧ v' == v.
Proof.
  intros Hk Hs Hg Hl Hm Hd Hu. destruct (read_back u n Hl Hm Hd Hu) as (x & v & x' & v' & H1 & H2 & H3 & H4 & H5).
  exists x, v, (float_text x), x', v'. split; [done|]. split; [done|]. split; [|done].
  rewrite (number_format _ _ Hk Hs Hg), chars_str, (no_minus u x H1). by destruct x.
Qed.
