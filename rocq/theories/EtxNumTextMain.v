(** * Proofs about the text of numbers: what is written, and what it is read as *)
From Coq Require Import Ascii String NArith ZArith QArith Qabs Qpower Lqa Lia.
From stdpp Require Import base list list_numbers option.
From Verif Require Import GoBase EtxText EtxUtil EtxUtilSpec EtxLex EtxLexSpec EtxLexOps EtxNumProofs EtxFloat EtxFloatSpec EtxFloatProofs EtxFloatError EtxFloatMain.
From Verif Require Import EtxNumText EtxNumTextSpec EtxNumTextProofs.
Local Open Scope string_scope.
Local Open Scope list_scope.
Local Open Scope Q_scope.

(** ** The text is a literal *)
Lemma decs_groups s : decs s → s ≠ [] → groups is_digit s.
Proof.
  induction 1 as [|c s Hc Hs IH]; [done|]. intros _. destruct s as [|d s]; [by constructor|]. apply groups_digit; [done|by apply IH].
Qed.
Definition exponent_of (x : Z) : text :=
  "e"%char :: (if (x <? 0)%Z then "-"%char else "+"%char) ::
  (if (Z.abs x <? 10)%Z then chars "0" else []) ++ (if (x =? 0)%Z then chars "0" else utoa (Z.abs_N x)).
Lemma exponent_written x : exponent_part (exponent_of x) x.
Proof.
  unfold exponent_of. set (ds := (if (Z.abs x <? 10)%Z then chars "0" else []) ++ (if (x =? 0)%Z then chars "0" else utoa (Z.abs_N x))).
  assert (decs ds ∧ ds ≠ [] ∧ num ds = Z.abs_N x) as (H1 & H2 & H3).
  { assert (∀ (a b : text), (a = [] ∨ a = chars "0") → decs b → b ≠ [] → decs (a ++ b) ∧ a ++ b ≠ [] ∧ num (a ++ b) = num b) as Hp.
    { intros a b [-> | ->] Hb Hn; [done|]. split; [by constructor|]. split; [done|]. cbn [app chars list_ascii_of_string]. rewrite num_cons by (by constructor). done. }
    unfold ds. clear ds. destruct (Z.eqb_spec x 0) as [->|Hx]; [split; [by repeat constructor|by vm_compute]|]. destruct (utoa_ok (Z.abs_N x)) as (U1 & U2 & U3). destruct U3 as [_ U3]; [lia|].
    rewrite <- U2 at 4. apply Hp; [|done..]. destruct (Z.abs x <? 10)%Z; auto. }
  clearbody ds. pose proof (decs_groups ds H1 H2) as Hg. assert ("e"%char ∈ chars "eE") as He by (by left).
  destruct (Z.ltb_spec x 0) as [Hx|Hx].
  - pose proof (exponent_minus "e" ds He Hg) as H. rewrite H3 in H. by replace (- Z.of_N (Z.abs_N x))%Z with x in H by lia.
  - pose proof (exponent_plus "e" ds He Hg) as H. rewrite H3 in H. by replace (Z.of_N (Z.abs_N x))%Z with x in H by lia.
Qed.
Lemma utoa_loop_length fuel : ∀ n s, (List.length (utoa_loop fuel n s) <= fuel + List.length s)%nat.
Proof.
  induction fuel as [|fuel IH]; intros n s; cbn [utoa_loop]; [done|]. destruct (n =? 0)%N; [lia|].
  etransitivity; [apply IH|]. cbn [List.length]. lia.
Qed.
Lemma exponent_of_length x : (N.of_nat (List.length (exponent_of x)) <= 4 + N.size (Z.abs_N x))%N.
Proof.
  unfold exponent_of. cbn [List.length]. rewrite app_length.
  assert (List.length (if (Z.abs x <? 10)%Z then chars "0" else []) <= 1)%nat by (destruct (Z.abs x <? 10)%Z; cbn; lia).
  assert (List.length (if (x =? 0)%Z then chars "0" else utoa (Z.abs_N x)) <= 1 + N.to_nat (N.size (Z.abs_N x)))%nat.
  { destruct (x =? 0)%Z; [cbn; lia|]. unfold utoa. pose proof (utoa_loop_length (N.to_nat (N.size (Z.abs_N x))) (Z.abs_N x) []). cbn in *. lia. }
  lia.
Qed.
Lemma digit_at_map d (a n : nat) :
  (a + n <= List.length (digits d))%nat → map (λ i, digit_at d (Z.of_nat a + Z.of_nat i)) (seq 0 n) = take n (drop a (digits d)).
Proof.
  intros H. apply list_eq. intros i. destruct (decide (i < n)%nat) as [Hi|Hi].
  - rewrite lookup_take by done. rewrite lookup_drop. rewrite list_lookup_fmap, lookup_seq_lt by done. cbn [fmap option_fmap option_map].
    unfold digit_at. destruct (Z.ltb_spec (Z.of_nat a + Z.of_nat (0 + i)) 0) as [?|_]; [lia|].
    replace (Z.to_nat (Z.of_nat a + Z.of_nat (0 + i))) with (a + i)%nat by lia.
    destruct (digits d !! (a + i)%nat) eqn:E; [done|]. apply lookup_ge_None in E. lia.
  - rewrite lookup_take_ge by lia. apply lookup_ge_None. rewrite fmap_length, seq_length. lia.
Qed.
Lemma digit_at_zeros d (z n : nat) : (n = z + List.length (digits d))%nat →
  map (λ i, digit_at d (- Z.of_nat z + Z.of_nat i)) (seq 0 n) = replicate z "0"%char ++ digits d.
Proof.
  intros ->. apply list_eq. intros i. destruct (decide (i < z)%nat) as [Hi|Hi].
  - rewrite lookup_app_l by (by rewrite replicate_length). rewrite lookup_replicate_2 by done.
    rewrite list_lookup_fmap, lookup_seq_lt by lia. cbn [fmap option_fmap option_map]. unfold digit_at.
    destruct (Z.ltb_spec (- Z.of_nat z + Z.of_nat (0 + i)) 0) as [_|?]; [done|lia].
  - rewrite lookup_app_r by (rewrite replicate_length; lia). rewrite replicate_length. rewrite list_lookup_fmap.
    destruct (decide (i < z + List.length (digits d))%nat) as [Hl|Hl].
    + rewrite lookup_seq_lt by done. cbn [fmap option_fmap option_map]. unfold digit_at.
      destruct (Z.ltb_spec (- Z.of_nat z + Z.of_nat (0 + i)) 0) as [?|_]; [lia|].
      replace (Z.to_nat (- Z.of_nat z + Z.of_nat (0 + i))) with (i - z)%nat by lia.
      destruct (digits d !! (i - z)%nat) eqn:E; [done|]. apply lookup_ge_None in E. lia.
    + rewrite lookup_seq_ge by lia. symmetry. apply lookup_ge_None. lia.
Qed.
Lemma fmt_literal d : wf d → (List.length (digits d) <= 10)%nat →
  ∃ n, literal (fmt_g 10 d) n ∧ denoted n == decimal_value d ∧
    (exponent n - Z.of_nat (fraction n) = point d - Z.of_nat (List.length (digits d)) ∨ exponent n - Z.of_nat (fraction n) = 0 ∧ 0 <= point d - Z.of_nat (List.length (digits d)))%Z ∧
    (N.of_nat (List.length (fmt_g 10 d)) <= 20 + N.size (Z.abs_N (point d - 1)))%N.
Proof.
  intros (H1 & H2 & H3 & H4) Hl. destruct d as [s x]. cbn [digits point] in *. unfold fmt_g. cbn [digits point].
  set (n := List.length s) in *. assert (0 < n)%nat as Hn by (unfold n; destruct s; [done|cbn; lia]).
  set (ep := if ((Z.of_nat n <? 10) && (x <=? Z.of_nat n))%Z then Z.of_nat n else 10%Z).
  assert (ep <= 10)%Z as Hep by (unfold ep; destruct (Z.of_nat n <? 10)%Z, (x <=? Z.of_nat n)%Z; cbn; lia).
  destruct ((x - 1 <? -4)%Z || (ep <=? x - 1)%Z) eqn:E.
  - clear E. unfold fmt_e. cbn [digits point]. destruct s as [|c s]; [done|]. assert (n = S (List.length s)) as En by done. clearbody n. subst n.
    change (if (x - 1 <? 0)%Z then "-"%char else "+"%char) with (if (x - 1 <? 0)%Z then "-"%char else "+"%char).
    replace (Z.min 10 (Z.of_nat (S (List.length s))) - 1)%Z with (Z.of_nat (List.length s)) by lia.
    cbn [drop]. rewrite Nat2Z.id, firstn_all, Nat.sub_diag. cbn [replicate]. rewrite app_nil_r.
    change ("e"%char :: (if (x - 1 <? 0)%Z then "-"%char else "+"%char) :: (if (Z.abs (x - 1) <? 10)%Z then chars "0" else []) ++ (if (x - 1 =? 0)%Z then chars "0" else utoa (Z.abs_N (x - 1))))
      with (exponent_of (x - 1)).
    pose proof H1 as [Hc Hs]%list.Forall_cons. pose proof (exponent_of_length (x - 1)) as Hel. revert Hel. generalize (N.size (Z.abs_N (x - 1))) as L. intros L Hel. destruct s as [|c' s].
    + cbn [List.length Z.of_nat Z.ltb Z.compare app].
      exists (Number (num [c]) 10 0 10 (x - 1)). split; [|split; [|split]].
      * apply (literal_whole [c] (exponent_of (x - 1)) (x - 1)); [by constructor|apply exponent_written|]. intros _. by right.
      * unfold denoted, decimal_value, scaled. cbn [mantissa exponent fraction digits point List.length].
        by replace (x - 1 - Z.of_nat 0)%Z with (x - Z.of_nat 1)%Z by lia.
      * left. cbn [exponent fraction List.length]. lia.
      * change (0 <? Z.of_nat 0)%Z with false. cbn [List.length app]. lia.
    + set (f := c' :: s) in *. assert ((0 <? Z.of_nat (List.length f))%Z = true) as -> by done. cbn [app].
      exists (Number (num ([c] ++ f)) 10 (count_digits f) 10 (x - 1)). rewrite decs_count by done. split; [|split; [|split]].
      * rewrite <- (decs_count f) by done. apply (literal_fraction [c] f (exponent_of (x - 1)) (x - 1)); [right; by constructor|by apply decs_groups|apply exponent_written].
      * unfold denoted, decimal_value, scaled. cbn [mantissa exponent fraction digits point app]. change (List.length (c :: f)) with (S (List.length f)).
        by replace (x - 1 - Z.of_nat (List.length f))%Z with (x - Z.of_nat (S (List.length f)))%Z by lia.
      * left. cbn [exponent fraction]. change (List.length (c :: f)) with (S (List.length f)). lia.
      * cbn [List.length]. rewrite app_length. change (drop 0 f) with f. lia.
  - apply orb_false_elim in E as [E1%Z.ltb_ge E2%Z.leb_gt]. assert (x <= 10)%Z as Hx by lia. unfold fmt_f. cbn [digits point].
    destruct (Z_lt_le_dec x (Z.of_nat n)) as [Hlt|Hge].
    + assert ((x <? 10)%Z = true) as -> by (apply Z.ltb_lt; lia). rewrite Z.max_l by lia.
      assert ((0 <? Z.of_nat n - x)%Z = true) as -> by (apply Z.ltb_lt; lia).
      destruct (Z.ltb_spec 0 x) as [Hp|Hp].
      * set (k := Z.to_nat x). assert (x = Z.of_nat k) as Ex by lia. clearbody k. subst x.
        rewrite (proj2 (Nat.sub_0_le k (List.length s))) by lia. cbn [replicate]. rewrite app_nil_r.
        replace (Z.to_nat (Z.of_nat n - Z.of_nat k)) with (n - k)%nat by lia.
        rewrite (digit_at_map (Decimal s (Z.of_nat k)) k (n - k)) by (cbn [digits]; unfold n in *; lia). cbn [digits].
        rewrite (take_ge (drop k s)) by (rewrite drop_length; done).
        assert (decs (take k s) ∧ decs (drop k s)) as [Ht Hd] by (split; [by apply Forall_take|by apply Forall_drop]).
        assert (List.length (drop k s) = n - k)%nat as Ed by apply drop_length.
        assert (drop k s ≠ []) as Hdn by (intros E'; rewrite E' in Ed; cbn in Ed; lia).
        exists (Number (num (take k s ++ drop k s)) 10 (count_digits (drop k s)) 10 0). rewrite decs_count by done. split; [|split; [|split]].
        -- rewrite <- (decs_count (drop k s)) by done. pose proof (literal_fraction (take k s) (drop k s) [] 0) as Hlit. rewrite app_nil_r in Hlit.
           apply Hlit; [|by apply decs_groups|constructor]. right. apply decs_groups; [done|]. intros E'. apply (f_equal (@List.length _)) in E'. rewrite take_length in E'. cbn in E'. lia.
        -- unfold denoted, decimal_value, scaled. cbn [mantissa exponent fraction digits point]. rewrite take_drop, Ed. fold n.
           by replace (0 - Z.of_nat (n - k))%Z with (Z.of_nat k - Z.of_nat n)%Z by lia.
        -- left. cbn [exponent fraction]. rewrite Ed. lia.
        -- rewrite app_length, take_length. cbn [List.length]. rewrite Ed. lia.
      * set (z := Z.to_nat (- x)). assert (x = - Z.of_nat z)%Z as Ex by lia. clearbody z. subst x.
        replace (Z.to_nat (Z.of_nat n - - Z.of_nat z)) with (z + n)%nat by lia.
        rewrite (digit_at_zeros (Decimal s (- Z.of_nat z)) z) by done. cbn [digits]. set (f := replicate z "0"%char ++ s).
        assert (decs f) as Hf by (apply list.Forall_app; split; [apply decs_zeros|done]). assert (f ≠ []) as Hfn by (unfold f; destruct (replicate z "0"%char), s; done).
        assert (List.length f = z + n)%nat as Ef by (unfold f; by rewrite app_length, replicate_length).
        assert (num (chars "0" ++ f) = num s) as Enum.
        { cbn [chars list_ascii_of_string app]. rewrite num_cons by (by constructor). unfold f. rewrite num_app by (done || apply decs_zeros). rewrite num_zeros. change (digit_number "0"%char) with 0%N. lia. }
        exists (Number (num (chars "0" ++ f)) 10 (count_digits f) 10 0). rewrite decs_count by done. split; [|split; [|split]].
        -- rewrite <- (decs_count f) by done. pose proof (literal_fraction (chars "0") f [] 0) as Hlit. rewrite app_nil_r in Hlit.
           apply Hlit; [|by apply decs_groups|constructor]. right. by constructor.
        -- unfold denoted, decimal_value, scaled. cbn [mantissa exponent fraction digits point]. rewrite Enum, Ef. fold n.
           by replace (0 - Z.of_nat (z + n))%Z with (- Z.of_nat z - Z.of_nat n)%Z by lia.
        -- left. cbn [exponent fraction]. rewrite Ef. lia.
        -- cbn [chars list_ascii_of_string app List.length]. rewrite Ef. lia.
    + replace (Z.max ((if (x <? 10)%Z then Z.of_nat n else 10) - x) 0)%Z with 0%Z by (destruct (Z.ltb_spec x 10); lia).
      cbn [Z.ltb Z.compare]. rewrite app_nil_r. assert ((0 <? x)%Z = true) as -> by (apply Z.ltb_lt; lia).
      set (k := Z.to_nat x). assert (x = Z.of_nat k) as Ex by lia. clearbody k. subst x. rewrite take_ge by (fold n; lia). fold n.
      assert (decs (s ++ replicate (k - n) "0"%char)) as Hd by (apply list.Forall_app; split; [done|apply decs_zeros]).
      exists (Number (num (s ++ replicate (k - n) "0"%char)) 10 0 10 0). split; [|split; [|split]].
      * pose proof (literal_whole (s ++ replicate (k - n) "0"%char) [] 0) as Hlit. rewrite app_nil_r in Hlit. apply Hlit; [apply decs_groups; [done|by destruct s]|constructor|].
        intros Hh. by destruct s.
      * unfold denoted, decimal_value. cbn [mantissa exponent fraction digits point]. rewrite num_app by (done || apply decs_zeros). rewrite num_zeros, N.add_0_r, replicate_length.
        change (inject_Z (Z.of_N (num s * 10 ^ N.of_nat (k - n))) * 10 ^ (0 - Z.of_nat 0)) with (scaled (num s * 10 ^ N.of_nat (k - n)) 0). rewrite scaled_shift. fold n.
        by replace (0 + Z.of_N (N.of_nat (k - n)))%Z with (Z.of_nat k - Z.of_nat n)%Z by lia.
      * right. cbn [exponent fraction]. lia.
      * rewrite app_length, replicate_length. fold n. lia.
Qed.

(** ** Finite values are not 0 *)
Definition sound (x : float) : Prop := match x with FFin m _ => m ≠ 0%N | _ => True end.
Lemma round_bits_pos p m s : (1 <= p)%N → m ≠ 0%N → round_bits p m s ≠ 0%N.
Proof.
  intros Hp Hm. unfold round_bits. destruct (N.eqb_spec (cut p m) 0) as [E|E]; [done|].
  assert (1 <= m / 2 ^ cut p m)%N as H.
  { apply N.div_le_lower_bound; [by apply N.pow_nonzero|]. rewrite N.mul_1_r. pose proof (size_bounds m Hm) as [H _]. etransitivity; [|exact H].
    apply N.pow_le_mono_r; [done|]. unfold cut in *. lia. }
  destruct (_ || _); lia.
Qed.
Lemma make_sound p m e s : (1 <= p)%N → m ≠ 0%N → sound (make p m e s).
Proof.
  intros Hp Hm. unfold make. destruct (_ <? _)%Z; [done|]. destruct (_ <? _)%Z; [done|]. destruct (_ <? _)%Z; [done|]. by apply round_bits_pos.
Qed.
Lemma mul_sound p x y : (1 <= p)%N → sound x → sound y → sound (mul p x y).
Proof.
  intros Hp Hx Hy. destruct x as [|m e|], y as [|m' e'|]; try done. apply make_sound; [done|]. by apply N.neq_mul_0.
Qed.
Lemma quo_sound p x y : (1 <= p)%N → sound x → sound y → sound (quo p x y).
Proof.
  intros Hp Hx Hy. destruct x as [|m e|], y as [|m' e'|]; try done. apply make_sound; [done|]. cbn in Hx, Hy.
  assert (1 <= m * 2 ^ (N.size m' + p + 1) / m')%N; [|lia]. apply N.div_le_lower_bound; [done|]. rewrite N.mul_1_r.
  pose proof (size_bounds m' Hy) as [_ H]. assert (2 ^ N.size m' <= 2 ^ (N.size m' + p + 1))%N by (apply N.pow_le_mono_r; lia). nia.
Qed.
Lemma pow5_sound p n : (1 <= p)%N → sound (pow5 p n).
Proof.
  intros Hp. unfold pow5. destruct (n - 27)%N as [|k]; [by apply N.pow_nonzero|].
  assert (∀ z f, sound z → sound f → sound (pow5_loop p z f k)) as H; [|by apply H; cbn].
  induction k as [k IH|k IH|]; intros z f Hz Hf; cbn [pow5_loop].
  - apply IH; apply mul_sound; done || lia.
  - apply IH; [done|]. apply mul_sound; done || lia.
  - by apply mul_sound.
Qed.
Lemma float_of_sound n : sound (float_of n).
Proof.
  unfold float_of. destruct (N.eqb_spec (mantissa n) 0) as [|Hm]; [done|]. destruct (decimal_exponent n).
  - by apply make_sound.
  - apply mul_sound; [done|done|by apply pow5_sound].
  - apply quo_sound; [done|done|by apply pow5_sound].
Qed.
Lemma number_value_sound u x : number_value u = Some x → sound x.
Proof. unfold number_value. intros (r & _ & ->)%fmap_Some_1. cbn. apply float_of_sound. Qed.

(** ** The text of a finite value *)
Lemma decimal_short p d : wf d → (List.length (digits d) <= p)%nat → short (N.of_nat p) (decimal_value d).
Proof.
  intros (H & _) Hl. eexists _, _. split; [|done]. eapply N.lt_le_trans; [by apply num_upper|]. apply N.pow_le_mono_r; lia.
Qed.
Lemma rounded_eq p x x' v v' : x == x' → v == v' → rounded p x v → rounded p x' v'.
Proof.
  intros Ex Ev [(m & e & Hm & E) H]. split; [exists m, e; split; [done|by rewrite <- Ev]|]. intros y Hy.
  destruct (H y Hy) as [?|[?|[? (m' & e' & Hm' & He' & E')]]]; [left|right; left|right; right; split]; [by rewrite <- Ev|by rewrite <- Ex, <- Ev..|].
  exists m', e'. split; [done|]. split; [done|]. by rewrite <- Ev.
Qed.
Lemma float_text_literal m e : m ≠ 0%N → ∃ n, literal (float_text (FFin m e)) n ∧ rounded 10 (dyadic m e) (denoted n).
Proof.
  intros Hm. destruct (round_ok 10 _ (decimal_of_wf m e Hm) ltac:(lia)) as (W & L & R). destruct (fmt_literal _ W L) as (n & H1 & H2 & _).
  exists n. split; [exact H1|]. eapply rounded_eq; [apply decimal_of_value|symmetry; exact H2|exact R].
Qed.
Lemma literal_lexed file s n : literal s n → lex file s = Ok (Lexed [Token TNumber s (start_pos file)] [(SRoot, [])]).
Proof.
  intros H%literal_text. destruct (number_head s H) as (c & u & E & _). apply lex_one; [by rewrite E|]. intros p.
  pose proof (lex_number SRoot [] [] p s [] ltac:(by left) H ltac:(constructor)) as Hx. by rewrite app_nil_r in Hx.
Qed.
Lemma literal_no_minus s n : literal s n → head s ≠ Some "-"%char.
Proof.
  intros H%literal_text. destruct (number_head s H) as (c & u & -> & Hc). intros E. injection E as ->. done.
Qed.
Lemma finite_cases x v : finite_value x = Some v → x = FZero ∧ v = 0 ∨ ∃ m e, x = FFin m e ∧ v = dyadic m e.
Proof. destruct x as [|m e|]; cbn; intros H; [left|right; exists m, e|done]; injection H as <-; done. Qed.
Lemma finite_text u x v : number_value u = Some x → finite_value x = Some v →
  ∃ n, literal (float_text x) n ∧ rounded 10 v (denoted n).
Proof.
  intros Hx Hv. pose proof (number_value_sound _ _ Hx) as Hs. destruct (finite_cases x v Hv) as [[-> ->]|(m & e & -> & ->)].
  - exists (Number 0 10 0 10 0). split.
    + change (float_text FZero) with (chars "0" ++ []). apply (literal_whole (chars "0") [] 0); [by constructor|constructor|by left].
    + apply rounded_exact; [by exists 0%N, 0%Z|done].
  - by apply float_text_literal.
Qed.

(** ** Reading the text *)
Lemma short_apart a w m e m' e' : (m < 10 ^ 10)%N → (m' < 10 ^ 10)%N → a == scaled m e → w == scaled m' e' → ¬ w == a →
  a < 10 ^ 10 * Qabs (w - a) ∨ w < 10 ^ 10 * Qabs (w - a).
Proof.
  assert (∀ (m m' : N) e e' a w, (e <= e')%Z → (m < 10 ^ 10)%N → a == scaled m e → w == scaled m' e' → ¬ w == a → a < 10 ^ 10 * Qabs (w - a)) as H.
  { clear. intros m m' e e' a w He Hm Ea Ew Hn. set (k := Z.to_N (e' - e)). pose proof (pow10_pos e) as Hp.
    assert (w == scaled (m' * 10 ^ k) e) as Ew'. { rewrite Ew, scaled_shift. by replace (e + Z.of_N k)%Z with e' by lia. }
    set (j := (m' * 10 ^ k)%N) in *. apply inj_lt in Hm. rewrite <- pow10_N in Hm. change (Z.of_N 10) with 10%Z in Hm.
    assert (a < 10 ^ 10 * 10 ^ e) as Ha by (rewrite Ea; unfold scaled; by apply Qmult_lt_compat_r).
    assert (10 ^ e <= Qabs (w - a)) as Hd; [|apply Qlt_le_trans with (10 ^ 10 * 10 ^ e); [done|apply Qmult_le_l; done]].
    assert (j ≠ m) as Hj by (intros ->; apply Hn; by rewrite Ew', Ea). rewrite Ew', Ea. unfold scaled.
    assert (j + 1 <= m ∨ m + 1 <= j)%N as [Hx|Hx] by lia; apply inj_le in Hx; rewrite inj_add in Hx; change ⌊1⌋ with 1 in Hx;
      destruct (abs_case (⌊j⌋ * 10 ^ e - ⌊m⌋ * 10 ^ e)) as [[? ->]|[? ->]]; nra. }
  intros Hm Hm' Ea Ew Hn. destruct (Z_le_gt_dec e e') as [He|He]; [left; by eapply (H m m' e e')|right].
  rewrite Qabs_Qminus. eapply (H m' m e' e); [lia|done..|]. intros E. apply Hn. by symmetry.
Qed.
Lemma rounded_close a v w : short 10 a → 0 < a → off_by (2 ^ (-52)) a v → rounded 10 v w → w == a.
Proof.
  intros (m & e & Hm & Ea) Hpos Hoff [(m' & e' & Hm' & Ew) H]. specialize (H a). destruct (Qeq_dec w a) as [E|E]; [done|exfalso].
  assert (Qabs (v - w) <= Qabs (v - a)) as Hd.
  { destruct H as [H|[H|[H _]]]; [by exists m, e|exfalso; apply E; by symmetry|lra..]. }
  unfold off_by in Hoff. assert (Qabs (w - a) <= 2 ^ (-51) * a) as Hw.
  { change (2 ^ (-52)) with (1 # 4503599627370496) in Hoff. change (2 ^ (-51)) with (1 # 2251799813685248).
    destruct (abs_case (w - a)) as [[? ->]|[? ->]], (abs_case (v - w)) as [[? E1]|[? E1]], (abs_case (v - a)) as [[? E2]|[? E2]]; rewrite E1, E2 in Hd; rewrite E2 in Hoff; lra. }
  change (2 ^ (-51)) with (1 # 2251799813685248) in Hw.
  destruct (short_apart a w m e m' e' Hm Hm' Ea Ew E) as [Hx|Hx]; change (10 ^ 10) with 10000000000 in Hx.
  - lra.
  - destruct (abs_case (w - a)) as [[? E1]|[? E1]]; rewrite E1 in *; lra.
Qed.
(** The last digit of a decimal stands for at least as much as that of any other way to write the number. *)
Lemma decimal_exp d m e : wf d → decimal_value d == scaled m e → (m < 10 ^ 10)%N →
  (e <= point d - Z.of_nat (List.length (digits d)) < e + 10)%Z.
Proof.
  intros (H1 & H2 & H3 & H4) E Hm. set (k := (point d - Z.of_nat (List.length (digits d)))%Z) in *. unfold decimal_value in E. fold k in E.
  pose proof (num_pos _ H1 H2 H4) as Hz. split.
  - destruct (Z_le_gt_dec e k) as [|Hlt]; [done|exfalso]. set (j := Z.to_N (e - k)).
    assert (scaled m e == scaled (m * 10 ^ j) k) as E'. { rewrite scaled_shift. by replace (k + Z.of_N j)%Z with e by lia. }
    rewrite E' in E. unfold scaled in E. apply Qmult_inj_r in E; [|pose proof (pow10_pos k); lra].
    assert (num (digits d) = m * 10 ^ j)%N as En. { apply N2Z.inj. apply (inject_Z_injective _ _). done. }
    destruct (digits d) as [|c s _] using rev_ind; [done|]. rewrite last_snoc in H4. rewrite num_snoc in En by done.
    assert (10 ^ j = 10 * 10 ^ (j - 1))%N as Ej by (rewrite <- N.pow_succ_r'; f_equal; lia). rewrite Ej in En.
    apply list.Forall_app in H1 as [_ Hc]. apply list.Forall_cons in Hc as [Hc _]. destruct (digit_table c Hc) as (_ & _ & H9 & _).
    assert (digit_number c = 0)%N as E0 by lia. apply zero_digit in E0; [|done]. congruence.
  - destruct (Z_lt_le_dec k (e + 10)) as [|Hge]; [done|exfalso].
    assert (⌊1⌋ <= ⌊num (digits d)⌋) as H by (apply inj_le; lia). change ⌊1⌋ with 1 in H.
    apply inj_lt in Hm. rewrite <- pow10_N in Hm. change (Z.of_N 10) with 10%Z in Hm.
    assert (scaled m e < 10 ^ (e + 10)) as Hu. { rewrite pow10_add. unfold scaled. rewrite (Qmult_comm (10 ^ e)). apply Qmult_lt_compat_r; [apply pow10_pos|done]. }
    assert (10 ^ (e + 10) <= 10 ^ k) as Hk by (apply Qpower_le_compat_l; [lia|done]).
    assert (10 ^ k <= scaled (num (digits d)) k) as Hl. { unfold scaled. rewrite <- (Qmult_1_l (10 ^ k)) at 1. apply Qmult_le_compat_r; [done|]. pose proof (pow10_pos k). lra. }
    rewrite E in Hl. lra.
Qed.
Lemma read_back u n : literal u n → (mantissa n < 10 ^ 10)%N → (Z.abs (exponent n - Z.of_nat (fraction n)) <= 40)%Z → (N.of_nat (List.length u) < 2 ^ 27)%N →
  ∃ x v x' v', number_value u = Some x ∧ finite_value x = Some v ∧
    number_value (float_text x) = Some x' ∧ finite_value x' = Some v' ∧ v' == v.
Proof.
  intros Hl Hm Hd Hs. pose proof (literal_lexed "f" u n Hl) as Hlex.
  destruct (p81 "f" u _ (Token TNumber u (start_pos "f")) n Hlex (elem_of_list_here _ _) eq_refl Hl ltac:(lia) ltac:(cbn [value]; lia)) as (x & v & Hx & Hv & Hn).
  destruct (p81_close "f" u _ (Token TNumber u (start_pos "f")) n Hlex (elem_of_list_here _ _) eq_refl Hl ltac:(lia) ltac:(cbn [value]; lia)) as (x2 & v2 & Hx2 & Hv2 & Hc).
  cbn [value] in *. rewrite Hx in Hx2. injection Hx2 as <-. rewrite Hv in Hv2. injection Hv2 as <-.
  exists x, v. pose proof (number_value_sound _ _ Hx) as Hsd. destruct (finite_cases x v Hv) as [[-> ->]|(m & e & -> & ->)].
  { exists FZero, 0. split; [done|]. split; [done|]. split; [by vm_compute|]. done. }
  set (d := round_decimal 10 (decimal_of m e)).
  destruct (round_ok 10 _ (decimal_of_wf m e Hsd) ltac:(lia)) as (W & L & R). fold d in W, L, R.
  destruct (fmt_literal d W L) as (n' & H1 & H2 & H3 & H4).
  assert (denoted n == scaled (mantissa n) (exponent n - Z.of_nat (fraction n))) as Ed by done.
  assert (0 < denoted n) as Hpos.
  { destruct (N.eq_dec (mantissa n) 0) as [Ez|Hz].
    - exfalso. assert (denoted n == 0) as E0 by (unfold denoted; rewrite Ez; change ⌊0⌋ with 0; ring). unfold off_by in Hc. rewrite E0, Qmult_0_r in Hc.
      assert (dyadic m e == 0) as E1 by (destruct (abs_case (dyadic m e - 0)) as [[? E1]|[? E1]]; rewrite E1 in Hc; lra).
      unfold dyadic in E1. pose proof (pow2_pos e). assert (⌊0⌋ < ⌊m⌋) as Hm0 by (apply inj_lt; cbn in Hsd; lia). change ⌊0⌋ with 0 in Hm0. nra.
    - unfold denoted. assert (⌊0⌋ < ⌊mantissa n⌋) as Hm0 by (apply inj_lt; lia). change ⌊0⌋ with 0 in Hm0. pose proof (pow10_pos (exponent n - Z.of_nat (fraction n))). nra. }
  assert (decimal_value d == denoted n) as Eq.
  { eapply rounded_close; [|done|exact Hc|]; [by eexists _, _|]. eapply rounded_eq; [apply decimal_of_value|reflexivity|exact R]. }
  assert (exponent n - Z.of_nat (fraction n) <= point d - Z.of_nat (List.length (digits d)) < exponent n - Z.of_nat (fraction n) + 10)%Z as He.
  { eapply decimal_exp; [done| |exact Hm]. by rewrite Eq. }
  assert (N.size (Z.abs_N (point d - 1)) <= 10)%N as Hsz. { apply size_le. change (2 ^ 10)%N with 1024%N. lia. }
  pose proof (literal_lexed "f" _ n' H1) as Hlex'.
  destruct (p81 "f" _ _ (Token TNumber (fmt_g 10 d) (start_pos "f")) n' Hlex' (elem_of_list_here _ _) eq_refl H1 ltac:(lia) ltac:(cbn [value]; lia)) as (x' & v' & Hx' & Hv' & Hn').
  cbn [value] in *. exists x', v'. split; [done|]. split; [done|]. split; [exact Hx'|]. split; [done|].
  eapply nearest_unique; [|exact Hn'|]; [done|]. eapply nearest_eq; [|exact Hn]. by rewrite H2.
Qed.
