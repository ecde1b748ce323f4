(** * Number literals: proofs *)
From stdpp Require Import base list option strings.
From Coq Require Import Ascii NArith ZArith Lia.
From Verif Require Import GoBase EtxHeap EtxText EtxTextFacts EtxLex EtxLexSpec EtxLexFacts EtxLexNest EtxLexOps
  EtxLexIdent EtxLexString EtxUtil EtxUtilSpec EtxUtilProofs.


(** Characters that are digits of a class or underscores. *)
Definition digits_of (P : ascii → bool) (s : text) : Prop := Forall (λ c, P c = true ∨ c = "_"%char) s.
Definition class_check (P : ascii → bool) (b : N) : bool :=
  forallb (λ c, implb (P c)
    (is_hex c && negb (Ascii.eqb c "_") && negb (Ascii.eqb c ".") && (digit_value c <? b)%N)) all_ascii.
Lemma class_digit P b c :
  class_check P b = true → P c = true →
  is_hex c = true ∧ c ≠ "_"%char ∧ c ≠ "."%char ∧ (digit_value c < b)%N.
Proof.
  intros H Hc. pose proof (for_all_ascii _ H c) as H'. cbn beta in H'. rewrite Hc in H'. simpl in H'.
  apply andb_prop in H' as [[[H1 H2]%andb_prop H3]%andb_prop H4].
  apply negb_true_iff, Ascii.eqb_neq in H2, H3. apply N.ltb_lt in H4. done.
Qed.
Lemma digit_value_of c : is_hex c = true → digit_value c = digit_of c.
Proof.
  assert (forallb (λ c, implb (is_hex c) (digit_value c =? digit_of c)%N) all_ascii = true) as H by (vm_compute; reflexivity).
  intros Hc. pose proof (for_all_ascii _ H c) as H'. cbn beta in H'. rewrite Hc in H'. by apply N.eqb_eq in H'.
Qed.

(** ** Separators *)
Definition sep_step (x : previous * bool) (c : ascii) : previous * bool :=
  if Ascii.eqb c "_" then (PSeparator, x.2 || negb (is_dig x.1)) else (PDigit, x.2).
Definition sep_run (x : previous * bool) (ds : text) : previous * bool := foldl sep_step x ds.
Definition sep_ok (x : previous * bool) : bool := negb (x.2 || is_sep x.1).
Lemma sep_bad p ds : (sep_run (p, true) ds).2 = true.
Proof.
  revert p. induction ds as [|c ds IH]; intros p; [done|]. unfold sep_run in *. simpl.
  unfold sep_step at 2. simpl. destruct (Ascii.eqb c "_"); apply IH.
Qed.
Lemma sep_bad_ok p ds : sep_ok (sep_run (p, true) ds) = false.
Proof. unfold sep_ok. by rewrite sep_bad. Qed.
Section seps.
Context (P : ascii → bool) (HP : ∀ c, P c = true → c ≠ "_"%char).
Lemma sep_digit_step c p b : P c = true → sep_step (p, b) c = (PDigit, b).
Proof. intros Hc%HP. unfold sep_step. by apply Ascii.eqb_neq in Hc as ->. Qed.
Lemma sep_run_ok ds :
  digits_of P ds →
  (sep_ok (sep_run (PElse, false) ds) = true ↔ ds = [] ∨ groups P ds) ∧
  (sep_ok (sep_run (PSeparator, false) ds) = true ↔ groups P ds) ∧
  (sep_ok (sep_run (PDigit, false) ds) = true ↔ ds = [] ∨ after_prefix P ds).
Proof.
  induction 1 as [|c ds Hc Hds (IH1 & IH2 & IH3)].
  - split; [|split].
    + split; [by left|done].
    + split; [done|]. inversion 1.
    + split; [by left|done].
  - assert (Hno : ∀ s, groups P ("_"%char :: s) → False).
    { inversion 1; by eapply HP. }
    assert (Hg : P c = true → (groups P (c :: ds) ↔ sep_ok (sep_run (PDigit, false) ds) = true)).
    { intros Hp. rewrite IH3. split.
      - inversion 1; subst; [by left|right; by left|]. right. right. eauto.
      - intros [->|[Hg|(s' & -> & Hg)]]; by constructor. }
    destruct Hc as [Hc | ->].
    + unfold sep_run in *. cbn [foldl]. rewrite !(sep_digit_step c) by done. pose proof (Hg Hc) as Hg'. split; [|split].
      * rewrite <- Hg'. split; [by right|by intros [?|?]].
      * by rewrite <- Hg'.
      * rewrite <- Hg'. split; [intros ?; right; by left|]. intros [?|[?|(s' & E & _)]]; [done|done|].
        injection E as -> _. by destruct (HP _ Hc).
    + unfold sep_run in *. cbn [foldl]. unfold sep_step at 2 4 6. cbn [Ascii.eqb Bool.eqb is_dig negb orb fst snd]. split; [|split].
      * split; [|intros [?|?%Hno]; done]. pose proof (sep_bad_ok PSeparator ds). unfold sep_run in *. congruence.
      * split; [|intros ?%Hno; done]. pose proof (sep_bad_ok PSeparator ds). unfold sep_run in *. congruence.
      * rewrite IH2. split.
        -- intros Hg'. right. right. eauto.
        -- intros [?|[?%Hno|(s' & E & ?)]]; [done|done|]. by injection E as <-.
Qed.
Lemma groups_digits ds : groups P ds → digits_of P ds.
Proof.
  unfold digits_of. induction 1; repeat (apply Forall_cons; split; [auto|]); auto.
Qed.
Lemma groups_count ds : groups P ds → count_digits ds ≠ 0%nat.
Proof.
  unfold count_digits. intros H. destruct H as [c Hc|c s Hc H|c s Hc H]; rewrite filter_cons_True by (by apply HP); done.
Qed.
Lemma count_sep_ok ds :
  digits_of P ds → count_digits ds = 0%nat → ds = [] ∨ sep_ok (sep_run (PElse, false) ds) = false.
Proof.
  intros Hds Hc. destruct (sep_ok (sep_run (PElse, false) ds)) eqn:E; [|by right].
  apply (proj1 (sep_run_ok ds Hds)) in E as [->|Hg]; [by left|]. by apply groups_count in Hg.
Qed.
End seps.

(** ** Scanning *)
Definition mant_run (b : N) (v : N) (ds : text) : N :=
  foldl (λ v c, if Ascii.eqb c "_" then v else (v * b + digit_value c)%N) v ds.
Definition scan_stops (b : N) (point : bool) (t : text) : Prop :=
  match t with
  | [] => True
  | c :: _ => c ≠ "_"%char ∧ (c = "."%char → point = true) ∧ (b ≤ digit_value c)%N
  end.
Lemma scan_run P b x ds t :
  class_check P b = true → digits_of P ds →
  scan_mantissa b x (ds ++ t) =
  scan_mantissa b (Scan (mant_run b (smant x) ds) (scount x + count_digits ds) (spoint x)
    (sep_run (sprev x, sbad x) ds).1 (sep_run (sprev x, sbad x) ds).2) t.
Proof.
  intros HP H. revert x. induction H as [|c ds Hc H IH]; intros x.
  - simpl. unfold count_digits. simpl. rewrite Nat.add_0_r. by destruct x.
  - destruct Hc as [Hc | ->].
    + destruct (class_digit P b c HP Hc) as (_ & Hu & Hp & Hd).
      change ((c :: ds) ++ t) with (c :: (ds ++ t)). cbn [scan_mantissa].
      pose proof Hu as Hu'. pose proof Hp as Hp'. apply Ascii.eqb_neq in Hu', Hp'. rewrite Hu', Hp'. cbn [andb].
      apply N.leb_gt in Hd. rewrite Hd, IH. cbn [smant scount spoint sprev sbad].
      unfold mant_run, sep_run, count_digits. rewrite filter_cons_True by done. cbn [foldl length].
      assert (sep_step (sprev x, sbad x) c = (PDigit, sbad x)) as -> by (unfold sep_step; by rewrite Hu').
      rewrite Hu'. do 2 f_equal. lia.
    + change (("_"%char :: ds) ++ t) with ("_"%char :: (ds ++ t)). cbn [scan_mantissa Ascii.eqb Bool.eqb andb].
      rewrite IH. cbn [smant scount spoint sprev sbad]. unfold count_digits. rewrite filter_cons_False by (by intros []).
      done.
Qed.
Lemma scan_stop b x t :
  scan_stops b (bool_decide (spoint x ≠ None)) t → scan_mantissa b x t = (x, t).
Proof.
  destruct t as [|c t]; [done|]. simpl. intros (Hu & Hp & Hd). apply Ascii.eqb_neq in Hu. rewrite Hu.
  apply N.leb_le in Hd. rewrite Hd. destruct (Ascii.eqb c ".") eqn:E; [|done].
  apply Ascii.eqb_eq in E. apply Hp in E. apply bool_decide_eq_true in E. rewrite bool_decide_false by done. done.
Qed.
Lemma mant_numeral P b v ds :
  class_check P b = true → digits_of P ds →
  mant_run b v ds = foldl (λ v c, (v * b + digit_of c)%N) v (filter (λ c, c ≠ "_"%char) ds).
Proof.
  intros HP H. revert v. induction H as [|c ds Hc H IH]; intros v; [done|]. destruct Hc as [Hc | ->].
  - destruct (class_digit P b c HP Hc) as (Hh & Hu & _). rewrite filter_cons_True by done. unfold mant_run in *.
    cbn [foldl]. pose proof Hu as Hu'. apply Ascii.eqb_neq in Hu'. rewrite Hu', IH. by rewrite digit_value_of.
  - rewrite filter_cons_False by (by intros []). apply IH.
Qed.
Lemma class_no_sep P b : class_check P b = true → ∀ c, P c = true → c ≠ "_"%char.
Proof. intros H c Hc. by destruct (class_digit P b c H Hc) as (_ & ? & _). Qed.

Lemma exponent_ok_whole v b : b ∈ [2; 8; 10; 16]%N → ∀ x,
  exponent_ok (Number v b 0 10 x) = true ↔
  (v = 0%N ∨ (- 2 ^ 31 ≤ Z.of_N (N.size v) - 0 + x < 2 ^ 31)%Z).
Proof.
  intros Hb x. unfold exponent_ok, binary_exponent. cbn [mantissa base fraction exponent].
  assert ((if ((b =? 10) || (b =? 2))%N then Z.of_nat 0 else if (b =? 8)%N then (3 * Z.of_nat 0)%Z else (4 * Z.of_nat 0)%Z) = 0%Z) as ->.
  { destruct (_ || _)%bool; [done|]. by destruct (b =? 8)%N. }
  rewrite orb_true_iff, andb_true_iff, N.eqb_eq, Z.leb_le, Z.ltb_lt. done.
Qed.

(** ** Literals with a prefix *)
Lemma parse_prefixed P b x ds n :
  class_check P b = true → b ∈ [2; 8; 10; 16]%N → digits_of P ds →
  scan_prefix ("0"%char :: x :: ds) = (b, Scan 0 0 None PDigit false, ds) →
  parse_number ("0"%char :: x :: ds) = Some n ↔
  after_prefix P ds ∧ n = Number (numeral b ds) b 0 10 0 ∧ in_range n.
Proof.
  intros HP Hb Hds Hpre. unfold parse_number. rewrite Hpre.
  rewrite <- (app_nil_r ds) at 1. rewrite (scan_run P b _ ds []) by done. rewrite scan_stop by done.
  cbn [smant scount spoint sprev sbad Nat.add].
  rewrite (mant_numeral P b 0 ds HP Hds).
  destruct (sep_run_ok P (class_no_sep P b HP) ds Hds) as (_ & _ & H3).
  change (foldl (λ v c, (v * b + digit_of c)%N) 0%N (filter (λ d, d ≠ "_"%char) ds)) with (numeral b ds).
  destruct (sep_ok (sep_run (PDigit, false) ds)) eqn:Eok.
  - destruct (proj1 H3 eq_refl) as [->|Hap].
    + split; [done|]. intros [[Hg|(s & ? & _)] _]; [by inversion Hg|done].
    + unfold sep_ok in Eok. apply negb_true_iff, orb_false_iff in Eok as [-> ->].
      rewrite bool_decide_false; cycle 1.
      { destruct Hap as [Hg|(s & -> & Hg)]; apply (groups_count P (class_no_sep P b HP)) in Hg; [done|].
        unfold count_digits. rewrite filter_cons_False by (by intros []). done. }
      cbn [orb scan_exponent]. cbv zeta.
      pose proof (exponent_ok_whole (numeral b ds) b Hb 0) as He.
      destruct (exponent_ok (Number (numeral b ds) b 0 10 0)) eqn:Ee.
      * split.
        -- intros [= <-]. split; [done|]. split; [done|]. split; [cbn [exponent]; lia|]. apply He. done.
        -- by intros (_ & -> & _).
      * split; [done|]. intros (_ & -> & _ & Hr). apply He in Hr. done.
  - assert (Hbad : (sep_run (PDigit, false) ds).2 || is_sep (sep_run (PDigit, false) ds).1 = true).
    { unfold sep_ok in Eok. by apply negb_false_iff in Eok. }
    rewrite <- orb_assoc, Hbad, orb_true_r. split; [done|]. intros [Hap _].
    assert (false = true); [|done]. apply H3. by right.
Qed.
Lemma scan_hex x ds : x ∈ chars "xX" → scan_prefix ("0"%char :: x :: ds) = (16%N, Scan 0 0 None PDigit false, ds).
Proof. intros [->|[->|[]%elem_of_nil]%elem_of_cons]%elem_of_cons; done. Qed.
Lemma scan_bin x ds : x ∈ chars "bB" → scan_prefix ("0"%char :: x :: ds) = (2%N, Scan 0 0 None PDigit false, ds).
Proof. intros [->|[->|[]%elem_of_nil]%elem_of_cons]%elem_of_cons; done. Qed.
Lemma scan_oct x ds : x ∈ chars "oO" → scan_prefix ("0"%char :: x :: ds) = (8%N, Scan 0 0 None PDigit false, ds).
Proof. intros [->|[->|[]%elem_of_nil]%elem_of_cons]%elem_of_cons; done. Qed.
Lemma check_hex : class_check is_hex 16 = true. Proof. by vm_compute. Qed.
Lemma check_dec : class_check is_digit 10 = true. Proof. by vm_compute. Qed.
Lemma check_oct : class_check is_octal 8 = true. Proof. by vm_compute. Qed.
Lemma check_bin : class_check is_binary 2 = true. Proof. by vm_compute. Qed.
(** A digit that is no octal digit. *)
Lemma parse_octal_bad ds :
  digits_of is_digit ds → ¬ digits_of is_octal ds → parse_number ("0"%char :: "o"%char :: ds) = None.
Proof.
  intros Hds Hn.
  assert (∃ d1 c d2, ds = d1 ++ c :: d2 ∧ digits_of is_octal d1 ∧ is_digit c = true ∧ is_octal c = false) as
    (d1 & c & d2 & -> & Hd1 & Hc & Hc').
  { induction Hds as [|c ds Hc Hds IH]; [destruct Hn; constructor|].
    destruct (decide (is_octal c = true ∨ c = "_"%char)) as [Ho|Ho].
    - destruct IH as (d1 & c' & d2 & -> & ? & ? & ?).
      + intros H. apply Hn. by constructor.
      + exists (c :: d1), c', d2. split; [done|]. split; [by constructor|done].
    - exists [], c, ds. split; [done|]. split; [constructor|]. split; [destruct Hc; [done|tauto]|].
      destruct (is_octal c); [tauto|done]. }
  unfold parse_number. rewrite scan_oct by (repeat constructor).
  rewrite (scan_run is_octal 8 _ d1 (c :: d2)) by (done || apply check_oct).
  assert (forallb (λ c, implb (is_digit c && negb (is_octal c))
    (negb (Ascii.eqb c "_") && negb (Ascii.eqb c ".") && (8 <=? digit_value c)%N && negb (one_of_chars "eEpP" c))) all_ascii = true)
    as Hall by (vm_compute; reflexivity).
  pose proof (for_all_ascii _ Hall c) as H. cbn beta in H. rewrite Hc, Hc' in H. cbn [negb andb implb] in H.
  apply andb_prop in H as [[[H1 H2]%andb_prop H3]%andb_prop H4].
  rewrite scan_stop.
  - cbn [scount sbad sprev scan_exponent]. apply negb_true_iff in H4. rewrite H4.
    by destruct (_ || _)%bool.
  - apply negb_true_iff, Ascii.eqb_neq in H1, H2. apply N.leb_le in H3. done.
Qed.

(** ** Exponents *)
Lemma scan_digits_run x ds :
  digits_of is_digit ds → spoint x = None →
  scan_digits x ds =
  (Scan (mant_run 10 (smant x) ds) (scount x + count_digits ds) None
    (sep_run (sprev x, sbad x) ds).1 (sep_run (sprev x, sbad x) ds).2, []).
Proof.
  intros H. revert x. induction H as [|c ds Hc H IH]; intros x Hx.
  - simpl. unfold count_digits. simpl. rewrite Nat.add_0_r, <- Hx. by destruct x.
  - destruct Hc as [Hc | ->].
    + destruct (class_digit is_digit 10 c check_dec Hc) as (_ & Hu & Hp & Hd). cbn [scan_digits]. rewrite Hc, IH by done.
      pose proof Hu as Hu'. apply Ascii.eqb_neq in Hu'.
      cbn [smant scount spoint sprev sbad].
      unfold mant_run, sep_run, count_digits. rewrite filter_cons_True by done. cbn [foldl length].
      assert (sep_step (sprev x, sbad x) c = (PDigit, sbad x)) as -> by (unfold sep_step; by rewrite Hu').
      rewrite Hu'. do 2 f_equal. lia.
    + cbn [scan_digits]. change (is_digit "_") with false. cbn [Ascii.eqb Bool.eqb]. rewrite IH by done.
      cbn [smant scount spoint sprev sbad]. unfold count_digits. by rewrite filter_cons_False by (by intros []).
Qed.
(** The exponent parts of number tokens. *)
Definition exponent_text (e : text) : Prop :=
  e = [] ∨ ∃ c sg ds, e = c :: sg ++ ds ∧ c ∈ chars "eE" ∧ sg ∈ [[]; ["+"%char]; ["-"%char]] ∧ ds ≠ [] ∧ digits_of is_digit ds.
Lemma exponent_scan e eb x r :
  exponent_text e →
  scan_exponent e = Some (eb, x, r) ↔ eb = 10%N ∧ r = [] ∧ exponent_part e x ∧ (- 2 ^ 63 ≤ x < 2 ^ 63)%Z.
Proof.
  intros [->|(c & sg & ds & -> & Hc & Hsg & Hne & Hds)].
  { simpl. split.
    - intros [= <- <- <-]. split_and!; try done. constructor.
    - intros (-> & -> & H & _). by inversion H. }
  assert (Hexp : ∀ neg : bool, (let '(y, r) := scan_digits (Scan 0 0 None PElse false) ds in
    let z := if neg then (- Z.of_N (smant y))%Z else Z.of_N (smant y) in
    if bool_decide (scount y = 0%nat) || negb ((-2 ^ 63 <=? z)%Z && (z <? 2 ^ 63)%Z) || sbad y || is_sep (sprev y)
    then None else Some (10%N, z, r)) = Some (eb, x, r) ↔
    eb = 10%N ∧ r = [] ∧ groups is_digit ds ∧
      x = (if neg then - Z.of_N (numeral 10 ds) else Z.of_N (numeral 10 ds))%Z ∧ (- 2 ^ 63 ≤ x < 2 ^ 63)%Z).
  { intros neg. rewrite scan_digits_run by done. cbn [smant scount spoint sprev sbad Nat.add].
    rewrite (mant_numeral is_digit 10 0 ds check_dec Hds).
    change (foldl (λ v c, (v * 10 + digit_of c)%N) 0%N (filter (λ d, d ≠ "_"%char) ds)) with (numeral 10 ds).
    cbv zeta. set (z := if neg then (- Z.of_N (numeral 10 ds))%Z else Z.of_N (numeral 10 ds)).
    destruct (sep_run_ok is_digit (class_no_sep is_digit 10 check_dec) ds Hds) as (H1 & _ & _).
    destruct (sep_ok (sep_run (PElse, false) ds)) eqn:Eok.
    - destruct (proj1 H1 eq_refl) as [->|Hg]; [done|]. unfold sep_ok in Eok. apply negb_true_iff, orb_false_iff in Eok as [-> ->].
      rewrite bool_decide_false by (by apply (groups_count is_digit (class_no_sep is_digit 10 check_dec))).
      cbn [orb]. rewrite !orb_false_r.
      destruct ((-2 ^ 63 <=? z)%Z && (z <? 2 ^ 63)%Z) eqn:Er; cbn [negb].
      + apply andb_prop in Er as [Er1%Z.leb_le Er2%Z.ltb_lt]. split.
        * intros [= <- <- <-]. done.
        * by intros (-> & -> & _ & -> & _).
      + split; [done|]. intros (_ & _ & _ & -> & Hr). apply andb_false_iff in Er as [Er%Z.leb_gt|Er%Z.ltb_ge]; lia.
    - unfold sep_ok in Eok. apply negb_false_iff in Eok.
      rewrite <- orb_assoc, Eok, orb_true_r. split; [done|]. intros (_ & _ & Hg & _).
      assert (false = true); [|done]. apply H1. by right. }
  assert (Hcc : one_of_chars "eEpP" c = true ∧ one_of_chars "eE" c = true).
  { apply elem_of_cons in Hc as [->|[->|[]%elem_of_nil]%elem_of_cons]; done. }
  destruct Hcc as [Hc1 Hc2]. unfold scan_exponent. cbn [app]. rewrite Hc1, Hc2. cbn zeta.
  assert (Hgd : ∀ c s, groups is_digit (c :: s) → one_of_chars "+-" c = false).
  { intros d s Hg. assert (is_digit d = true) as Hd by (by inversion Hg).
    assert (forallb (λ c, implb (is_digit c) (negb (one_of_chars "+-" c))) all_ascii = true) as H by (vm_compute; reflexivity).
    pose proof (for_all_ascii _ H d) as H'. cbn beta in H'. rewrite Hd in H'. by apply negb_true_iff in H'. }
  apply elem_of_cons in Hsg as [->|[->|[->|[]%elem_of_nil]%elem_of_cons]%elem_of_cons].
  - cbn [app]. destruct ds as [|d ds]; [done|].
    assert (one_of_chars "+-" d = false) as ->.
    { apply Forall_cons in Hds as [Hd _]. destruct Hd as [Hd | ->]; [|done].
      assert (groups is_digit [d]) as Hg by (by constructor). by apply Hgd in Hg. }
    rewrite (Hexp false). split.
    + intros (-> & -> & Hg & -> & Hr). split_and!; try done; try lia. by constructor.
    + intros (-> & -> & Hp & Hr). inversion Hp as [|? ? He Hg|? ? He Hg|? ? He Hg]; subst; try done;
        apply Forall_cons in Hds as [[Hd|Hd] _]; done.
  - cbn [app]. change (one_of_chars "+-" "+") with true. change (Ascii.eqb "+" "-") with false. cbn iota.
    rewrite (Hexp false). split.
    + intros (-> & -> & Hg & -> & Hr). split_and!; try done; try lia. by constructor.
    + intros (-> & -> & Hp & Hr). inversion Hp as [|? ? He Hg|? ? He Hg|? ? He Hg]; subst; try done.
      apply Hgd in Hg. done.
  - cbn [app]. change (one_of_chars "+-" "-") with true. change (Ascii.eqb "-" "-") with true. cbn iota.
    rewrite (Hexp true). split.
    + intros (-> & -> & Hg & -> & Hr). split_and!; try done; try lia. by constructor.
    + intros (-> & -> & Hp & Hr). inversion Hp as [|? ? He Hg|? ? He Hg|? ? He Hg]; subst; try done.
      apply Hgd in Hg. done.
Qed.

(** ** Decimal literals *)
Definition plain_start : scan_state := Scan 0 0 None PElse false.
(** A leading 0 that is no prefix is a digit like any other. *)
Lemma scan_decimal s :
  match s with c :: d :: _ => c = "0"%char → one_of_chars "bBoOxX" d = false | _ => True end →
  ∃ x s1, scan_prefix s = (10%N, x, s1) ∧ scan_mantissa 10 x s1 = scan_mantissa 10 plain_start s.
Proof.
  intros H. destruct s as [|c s1]; [by eexists _, _|]. unfold scan_prefix. destruct (Ascii.eqb c "0") eqn:Ec.
  - apply Ascii.eqb_eq in Ec as ->. destruct s1 as [|d s2]; [by eexists _, _|].
    specialize (H eq_refl).
    assert (one_of_chars "bB" d = false ∧ one_of_chars "oO" d = false ∧ one_of_chars "xX" d = false) as (-> & -> & ->).
    { assert (forallb (λ d, implb (negb (one_of_chars "bBoOxX" d))
        (negb (one_of_chars "bB" d) && negb (one_of_chars "oO" d) && negb (one_of_chars "xX" d))) all_ascii = true) as Hall
        by (vm_compute; reflexivity).
      pose proof (for_all_ascii _ Hall d) as H'. cbn beta in H'. rewrite H in H'. cbn [negb implb] in H'.
      apply andb_prop in H' as [[?%negb_true_iff ?%negb_true_iff]%andb_prop ?%negb_true_iff]. done. }
    eexists _, _. split; [done|]. reflexivity.
  - by eexists _, _.
Qed.
Lemma exponent_stops b e : exponent_text e → scan_stops 10 b e.
Proof.
  intros [->|(c & sg & ds & -> & Hc & _)]; [done|]. simpl.
  apply elem_of_cons in Hc as [->|[->|[]%elem_of_nil]%elem_of_cons]; done.
Qed.
Lemma no_prefix_digits ds t :
  digits_of is_digit ds → ds ≠ [] →
  (match t with d :: _ => one_of_chars "bBoOxX" d = false | [] => True end) →
  match ds ++ t with c :: d :: _ => c = "0"%char → one_of_chars "bBoOxX" d = false | _ => True end.
Proof.
  intros Hds Hne Ht. destruct ds as [|c [|d ds]]; [done|destruct t; [exact I|intros _; exact Ht]|]. simpl. intros _.
  apply Forall_cons in Hds as [_ [[Hd | ->] _]%Forall_cons]; [|done].
  assert (forallb (λ c, implb (is_digit c) (negb (one_of_chars "bBoOxX" c))) all_ascii = true) as H by (vm_compute; reflexivity).
  pose proof (for_all_ascii _ H d) as H'. cbn beta in H'. rewrite Hd in H'. by apply negb_true_iff in H'.
Qed.
Lemma exponent_no_prefix e : exponent_text e → match e with d :: _ => one_of_chars "bBoOxX" d = false | [] => True end.
Proof.
  intros [->|(c & sg & ds & -> & Hc & _)]; [done|]. simpl.
  apply elem_of_cons in Hc as [->|[->|[]%elem_of_nil]%elem_of_cons]; done.
Qed.
Lemma numeral_app b s t :
  foldl (λ v c, (v * b + digit_of c)%N) (numeral b s) (filter (λ d, d ≠ "_"%char) t) = numeral b (s ++ t).
Proof. unfold numeral. by rewrite filter_app, foldl_app. Qed.

Lemma exponent_ok_decimal v f x :
  exponent_ok (Number v 10 f 10 x) = true ↔
  (v = 0%N ∨ (- 2 ^ 31 ≤ Z.of_N (N.size v) - Z.of_nat f + x < 2 ^ 31)%Z).
Proof.
  unfold exponent_ok, binary_exponent. cbn [mantissa base fraction exponent N.eqb Pos.eqb orb].
  rewrite orb_true_iff, andb_true_iff, N.eqb_eq, Z.leb_le, Z.ltb_lt. done.
Qed.
(** The end of parse_number for a decimal literal. *)
Lemma decimal_end v f e n :
  exponent_text e →
  match scan_exponent e with
  | Some (eb, x, []) => if exponent_ok (Number v 10 f eb x) then Some (Number v 10 f eb x) else None
  | _ => None
  end = Some n ↔ ∃ x, exponent_part e x ∧ n = Number v 10 f 10 x ∧ in_range n.
Proof.
  intros He. destruct (scan_exponent e) as [[[eb x] r]|] eqn:Es.
  - apply (exponent_scan e eb x r He) in Es as (-> & -> & Hp & Hr).
    pose proof (exponent_ok_decimal v f x) as Ho. destruct (exponent_ok _).
    + split; [|].
      * intros [= <-]. exists x. split; [done|]. split; [done|]. split; [done|]. by apply Ho.
      * intros (x' & Hp' & -> & Hr'). do 2 f_equal.
        assert (Some (10%N, x, []) = Some (10%N, x', @nil ascii)) as E; [|by injection E].
        transitivity (scan_exponent e).
        -- symmetry. by apply (exponent_scan e).
        -- apply (exponent_scan e); [done|]. exact (conj eq_refl (conj eq_refl (conj Hp' (proj1 Hr')))).
    + split; [done|]. intros (x' & Hp' & -> & Hr').
      assert (Some (10%N, x, []) = Some (10%N, x', @nil ascii)) as E.
      { transitivity (scan_exponent e); [symmetry; by apply (exponent_scan e)|].
        apply (exponent_scan e); [done|]. exact (conj eq_refl (conj eq_refl (conj Hp' (proj1 Hr')))). }
      injection E as ->. destruct Hr' as [_ Hr']. apply Ho in Hr'. done.
  - split; [done|]. intros (x & Hp & -> & Hr). assert (scan_exponent e = Some (10%N, x, [])); [|congruence].
    apply (exponent_scan e); [done|]. exact (conj eq_refl (conj eq_refl (conj Hp (proj1 Hr)))).
Qed.

Lemma parse_whole ds e n :
  digits_of is_digit ds → ds ≠ [] → exponent_text e →
  parse_number (ds ++ e) = Some n ↔
  groups is_digit ds ∧ ∃ x, exponent_part e x ∧ n = Number (numeral 10 ds) 10 0 10 x ∧ in_range n.
Proof.
  intros Hds Hne He. unfold parse_number.
  destruct (scan_decimal (ds ++ e)) as (x & s1 & -> & ->).
  { apply no_prefix_digits; [done..|]. by apply exponent_no_prefix. }
  rewrite (scan_run is_digit 10 _ ds e check_dec Hds), scan_stop by (by apply exponent_stops).
  cbn [plain_start smant scount spoint sprev sbad Nat.add]. rewrite (mant_numeral is_digit 10 0 ds check_dec Hds).
  change (foldl (λ v c, (v * 10 + digit_of c)%N) 0%N (filter (λ d, d ≠ "_"%char) ds)) with (numeral 10 ds).
  destruct (sep_run_ok is_digit (class_no_sep is_digit 10 check_dec) ds Hds) as (H1 & _ & _).
  destruct (sep_ok (sep_run (PElse, false) ds)) eqn:Eok.
  - destruct (proj1 H1 eq_refl) as [->|Hg]; [done|]. unfold sep_ok in Eok. apply negb_true_iff, orb_false_iff in Eok as [-> ->].
    rewrite bool_decide_false by (by apply (groups_count is_digit (class_no_sep is_digit 10 check_dec))). cbn [orb]. cbv zeta.
    rewrite (decimal_end (numeral 10 ds) 0 e n He). tauto.
  - unfold sep_ok in Eok. apply negb_false_iff in Eok. rewrite <- orb_assoc, Eok, orb_true_r.
    split; [done|]. intros [Hg _]. assert (false = true); [|done]. apply H1. by right.
Qed.
Lemma parse_fraction ds fs e n :
  digits_of is_digit ds → digits_of is_digit fs → fs ≠ [] → exponent_text e →
  parse_number (ds ++ "."%char :: fs ++ e) = Some n ↔
  (ds = [] ∨ groups is_digit ds) ∧ groups is_digit fs ∧
  ∃ x, exponent_part e x ∧ n = Number (numeral 10 (ds ++ fs)) 10 (count_digits fs) 10 x ∧ in_range n.
Proof.
  intros Hds Hfs Hne He. unfold parse_number.
  destruct (scan_decimal (ds ++ "."%char :: fs ++ e)) as (x & s1 & -> & ->).
  { destruct ds as [|d ds]; [simpl; by destruct fs|]. by apply no_prefix_digits. }
  rewrite (scan_run is_digit 10 _ ds _ check_dec Hds). cbn [plain_start smant scount spoint sprev sbad Nat.add].
  cbn [scan_mantissa Ascii.eqb Bool.eqb andb spoint]. rewrite bool_decide_true by done. cbn [smant scount sprev sbad].
  rewrite (scan_run is_digit 10 _ fs e check_dec Hfs). cbn [smant scount spoint sprev sbad].
  rewrite scan_stop by (by apply exponent_stops). cbn [smant scount spoint sprev sbad].
  rewrite (mant_numeral is_digit 10 _ fs check_dec Hfs), (mant_numeral is_digit 10 0 ds check_dec Hds).
  change (foldl (λ v c, (v * 10 + digit_of c)%N) 0%N (filter (λ d, d ≠ "_"%char) ds)) with (numeral 10 ds).
  rewrite numeral_app.
  destruct (sep_run_ok is_digit (class_no_sep is_digit 10 check_dec) ds Hds) as (H1 & _ & _).
  destruct (sep_run_ok is_digit (class_no_sep is_digit 10 check_dec) fs Hfs) as (H2 & _ & _).
  destruct (sep_ok (sep_run (PElse, false) ds)) eqn:Eok.
  - pose proof (proj1 H1 eq_refl) as Hg1. unfold sep_ok in Eok. apply negb_true_iff in Eok. rewrite Eok.
    destruct (sep_ok (sep_run (PElse, false) fs)) eqn:Eok2.
    + destruct (proj1 H2 eq_refl) as [->|Hg]; [done|]. unfold sep_ok in Eok2. apply negb_true_iff, orb_false_iff in Eok2 as [-> ->].
      pose proof (groups_count is_digit (class_no_sep is_digit 10 check_dec) fs Hg).
      rewrite bool_decide_false by lia. cbn [orb]. cbv zeta.
      replace (count_digits ds + count_digits fs - count_digits ds) with (count_digits fs) by lia.
      rewrite (decimal_end _ _ e n He). tauto.
    + unfold sep_ok in Eok2. apply negb_false_iff in Eok2. rewrite <- orb_assoc, Eok2, orb_true_r.
      split; [done|]. intros (_ & Hg & _). assert (false = true); [|done]. apply H2. by right.
  - unfold sep_ok in Eok. apply negb_false_iff in Eok. rewrite Eok, sep_bad, orb_true_r. cbn [orb].
    split; [done|]. intros (Hg & _). assert (false = true); [|done]. by apply H1.
Qed.

(** ** The texts of number tokens *)
Inductive number_text : text → Prop :=
| number_hex x ds : x ∈ chars "xX" → ds ≠ [] → digits_of is_hex ds → number_text ("0"%char :: x :: ds)
| number_bin x ds : x ∈ chars "bB" → digits_of is_binary ds → number_text ("0"%char :: x :: ds)
| number_oct x ds : x ∈ chars "oO" → digits_of is_octal ds → number_text ("0"%char :: x :: ds)
| number_whole ds e : digits_of is_digit ds → ds ≠ [] → exponent_text e → number_text (ds ++ e)
| number_fraction ds fs e :
    digits_of is_digit ds → digits_of is_digit fs → fs ≠ [] → exponent_text e →
    number_text (ds ++ "."%char :: fs ++ e).
Lemma one_of_elem s c : one_of_chars s c = true → c ∈ chars s.
Proof. unfold one_of_chars. intros (d & Hd & ->%Ascii.eqb_eq)%existsb_exists. by apply elem_of_list_In. Qed.
Lemma digits_impl (Q P : ascii → bool) v :
  forallb (λ c, implb (Q c) (P c || Ascii.eqb c "_")) all_ascii = true →
  Forall (λ c, Q c = true) v → digits_of P v.
Proof.
  intros H Hv. eapply Forall_impl; [done|]. intros c Hc. pose proof (for_all_ascii _ H c) as H'. cbn beta in H'.
  simpl in Hc. rewrite Hc in H'. cbn [implb] in H'. apply orb_true_iff in H' as [?|?%Ascii.eqb_eq]; tauto.
Qed.
Lemma number_shape v : lang re_number v → number_text v.
Proof.
  assert (Hd : ∀ v, Forall (λ c, digit_or "_" c = true) v → digits_of is_digit v).
  { intros w. apply digits_impl. by vm_compute. }
  unfold re_number. cbn [RAny]. intros [H|[H|[H|H]]].
  - destruct H as (v1 & v2 & -> & (c & -> & _ & <-%Ascii.eqb_eq) & v3 & v4 & -> & (x & -> & _ & Hx%one_of_elem) & [Hne H]%lang_plus_set).
    apply number_hex; [done|done|]. revert H. apply digits_impl. by vm_compute.
  - destruct H as (v1 & v2 & -> & (c & -> & _ & <-%Ascii.eqb_eq) & v3 & v4 & -> & (x & -> & _ & Hx%one_of_elem) & H%lang_star_set).
    apply number_bin; [done|]. revert H. apply digits_impl. by vm_compute.
  - destruct H as (v1 & v2 & -> & (c & -> & _ & <-%Ascii.eqb_eq) & v3 & v4 & -> & (x & -> & _ & Hx%one_of_elem) & H%lang_star_set).
    apply number_oct; [done|]. revert H. apply digits_impl. by vm_compute.
  - destruct H as (ds & v2 & -> & Hds%lang_star_set%Hd & pt & v3 & -> & Hpt & fs & e & -> & [Hne Hfs%Hd]%lang_plus_set & He).
    assert (exponent_text e) as He'.
    { destruct He as [(v1 & v2 & -> & (c & -> & _ & Hc%one_of_elem) & sg & ds' & -> & Hsg & [Hne' Hds']%lang_plus_set)| ->]; [|by left].
      right. exists c, sg, ds'. split; [done|]. split; [done|]. split; [|split; [done|by apply Hd]].
      destruct Hsg as [(s & -> & _ & Hs%one_of_elem)| ->]; [|left].
      apply elem_of_cons in Hs as [->|[->|[]%elem_of_nil]%elem_of_cons]; repeat constructor. }
    destruct Hpt as [(c & -> & _ & <-%Ascii.eqb_eq)| ->].
    + by apply (number_fraction ds fs e).
    + cbn [app]. rewrite (assoc_L (++)). apply number_whole; [by apply Forall_app|by destruct ds|done].
Qed.
Lemma number_step st p s t s' st' :
  lex_step st p s = Some (t, s', st') → kind_of_token t = TNumber → number_text (value t).
Proof.
  intros H Hk. apply lex_step_first in H as ([m g] & st0 & r & y & -> & Hf & Hs & _ & -> & Hr & ->).
  pose proof (first_match_elem _ _ _ _ Hf) as [Hin Hy]. apply rule_of_kind in Hin as [_ Hin].
  rewrite Hin in * by congruence. cbn [act pattern] in *. apply find_elem in Hy.
  apply matches_lang in Hy as (v & Hv & Hl). simpl in Hv. rewrite Hs in Hv. apply app_inv_tail in Hv. subst v.
  by apply number_shape.
Qed.

(** ** Capture *)
Lemma digit_or_digits ds : forallb (digit_or "_") ds = true ↔ digits_of is_digit ds.
Proof.
  rewrite forallb_forall. unfold digits_of. rewrite Forall_forall.
  assert (∀ c, digit_or "_" c = true ↔ is_digit c = true ∨ c = "_"%char) as H.
  { intros c. unfold digit_or, one_of_chars. simpl. rewrite orb_false_r, orb_true_iff, Ascii.eqb_eq. done. }
  split; intros Hf c Hc; [apply H, Hf; by apply elem_of_list_In|]. apply H, Hf. by apply elem_of_list_In.
Qed.
Lemma normalise_octal ds :
  ds ≠ [] → digits_of is_digit ds → normalise ("0"%char :: ds) = chars "0o" ++ ds.
Proof.
  intros Hne Hds. unfold normalise. cbn [Ascii.eqb Bool.eqb andb]. rewrite bool_decide_true by done.
  apply digit_or_digits in Hds. by rewrite Hds.
Qed.
Lemma normalise_other s :
  ¬ (∃ ds, s = "0"%char :: ds ∧ ds ≠ [] ∧ digits_of is_digit ds) → normalise s = s.
Proof.
  intros H. unfold normalise. destruct s as [|c ds]; [done|]. destruct (Ascii.eqb c "0") eqn:Ec; [|done].
  apply Ascii.eqb_eq in Ec as ->. cbn [andb]. destruct (bool_decide (ds ≠ [])) eqn:E; [|done].
  apply bool_decide_eq_true in E. cbn [andb]. destruct (forallb (digit_or "_") ds) eqn:E'; [|done].
  apply digit_or_digits in E'. destruct H. eauto.
Qed.
Definition leading_zero (s : text) : Prop := ∃ ds, s = "0"%char :: ds ∧ ds ≠ [] ∧ digits_of is_digit ds.

Lemma parse_hex x ds n : x ∈ chars "xX" → digits_of is_hex ds →
  parse_number ("0"%char :: x :: ds) = Some n ↔ after_prefix is_hex ds ∧ n = Number (numeral 16 ds) 16 0 10 0 ∧ in_range n.
Proof. intros Hx Hds. apply parse_prefixed; [apply check_hex|repeat constructor|done|by apply scan_hex]. Qed.
Lemma parse_bin x ds n : x ∈ chars "bB" → digits_of is_binary ds →
  parse_number ("0"%char :: x :: ds) = Some n ↔ after_prefix is_binary ds ∧ n = Number (numeral 2 ds) 2 0 10 0 ∧ in_range n.
Proof. intros Hx Hds. apply parse_prefixed; [apply check_bin|repeat constructor|done|by apply scan_bin]. Qed.
Lemma parse_oct x ds n : x ∈ chars "oO" → digits_of is_octal ds →
  parse_number ("0"%char :: x :: ds) = Some n ↔ after_prefix is_octal ds ∧ n = Number (numeral 8 ds) 8 0 10 0 ∧ in_range n.
Proof. intros Hx Hds. apply parse_prefixed; [apply check_oct|repeat constructor|done|by apply scan_oct]. Qed.
Lemma after_prefix_digits P ds : after_prefix P ds → digits_of P ds.
Proof.
  intros [Hg|(s & -> & Hg)]; [by apply groups_digits|]. constructor; [by right|by apply groups_digits].
Qed.
Lemma after_prefix_nonempty P ds : after_prefix P ds → ds ≠ [].
Proof. intros [Hg|(s & -> & Hg)]; [by inversion Hg|done]. Qed.
Lemma exponent_part_text e x : exponent_part e x → exponent_text e.
Proof.
  intros [|c ds Hc Hg|c ds Hc Hg|c ds Hc Hg]; [by left|right..].
  - exists c, [], ds. split; [done|]. split; [done|]. split; [repeat constructor|].
    split; [by inversion Hg|by apply groups_digits].
  - exists c, ["+"%char], ds. split; [done|]. split; [done|]. split; [repeat constructor|].
    split; [by inversion Hg|by apply groups_digits].
  - exists c, ["-"%char], ds. split; [done|]. split; [done|]. split; [repeat constructor|].
    split; [by inversion Hg|by apply groups_digits].
Qed.
Lemma octal_digit ds : digits_of is_octal ds → digits_of is_digit ds.
Proof.
  intros H. eapply Forall_impl; [done|]. intros c [Hc|Hc]; [left|by right].
  assert (forallb (λ c, implb (is_octal c) (is_digit c)) all_ascii = true) as Hall by (vm_compute; reflexivity).
  pose proof (for_all_ascii _ Hall c) as H'. cbn beta in H'. by rewrite Hc in H'.
Qed.
(** The texts that are not rewritten. *)
Lemma letter_no_octal x ds : x ∈ chars "xXbBoO" → ¬ leading_zero ("0"%char :: x :: ds).
Proof.
  intros Hx (ds' & [= <-] & _ & [[Hd | ->] _]%Forall_cons); repeat (apply elem_of_cons in Hx as [Hx|Hx]; [by subst|]);
    by apply elem_of_nil in Hx.
Qed.
Lemma exponent_not_digits ds e : exponent_text e → e ≠ [] → ¬ digits_of is_digit (ds ++ e).
Proof.
  intros [->|(c & sg & ds' & -> & Hc & _)] Hne; [done|]. intros [_ [[Hd|Hd] _]%Forall_cons]%Forall_app;
    apply elem_of_cons in Hc as [->|[->|[]%elem_of_nil]%elem_of_cons]; done.
Qed.
Ltac sub_chars Hx := apply (bool_decide_unpack _);
  repeat (apply elem_of_cons in Hx as [Hx|Hx]; [subst; vm_compute; exact I|]); by apply elem_of_nil in Hx.

Lemma capture_literal s src n :
  number_text s → capture_number s = Some (src, n) ↔ literal s n ∧ in_range n ∧ src = normalise s.
Proof.
  intros Hs. unfold capture_number. transitivity (parse_number (normalise s) = Some n ∧ src = normalise s).
  { destruct (parse_number (normalise s)) as [n'|]; simpl.
    - split; [by intros [= <- <-]|by intros [[= ->] ->]].
    - split; [done|by intros [? _]]. }
  cut (parse_number (normalise s) = Some n ↔ literal s n ∧ in_range n); [tauto|]. split.
  - intros Hp. destruct Hs as [x ds Hx Hne Hds|x ds Hx Hds|x ds Hx Hds|ds e Hds Hne He|ds fs e Hds Hfs Hne He].
    + rewrite normalise_other in Hp by (apply letter_no_octal; sub_chars Hx).
      apply parse_hex in Hp as (H1 & -> & H2); [|done..]. split; [by constructor|done].
    + rewrite normalise_other in Hp by (apply letter_no_octal; sub_chars Hx).
      apply parse_bin in Hp as (H1 & -> & H2); [|done..]. split; [by constructor|done].
    + rewrite normalise_other in Hp by (apply letter_no_octal; sub_chars Hx).
      apply parse_oct in Hp as (H1 & -> & H2); [|done..]. split; [by constructor|done].
    + destruct (decide (e = [] ∧ head ds = Some "0"%char ∧ ds ≠ chars "0")) as [(-> & Hh & H0)|Hn].
      * rewrite app_nil_r in *. destruct ds as [|c ds]; [done|]. injection Hh as ->.
        assert (ds ≠ []) as Hne' by (by intros ->). apply Forall_cons in Hds as [_ Hds].
        rewrite normalise_octal in Hp by done.
        destruct (decide (digits_of is_octal ds)) as [Ho|Ho].
        -- change (chars "0o" ++ ds) with ("0"%char :: "o"%char :: ds) in Hp.
           apply parse_oct in Hp as (H1 & -> & H2); [|repeat constructor|done]. split; [by constructor|done].
        -- change (chars "0o" ++ ds) with ("0"%char :: "o"%char :: ds) in Hp. by rewrite parse_octal_bad in Hp.
      * rewrite normalise_other in Hp; cycle 1.
        { intros (ds' & E & Hne' & Hds'). destruct (decide (e = [])) as [->|He'].
          - rewrite app_nil_r in E. subst ds. destruct Hn. split_and!; try done. intros [= ->]. done.
          - apply (exponent_not_digits ds e He He'). rewrite E. constructor; [by left|done]. }
        apply parse_whole in Hp as (Hg & x & Hx & -> & Hr); [|done..]. split; [|done]. constructor; [done..|].
        intros Hh. destruct (decide (ds = chars "0")) as [|H0]; [by left|right]. intros ->. by destruct Hn.
    + rewrite normalise_other in Hp; cycle 1.
      { intros (ds' & E & _ & Hds'). assert (digits_of is_digit (ds ++ "."%char :: fs ++ e)) as [_ H]%Forall_app.
        - rewrite E. constructor; [by left|done].
        - apply Forall_cons in H as [[H|H] _]; done. }
      apply parse_fraction in Hp as (Hg & Hg' & x & Hx & -> & Hr); [|done..]. split; [by constructor|done].
  - intros [Hl Hr]. destruct Hl as [x ds Hx Hap|x ds Hx Hap|x ds Hx Hap|ds Hap|ds e x Hg He Hz|ds fs e x Hg Hg' He].
    + rewrite normalise_other by (apply letter_no_octal; sub_chars Hx). apply parse_hex; [done|by apply after_prefix_digits|done].
    + rewrite normalise_other by (apply letter_no_octal; sub_chars Hx). apply parse_bin; [done|by apply after_prefix_digits|done].
    + rewrite normalise_other by (apply letter_no_octal; sub_chars Hx). apply parse_oct; [done|by apply after_prefix_digits|done].
    + pose proof (after_prefix_digits _ _ Hap) as Hd.
      rewrite normalise_octal by (by apply octal_digit || by eapply after_prefix_nonempty).
      apply (parse_oct "o"); [repeat constructor|done|done].
    + pose proof (exponent_part_text _ _ He) as Het. pose proof (groups_digits _ _ Hg) as Hd.
      rewrite normalise_other; cycle 1.
      { intros (ds' & E & Hne' & Hds'). destruct (decide (e = [])) as [->|He'].
        - rewrite app_nil_r in E. subst ds. destruct (Hz eq_refl) as [[= ->]|]; done.
        - apply (exponent_not_digits ds e Het He'). rewrite E. constructor; [by left|done]. }
      apply parse_whole; [done|by inversion Hg|done|]. split; [done|]. by exists x.
    + pose proof (exponent_part_text _ _ He) as Het. pose proof (groups_digits _ _ Hg') as Hd'.
      rewrite normalise_other; cycle 1.
      { intros (ds' & E & _ & Hds'). assert (digits_of is_digit (ds ++ "."%char :: fs ++ e)) as [_ H]%Forall_app.
        - rewrite E. constructor; [by left|done].
        - apply Forall_cons in H as [[H|H] _]; done. }
      apply parse_fraction; [|done|by inversion Hg'|done|].
      * destruct Hg as [->|Hg]; [constructor|by apply groups_digits].
      * split; [done|]. split; [done|]. by exists x.
Qed.

(** ** Number tokens are lexed as such *)
(** What follows does not continue a number. *)
Definition number_ends (s : text) : Prop :=
  match s with c :: _ => is_word c = false ∧ c ≠ "."%char | [] => True end.
Lemma head_alt r1 r2 x : matches r1 x = [] → head (matches (RAlt r1 r2) x) = head (matches r2 x).
Proof. simpl. by intros ->. Qed.
Lemma head_alt_some r1 r2 x y : head (matches r1 x) = Some y → head (matches (RAlt r1 r2) x) = Some y.
Proof. simpl. destruct (matches r1 x); [done|]. by intros [= ->]. Qed.
Lemma rcat_nil r1 r2 x : matches r1 x = [] → matches (RCat r1 r2) x = [].
Proof. simpl. by intros ->. Qed.
Lemma rcat_nil2 r1 r2 x z : matches r1 x = [z] → matches r2 z = [] → matches (RCat r1 r2) x = [].
Proof. simpl. intros ->. simpl. by intros ->. Qed.

(** The matches of a greedy repetition: the last but one is tried next. *)
Lemma star_stop r n x : matches r x = [] → star r n x = [x].
Proof. intros H. destruct n; [done|]. simpl. by rewrite H. Qed.
Lemma star_set_two p v d x s n :
  Forall (λ c, is_ascii_byte c = true ∧ p c = true) (v ++ [d]) → stops p s → rest x = v ++ d :: s → length v < n →
  ∃ l, star (RSet p) n x = Spot (Some d) s (group x) :: Spot (last_or (before x) v) (d :: s) (group x) :: l.
Proof.
  intros Hv Hs. revert x n. induction v as [|c v IH]; intros x n Hx Hn.
  - apply Forall_cons in Hv as [[Hd Hp] _]. destruct n as [|n]; [simpl in Hn; lia|]. simpl in Hx.
    cbn [star]. rewrite (rset_some p x d s) by done. cbn [flat_map]. rewrite app_nil_r.
    rewrite star_stop by (by apply rset_none). eexists. destruct x. simpl in *. subst. reflexivity.
  - cbn [app] in Hv. apply Forall_cons in Hv as [[Hd Hp] Hv]. destruct n as [|n]; [simpl in Hn; lia|].
    cbn [star]. rewrite (rset_some p x c (v ++ d :: s)) by done. cbn [flat_map]. rewrite app_nil_r.
    destruct (IH Hv (Spot (Some c) (v ++ d :: s) (group x)) n) as [l ->]; [done|simpl in Hn; lia|].
    eexists. rewrite last_or_cons. reflexivity.
Qed.
Lemma head_flat_map2 {A B} (f : A → list B) a b l y :
  f a = [] → head (f b) = Some y → head (flat_map f (a :: b :: l)) = Some y.
Proof. intros Ha Hb. simpl. rewrite Ha. simpl. destruct (f b); [done|]. by injection Hb as ->. Qed.

Definition number_class : ascii → bool := digit_or "_".
Lemma digits_class ds : digits_of is_digit ds → Forall (λ c, is_ascii_byte c = true ∧ number_class c = true) ds.
Proof.
  intros H. eapply Forall_impl; [done|].
  assert (forallb (λ c, implb (is_digit c || Ascii.eqb c "_") (is_ascii_byte c && number_class c)) all_ascii = true) as Hall by (vm_compute; reflexivity).
  intros c Hc. pose proof (for_all_ascii _ Hall c) as H'. cbn beta in H'.
  assert (is_digit c || Ascii.eqb c "_" = true) as E by (destruct Hc as [-> | ->]; [done|by vm_compute]).
  rewrite E in H'. by apply andb_prop in H'.
Qed.
Definition re_exponent : re :=
  ROpt (RCat (RSet (one_of_chars "eE")) (RCat (ROpt (RSet (one_of_chars "-+"))) (RPlus (RSet number_class)))).
Lemma not_word_stops c :
  is_word c = false → number_class c = false ∧ one_of_chars "eE" c = false ∧ is_hex c || Ascii.eqb c "_" = false ∧
  one_of_chars "01_" c = false ∧ one_of_chars "01234567_" c = false.
Proof.
  intros Hc.
  assert (forallb (λ c, is_word c || negb (number_class c || one_of_chars "eE" c || (is_hex c || Ascii.eqb c "_") || one_of_chars "01_" c || one_of_chars "01234567_" c)) all_ascii = true) as Hall by (vm_compute; reflexivity).
  pose proof (for_all_ascii _ Hall c) as H'. cbn beta in H'. rewrite Hc, orb_false_l in H'.
  apply negb_true_iff, orb_false_iff in H' as [[[[H1 H2]%orb_false_iff H3]%orb_false_iff H4]%orb_false_iff H5].
  exact (conj H1 (conj H2 (conj H3 (conj H4 H5)))).
Qed.
Lemma exponent_head e s x :
  exponent_text e → number_ends s → rest x = e ++ s →
  ∃ b, head (matches re_exponent x) = Some (Spot b s (group x)).
Proof.
  intros He Hs Hx. destruct He as [->|(c & sg & ds & -> & Hc & Hsg & Hne & Hds)].
  - exists (before x). unfold re_exponent, ROpt. rewrite head_alt.
    + simpl. destruct x; simpl in *. by subst.
    + apply rcat_nil. apply rset_none. rewrite Hx. destruct s as [|c s]; [done|]. simpl in *.
      by destruct (not_word_stops c (proj1 Hs)) as (_ & ? & _).
  - assert (Hc' : is_ascii_byte c = true ∧ one_of_chars "eE" c = true).
    { apply elem_of_cons in Hc as [->|[->|[]%elem_of_nil]%elem_of_cons]; done. }
    destruct Hc' as [Hc1 Hc2]. destruct ds as [|d ds]; [done|].
    pose proof (digits_class _ Hds) as Hcl.
    assert (stops number_class s) as Hst.
    { destruct s as [|c' s]; [done|]. simpl in *. by destruct (not_word_stops c' (proj1 Hs)). }
    assert (Hd : one_of_chars "-+" d = false).
    { apply Forall_cons in Hds as [Hd _].
      assert (forallb (λ c, implb (is_digit c || Ascii.eqb c "_") (negb (one_of_chars "-+" c))) all_ascii = true) as Hall by (vm_compute; reflexivity).
      pose proof (for_all_ascii _ Hall d) as H'. cbn beta in H'.
      assert (is_digit d || Ascii.eqb d "_" = true) as E by (destruct Hd as [-> | ->]; [reflexivity|reflexivity]).
      rewrite E in H'. by apply negb_true_iff in H'. }
    assert (Hsg' : ∃ z, head (matches (ROpt (RSet (one_of_chars "-+"))) (Spot (Some c) (sg ++ (d :: ds) ++ s) (group x))) = Some z ∧
      rest z = (d :: ds) ++ s ∧ group z = group x).
    { apply elem_of_cons in Hsg as [->|[->|[->|[]%elem_of_nil]%elem_of_cons]%elem_of_cons]; unfold ROpt.
      - rewrite head_alt by (by apply rset_none). eexists. split; [reflexivity|done].
      - eexists. split; [apply head_alt_some; by rewrite (rset_some _ _ "+"%char ((d :: ds) ++ s))|done].
      - eexists. split; [apply head_alt_some; by rewrite (rset_some _ _ "-"%char ((d :: ds) ++ s))|done]. }
    destruct Hsg' as (z & Hz & Hzr & Hzg).
    eexists. unfold re_exponent, ROpt. apply head_alt_some. eapply head_rcat.
    { rewrite (rset_some _ x c (sg ++ (d :: ds) ++ s)); [reflexivity|done|done|]. rewrite Hx. simpl. by rewrite <- (assoc_L (++)). }
    eapply head_rcat; [exact Hz|]. rewrite (head_plus_set number_class _ d ds s) by done. by rewrite Hzg.
Qed.
Lemma rchar_some x c s :
  is_ascii_byte c = true → rest x = c :: s → matches (RChar c) x = [Spot (Some c) s (group x)].
Proof. intros Hc Hx. apply rset_some; [done| |done]. apply Ascii.eqb_refl. Qed.
Definition no_prefix (k : string) (s : text) : Prop :=
  match s with c :: d :: _ => c = "0"%char → one_of_chars k d = false | _ => True end.
Lemma prefix_none k r s b g :
  no_prefix k s → matches (RCat (RChar "0") (RCat (RSet (one_of_chars k)) r)) (Spot b s g) = [].
Proof.
  intros H. destruct s as [|c s].
  { by apply rcat_nil, rset_none. }
  destruct (Ascii.eqb "0" c) eqn:Ec.
  - apply Ascii.eqb_eq in Ec as <-. eapply rcat_nil2; [by apply (rset_some _ _ "0"%char s)|].
    apply rcat_nil, rset_none. destruct s as [|d s]; [done|]. by apply H.
  - by apply rcat_nil, rset_none.
Qed.
Lemma no_prefix_sub k s : no_prefix "bBoOxX" s → k ∈ ["bB"; "oO"; "xX"] → no_prefix k s.
Proof.
  intros H Hk. destruct s as [|c [|d s]]; [done..|]. simpl in *. intros Hc. specialize (H Hc).
  assert (forallb (λ d, implb (negb (one_of_chars "bBoOxX" d))
    (negb (one_of_chars "bB" d) && negb (one_of_chars "oO" d) && negb (one_of_chars "xX" d))) all_ascii = true) as Hall
    by (vm_compute; reflexivity).
  pose proof (for_all_ascii _ Hall d) as H'. cbn beta in H'. rewrite H in H'. cbn [negb implb] in H'.
  apply andb_prop in H' as [[?%negb_true_iff ?%negb_true_iff]%andb_prop ?%negb_true_iff].
  repeat (apply elem_of_cons in Hk as [->|Hk]; [done|]). by apply elem_of_nil in Hk.
Qed.
Lemma prefixed_head k P x ds s :
  x ∈ chars k → forallb is_ascii_byte (chars k) = true →
  Forall (λ c, is_ascii_byte c = true ∧ P c = true) ds → stops P s →
  ∃ b, head (matches (RCat (RChar "0") (RCat (RSet (one_of_chars k)) (RStar (RSet P)))) (Spot None ("0"%char :: x :: ds ++ s) None)) = Some (Spot b s None).
Proof.
  intros Hx Hk Hds Hs. eexists. eapply head_rcat; [by rewrite (rchar_some _ "0"%char (x :: ds ++ s))|].
  assert (is_ascii_byte x = true) as Hx1.
  { rewrite forallb_forall in Hk. apply Hk. by apply elem_of_list_In. }
  assert (one_of_chars k x = true) as Hx2.
  { unfold one_of_chars. apply existsb_exists. exists x. split; [by apply elem_of_list_In|]. apply Ascii.eqb_refl. }
  eapply head_rcat; [by rewrite (rset_some _ _ x (ds ++ s))|].
  rewrite matches_star. rewrite (head_star_set P ds _ s); [done|done|done|done|]. simpl. rewrite app_length. lia.
Qed.
Lemma class_star P Q ds :
  digits_of P ds → forallb (λ c, implb (P c || Ascii.eqb c "_") (is_ascii_byte c && Q c)) all_ascii = true →
  Forall (λ c, is_ascii_byte c = true ∧ Q c = true) ds.
Proof.
  intros H Hall. eapply Forall_impl; [done|]. intros c Hc. pose proof (for_all_ascii _ Hall c) as H'. cbn beta in H'.
  assert (P c || Ascii.eqb c "_" = true) as E by (destruct Hc as [-> | ->]; [done|by rewrite orb_comm]).
  rewrite E in H'. by apply andb_prop in H'.
Qed.
Lemma number_find s s' :
  number_text s → number_ends s' → ∃ b, find re_number (s ++ s') = Some (Spot b s' None).
Proof.
  intros Hs Hs'.
  assert (Hst : ∀ P, (∀ c, is_word c = false → P c = false) → stops P s').
  { intros P HP. destruct s' as [|c s']; [done|]. apply HP, Hs'. }
  unfold find, re_number. cbn [RAny].
  destruct Hs as [x ds Hx Hne Hds|x ds Hx Hds|x ds Hx Hds|ds e Hds Hne He|ds fs e Hds Hfs Hne He].
  - destruct ds as [|d ds]; [done|].
    assert (Hcl : Forall (λ c, is_ascii_byte c = true ∧ is_hex c || Ascii.eqb c "_" = true) (d :: ds)) by (eapply class_star; [done|by vm_compute]).
    eexists. apply head_alt_some. cbn [app].
    eapply head_rcat; [by rewrite (rchar_some _ "0"%char (x :: (d :: ds) ++ s'))|].
    eapply head_rcat.
    { rewrite (rset_some _ _ x ((d :: ds) ++ s')); [done|..|done];
        repeat (apply elem_of_cons in Hx as [->|Hx]; [reflexivity|]); by apply elem_of_nil in Hx. }
    rewrite (head_plus_set (λ c, is_hex c || Ascii.eqb c "_") _ d ds s'); [done|done| |done].
    apply Hst. intros c Hc. by destruct (not_word_stops c Hc) as (_ & _ & ? & _).
  - destruct (prefixed_head "bB" (one_of_chars "01_") x ds s') as [b Hb]; [done|done| |..].
    + eapply class_star; [done|by vm_compute].
    + apply Hst. intros c Hc. by destruct (not_word_stops c Hc) as (_ & _ & _ & ? & _).
    + exists b. cbn [app]. rewrite head_alt; [by apply head_alt_some|]. apply prefix_none. intros _.
      repeat (apply elem_of_cons in Hx as [->|Hx]; [reflexivity|]); by apply elem_of_nil in Hx.
  - destruct (prefixed_head "oO" (one_of_chars "01234567_") x ds s') as [b Hb]; [done|done| |..].
    + eapply class_star; [done|by vm_compute].
    + apply Hst. intros c Hc. by destruct (not_word_stops c Hc) as (_ & _ & _ & _ & ?).
    + exists b. cbn [app]. rewrite head_alt; [rewrite head_alt; [by apply head_alt_some|]|]; apply prefix_none; intros _;
        repeat (apply elem_of_cons in Hx as [->|Hx]; [reflexivity|]); by apply elem_of_nil in Hx.
  - assert (Hno : no_prefix "bBoOxX" ((ds ++ e) ++ s')).
    { rewrite <- (assoc_L (++)). apply no_prefix_digits; [done..|].
      destruct e as [|c e]; [|by apply (exponent_no_prefix (c :: e))]. destruct s' as [|c s']; [done|]. destruct Hs' as [Hc _].
      assert (forallb (λ c, is_word c || negb (one_of_chars "bBoOxX" c)) all_ascii = true) as Hall by (vm_compute; reflexivity).
      pose proof (for_all_ascii _ Hall c) as H'. cbn beta in H'. rewrite Hc, orb_false_l in H'. by apply negb_true_iff in H'. }
    rewrite !head_alt by (apply prefix_none, no_prefix_sub; [done|repeat constructor]).
    pose proof (digits_class _ Hds) as Hcl. destruct (exists_last Hne) as (v & d & ->).
    rewrite <- !(assoc_L (++)) in *. cbn [app] in *.
    assert (Hst' : stops number_class (e ++ s')).
    { destruct He as [->|(c & sg & ds' & -> & Hc & _)].
      - apply Hst. intros c Hc. by destruct (not_word_stops c Hc).
      - repeat (apply elem_of_cons in Hc as [->|Hc]; [reflexivity|]); by apply elem_of_nil in Hc. }
    destruct (star_set_two number_class v d (Spot None (v ++ d :: e ++ s') None) (e ++ s') (length (v ++ d :: e ++ s'))) as [l Hl];
      [done|done|done|rewrite app_length; simpl; lia|].
    destruct (exponent_head e s' (Spot (Some d) (e ++ s') None)) as [b Hb]; [done..|].
    exists b. cbn [matches]. fold number_class.
    change (head (flat_map (matches (RCat (ROpt (RChar ".")) (RCat (RPlus (RSet number_class)) re_exponent)))
      (matches (RStar (RSet number_class)) (Spot None (v ++ d :: e ++ s') None))) = Some (Spot b s' None)).
    rewrite matches_star. cbn [rest]. rewrite Hl. apply head_flat_map2.
    + cbn [group]. apply elem_of_nil_inv. intros y (z & Hz & (z' & Hz' & _)%rcat_matches)%rcat_matches.
      apply (elem_of_app (matches (RChar ".") _) (matches REps _)) in Hz as [Hz|Hz].
      * apply rchar_matches in Hz as (s & Hz & _). simpl in Hz.
        destruct He as [->|(c & sg & ds' & -> & Hc & _)]; simpl in Hz.
        -- subst s'. by destruct Hs'.
        -- injection Hz as -> _. repeat (apply elem_of_cons in Hc as [Hc|Hc]; [done|]); by apply elem_of_nil in Hc.
      * apply elem_of_list_singleton in Hz as ->.
        change (z' ∈ matches (RCat (RSet number_class) (RStar (RSet number_class))) (Spot (Some d) (e ++ s') None)) in Hz'.
        rewrite rcat_nil in Hz'; [by apply elem_of_nil in Hz'|]. by apply rset_none.
    + cbn [group]. eapply head_rcat.
      { unfold ROpt. rewrite head_alt; [reflexivity|]. apply rset_none. cbn [rest].
        apply Forall_app in Hds as [_ [[Hd | ->] _]%Forall_cons]; [|done]. cbn [stops].
        destruct (class_digit _ _ d check_dec Hd) as (_ & _ & Hd' & _). apply Ascii.eqb_neq. congruence. }
      eapply head_rcat; [|exact Hb].
      apply Forall_app in Hcl as [_ Hd].
      by rewrite (head_plus_set number_class _ d [] (e ++ s')).
  - assert (Hno : no_prefix "bBoOxX" ((ds ++ "."%char :: fs ++ e) ++ s')).
    { rewrite <- (assoc_L (++)). destruct ds as [|c ds]; [simpl; by destruct fs|].
      by apply no_prefix_digits. }
    rewrite !head_alt by (apply prefix_none, no_prefix_sub; [done|repeat constructor]).
    rewrite <- (assoc_L (++)). cbn [app]. rewrite <- (assoc_L (++)).
    pose proof (digits_class _ Hds) as Hcl. pose proof (digits_class _ Hfs) as Hcl'. destruct fs as [|d fs]; [done|].
    assert (Hst' : stops number_class (e ++ s')).
    { destruct He as [->|(c & sg & ds' & -> & Hc & _)].
      - apply Hst. intros c Hc. by destruct (not_word_stops c Hc).
      - repeat (apply elem_of_cons in Hc as [->|Hc]; [reflexivity|]); by apply elem_of_nil in Hc. }
    destruct (exponent_head e s' (Spot (last_or (Some "."%char) (d :: fs)) (e ++ s') None)) as [b Hb]; [done..|].
    exists b. eapply head_rcat.
    { rewrite matches_star. rewrite (head_star_set number_class ds _ ("."%char :: (d :: fs) ++ e ++ s')); [done|done|done|done|].
      simpl. rewrite app_length. lia. }
    eapply head_rcat.
    { apply head_alt_some. by rewrite (rchar_some _ "."%char ((d :: fs) ++ e ++ s')). }
    eapply head_rcat; [|exact Hb].
    by rewrite (head_plus_set number_class _ d fs (e ++ s')).
Qed.

Definition digit_check : bool :=
  forallb (λ m, forallb (λ c, implb (number_class c || Ascii.eqb "." c)
    (forallb (λ r, dead (pattern r) [c])
       (take (place (rules (m, [])) TNumber) (rules (m, []))))) all_ascii) code_states.
Lemma digit_check_ok : digit_check = true.
Proof. vm_compute. reflexivity. Qed.
Lemma number_place m :
  code_state m → rules (m, []) !! place (rules (m, [])) TNumber = Some (Rule TNumber re_number Stay).
Proof. by intros [-> | ->]. Qed.
Lemma number_head s : number_text s → ∃ c u, s = c :: u ∧ number_class c || Ascii.eqb "." c = true.
Proof.
  assert (Hd : ∀ ds, digits_of is_digit ds → ∀ c u, ds = c :: u → number_class c || Ascii.eqb "." c = true).
  { intros ds H c u ->. apply digits_class, Forall_cons in H as [[_ H] _]. by rewrite H. }
  intros [x ds Hx Hne Hds|x ds Hx Hds|x ds Hx Hds|ds e Hds Hne He|ds fs e Hds Hfs Hne He].
  1-3: eexists _, _; split; reflexivity.
  - destruct ds as [|c ds]; [done|]. exists c, (ds ++ e). split; [done|]. exact (Hd _ Hds c ds eq_refl).
  - destruct ds as [|c ds].
    + eexists _, _; split; reflexivity.
    + eexists c, _. split; [reflexivity|]. exact (Hd _ Hds c ds eq_refl).
Qed.
Lemma lex_number m g st p s s' :
  code_state m → number_text s → number_ends s' →
  lex_step ((m, g) :: st) p (s ++ s') = Some (Token TNumber s p, s', (m, g) :: st).
Proof.
  intros Hm Hn Hs. destruct (number_find s s' Hn Hs) as [b Hb]. destruct (number_head s Hn) as (c & u & -> & Hc).
  erewrite (lex_step_some st (m, g) p _ (Rule TNumber re_number Stay) (Spot b s' None) (c :: u)); [done|..|done|done].
  rewrite (rules_code m g Hm). eapply first_match_at; [by apply number_place| |done].
  intros j r' Hj Hr.
  assert (m ∈ code_states) as Hms by (destruct Hm as [-> | ->]; repeat constructor).
  pose proof digit_check_ok as H. unfold digit_check in H. rewrite forallb_forall in H.
  specialize (H m). rewrite <- elem_of_list_In in H. specialize (H Hms). rewrite forallb_forall in H.
  specialize (H c). rewrite <- elem_of_list_In in H. specialize (H (all_ascii_complete c)).
  rewrite Hc in H. cbn [implb] in H. rewrite forallb_forall in H. specialize (H r'). rewrite <- elem_of_list_In in H.
  apply (dead_find (pattern r') [c] (u ++ s')), H. apply elem_of_list_lookup. exists j. by rewrite lookup_take.
Qed.

(** ** The claims *)
(*P C34_only_leading_zeros *)
(** Exactly the texts that are a 0 followed by digits and underscores are rewritten, to the
    same digits after 0o, and rewriting again changes nothing. *)
Lemma p34 s :
  (∀ ds, s = "0"%char :: ds → ds ≠ [] → Forall (λ c, is_digit c = true ∨ c = "_"%char) ds →
    normalise s = chars "0o" ++ ds) ∧
  (¬ (∃ ds, s = "0"%char :: ds ∧ ds ≠ [] ∧ Forall (λ c, is_digit c = true ∨ c = "_"%char) ds) → normalise s = s) ∧
  normalise (normalise s) = normalise s.
Proof.
  split; [intros ds -> Hne Hds; by apply normalise_octal|]. split; [apply normalise_other|].
  assert (Decision (leading_zero s)) as Hdec.
  { destruct s as [|c ds]; [right; by intros (? & ? & _)|].
    destruct (decide (c = "0"%char ∧ ds ≠ [] ∧ digits_of is_digit ds)) as [(-> & Hne & Hds)|Hn].
    - left. by exists ds.
    - right. intros (ds' & [= -> ->] & Hne & Hds). by destruct Hn. }
  destruct (decide (leading_zero s)) as [(ds & -> & Hne & Hds)|Hn].
  - rewrite normalise_octal by done. apply normalise_other. apply (letter_no_octal "o"%char ds). repeat constructor.
  - by rewrite !(normalise_other s Hn).
Qed.
(*P C34_octal_value *)
(** A leading 0 makes the literal octal: the digits are octal digits and the value is theirs
    to base 8. *)
Lemma p34b ds src n :
  ds ≠ [] → Forall (λ c, is_digit c = true ∨ c = "_"%char) ds → capture_number ("0"%char :: ds) = Some (src, n) →
  Forall (λ c, is_octal c = true ∨ c = "_"%char) ds ∧ src = chars "0o" ++ ds ∧ n = Number (numeral 8 ds) 8 0 10 0.
Proof.
  intros Hne Hds H. unfold capture_number in H. rewrite normalise_octal in H by done.
  destruct (decide (digits_of is_octal ds)) as [Ho|Ho].
  - change (chars "0o" ++ ds) with ("0"%char :: "o"%char :: ds) in H.
    destruct (parse_number _) as [n'|] eqn:E; [|done]. injection H as <- <-.
    apply parse_oct in E as (_ & -> & _); [done|repeat constructor|done].
  - change (chars "0o" ++ ds) with ("0"%char :: "o"%char :: ds) in H. by rewrite parse_octal_bad in H.
Qed.

(** What capturing leaves behind is a number token with the same value. *)
Lemma literal_text s n : literal s n → number_text s.
Proof.
  intros [x ds Hx Hap|x ds Hx Hap|x ds Hx Hap|ds Hap|ds e x Hg He Hz|ds fs e x Hg Hg' He].
  - constructor; [done|by eapply after_prefix_nonempty|by apply after_prefix_digits].
  - constructor; [done|by apply after_prefix_digits].
  - constructor; [done|by apply after_prefix_digits].
  - rewrite <- (app_nil_r (_ :: ds)). constructor; [|done|by left].
    constructor; [by left|]. by apply octal_digit, after_prefix_digits.
  - constructor; [by apply groups_digits|by inversion Hg|by eapply exponent_part_text].
  - constructor; [|by apply groups_digits|by inversion Hg'|by eapply exponent_part_text].
    destruct Hg as [->|Hg]; [constructor|by apply groups_digits].
Qed.
Lemma lex_one file s k t :
  s ≠ [] → (∀ p, lex_step [(SRoot, [])] p s = Some (Token k t p, [], [(SRoot, [])])) →
  lex file s = Ok (Lexed [Token k t (start_pos file)] [(SRoot, [])]).
Proof.
  intros Hne H. unfold lex. destruct s as [|c s]; [done|]. cbn [length lex_fuel]. rewrite H. cbn [value].
  by destruct (length s).
Qed.
Lemma capture_text v src n : number_text v → capture_number v = Some (src, n) → number_text src.
Proof.
  intros Hn (Hl & _ & ->)%capture_literal; [|done].
  destruct Hl as [x ds Hx Hap|x ds Hx Hap|x ds Hx Hap|ds Hap|ds e x Hg He Hz|ds fs e x Hg Hg' He].
  - rewrite normalise_other; [done|]. apply letter_no_octal; sub_chars Hx.
  - rewrite normalise_other; [done|]. apply letter_no_octal; sub_chars Hx.
  - rewrite normalise_other; [done|]. apply letter_no_octal; sub_chars Hx.
  - pose proof (after_prefix_digits _ _ Hap) as Hd.
    rewrite normalise_octal by (by apply octal_digit || by eapply after_prefix_nonempty).
    apply (number_oct "o"%char ds); [repeat constructor|done].
  - rewrite normalise_other; [done|].
    intros (ds' & E & Hne' & Hds'). destruct (decide (e = [])) as [->|He'].
    + rewrite app_nil_r in E. subst ds. destruct (Hz eq_refl) as [[= ->]|]; done.
    + apply (exponent_not_digits ds e (exponent_part_text _ _ He) He'). rewrite E. constructor; [by left|done].
  - rewrite normalise_other; [done|].
    intros (ds' & E & _ & Hds'). assert (digits_of is_digit (ds ++ "."%char :: fs ++ e)) as [_ H']%Forall_app.
    + rewrite E. constructor; [by left|done].
    + apply Forall_cons in H' as [[H'|H'] _]; done.
Qed.
(*P C34_captured_again *)
(** The text kept for an accepted number token is again one number token, and capturing that
    one gives the same text and value. *)
Lemma p34c file s l t src n :
  lex file s = Ok l → t ∈ tokens_of l → kind_of_token t = TNumber → capture_number (value t) = Some (src, n) →
  (∀ file', lex file' src = Ok (Lexed [Token TNumber src (start_pos file')] [(SRoot, [])])) ∧
  capture_number src = Some (src, n).
Proof.
  intros H Ht Hk Hc. destruct (token_step _ _ _ _ _ _ H Ht) as (st1 & p1 & s1 & s2 & st2 & Hs).
  pose proof (number_step _ _ _ _ _ _ Hs Hk) as Hn.
  assert (src = normalise (value t)) as Hsrc.
  { unfold capture_number in Hc. destruct (parse_number _); [|done]. by injection Hc as <- <-. }
  pose proof (capture_text _ _ _ Hn Hc) as Hn'.
  split.
  - intros file'. apply lex_one.
    + destruct (number_head _ Hn') as (c & u & -> & _). done.
    + intros p. rewrite <- (app_nil_r src) at 1. apply lex_number; [by left|done|done].
  - subst src. revert Hc. unfold capture_number. by rewrite (proj2 (proj2 (p34 (value t)))).
Qed.
(*P C34_rewritten_tokens_refuted *)
(** Not every number token stays one: 08 becomes 0o8, which is two tokens, and is then
    rejected. *)
Lemma p34d :
  ∃ file s t, lex file s = Ok (Lexed [t] [(SRoot, [])]) ∧ kind_of_token t = TNumber ∧
    capture_number (value t) = None ∧
    ¬ (∃ t' st, lex file (normalise (value t)) = Ok (Lexed [t'] st)).
Proof.
  exists "f", (chars "08"), (Token TNumber (chars "08") (start_pos "f")).
  split; [vm_compute; reflexivity|]. split; [done|]. split; [vm_compute; reflexivity|].
  intros (t' & st & H).
  assert (lex "f" (normalise (chars "08")) = Ok (Lexed [Token TNumber (chars "0o") (start_pos "f");
    Token TNumber (chars "8") (advance (start_pos "f") (chars "0o"))] [(SRoot, [])])) as E by (vm_compute; reflexivity).
  cbn [value] in H. rewrite E in H. done.
Qed.
(*P C59_accepted_literals *)
Lemma p59 file s l t src n :
  lex file s = Ok l → t ∈ tokens_of l → kind_of_token t = TNumber →
  (capture_number (value t) = Some (src, n) ↔ literal (value t) n ∧ in_range n ∧ src = normalise (value t)).
Proof.
  intros H Ht Hk. destruct (token_step _ _ _ _ _ _ H Ht) as (st1 & p1 & s1 & s2 & st2 & Hs).
  eapply capture_literal, number_step; done.
Qed.
(*P C59_every_literal_is_a_token *)
(** Conversely every literal is lexed as one token where nothing that continues it follows. *)
Lemma p59b m g st p s n s' :
  code_state m → literal s n →
  match s' with c :: _ => is_word c = false ∧ c ≠ "."%char | [] => True end →
  lex_step ((m, g) :: st) p (s ++ s') = Some (Token TNumber s p, s', (m, g) :: st).
Proof. intros Hm Hl Hs. apply lex_number; [done|by eapply literal_text|done]. Qed.
(*P C59_one_value *)
(** A text denotes at most one number. *)
Lemma p59c s n n' : literal s n → literal s n' → in_range n → in_range n' → n = n'.
Proof.
  intros H H' R R'. pose proof (literal_text _ _ H) as Ht.
  assert (capture_number s = Some (normalise s, n)) as E by (by apply capture_literal).
  assert (capture_number s = Some (normalise s, n')) as E' by (by apply capture_literal). congruence.
Qed.
