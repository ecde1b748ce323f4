(** * Facts about runes and positions *)
From stdpp Require Import base list option strings.
From Coq Require Import Ascii Lia.
From Verif Require Import GoBase EtxHeap EtxText.

(** [s'] is what is left of [s] after some whole runes. *)
Inductive rsteps : text → text → Prop :=
| rsteps_refl s : rsteps s s
| rsteps_step s s' : s ≠ [] → rsteps (drop (rune_width s) s) s' → rsteps s s'.

Lemma rune_width_pos s : s ≠ [] → 0 < rune_width s.
Proof. destruct s as [|b0 [|b1 [|b2 [|b3 s]]]]; intros; [done|..]; simpl; repeat case_match; lia. Qed.
Lemma rune_width_le s : rune_width s ≤ length s.
Proof. destruct s as [|b0 [|b1 [|b2 [|b3 s]]]]; simpl; repeat case_match; simpl; lia. Qed.
Lemma rune_width_ascii c s : is_ascii_byte c = true → rune_width (c :: s) = 1.
Proof. intros H. simpl. by rewrite H. Qed.

Lemma between_high a b c : between a b c = true → 128 ≤ a → is_ascii_byte c = false.
Proof.
  unfold between, is_ascii_byte. intros H ?. apply andb_true_iff in H as [H _].
  apply Nat.leb_le in H. apply Nat.ltb_ge. lia.
Qed.
(** A rune of several bytes has no ASCII byte. *)
Lemma rune_width_no_ascii X c Y :
  is_ascii_byte c = true → X ≠ [] → rune_width (X ++ c :: Y) ≤ length X.
Proof.
  intros Hc. assert (Hb : ∀ a b, 128 ≤ a → between a b c = false).
  { intros a b Ha. destruct (between a b c) eqn:E; [|done]. by rewrite (between_high _ _ _ E) in Hc. }
  destruct X as [|b0 [|b1 [|b2 [|b3 X]]]]; intros; [done|..]; simpl; unfold cont;
    rewrite ?Hb by lia; rewrite ?andb_false_r, ?orb_false_r; repeat case_match; simpl; try lia; try done.
Qed.
(** The width depends on the bytes of the rune only. *)
Lemma rune_width_app X Y : X ≠ [] → rune_width (X ++ Y) ≤ length X → rune_width X = rune_width (X ++ Y).
Proof.
  destruct X as [|b0 [|b1 [|b2 [|b3 X]]]]; intros ? H; [done|..|done];
    destruct Y as [|c0 [|c1 [|c2 Y]]]; simpl in *; repeat case_match; simpl in *; try lia; try congruence.
Qed.

Lemma rsteps_suffix s s' : rsteps s s' → ∃ pre, s = pre ++ s'.
Proof.
  induction 1 as [s|s s' _ _ [pre IH]]; [by exists []|].
  exists (take (rune_width s) s ++ pre). by rewrite <- (assoc_L (++)), <- IH, take_drop.
Qed.
Lemma rsteps_trans s1 s2 s3 : rsteps s1 s2 → rsteps s2 s3 → rsteps s1 s3.
Proof. induction 1; [done|]. intros. apply rsteps_step; auto. Qed.
Lemma rsteps_one s : s ≠ [] → rsteps s (drop (rune_width s) s).
Proof. intros. apply rsteps_step; [done|]. apply rsteps_refl. Qed.
Lemma rsteps_ascii c s : is_ascii_byte c = true → rsteps (c :: s) s.
Proof. intros Hc. apply rsteps_step; [done|]. rewrite rune_width_ascii by done. apply rsteps_refl. Qed.
Lemma rsteps_length s s' : rsteps s s' → length s' ≤ length s.
Proof. intros [pre ->]%rsteps_suffix. rewrite app_length. lia. Qed.

Lemma app_len_cancel {A} (x y : list A) : length (x ++ y) ≤ length y → x = [].
Proof. rewrite app_length. destruct x; simpl; [done|lia]. Qed.
Lemma drop_app_le' {A} n (x y : list A) : n ≤ length x → drop n (x ++ y) = drop n x ++ y.
Proof. apply drop_app_le. Qed.

(** Induction on a prefix of whole runes. *)
Lemma rsteps_inv X Y :
  rsteps (X ++ Y) Y → X = [] ∨
  X ≠ [] ∧ rune_width (X ++ Y) ≤ length X ∧ rsteps (drop (rune_width (X ++ Y)) X ++ Y) Y.
Proof.
  destruct (decide (X = [])) as [->|HX]; [by left|]. intros H. right. split; [done|].
  inversion H as [s Hs Heq|s s' Hs Hr]; subst.
  - assert (X ++ Y = Y) as E by done. apply (f_equal length) in E. rewrite app_length in E.
    destruct X; simpl in *; [done|lia].
  - pose proof (rsteps_length _ _ Hr) as Hl. rewrite drop_length, app_length in Hl.
    pose proof (rune_width_le (X ++ Y)) as Hw. rewrite app_length in Hw.
    assert (rune_width (X ++ Y) ≤ length X) as Hle by lia.
    split; [done|]. by rewrite drop_app_le' in Hr.
Qed.
Lemma rsteps_prefix_ind (P : text → Prop) Y :
  P [] →
  (∀ X, X ≠ [] → rune_width (X ++ Y) ≤ length X → rsteps (drop (rune_width (X ++ Y)) X ++ Y) Y →
        P (drop (rune_width (X ++ Y)) X) → P X) →
  ∀ X, rsteps (X ++ Y) Y → P X.
Proof.
  intros H0 HS X. remember (length X) as n eqn:En. revert X En.
  induction n as [n IH] using lt_wf_ind. intros X -> H.
  destruct (rsteps_inv _ _ H) as [->|(HX & Hw & Hr)]; [done|].
  apply HS; [done..|]. eapply IH; [|done|done].
  rewrite drop_length. assert (0 < rune_width (X ++ Y)) by (apply rune_width_pos; by destruct X).
  assert (0 < length X) by (destruct X; simpl; [done|lia]). lia.
Qed.

(** After a newline a rune starts. *)
Lemma rsteps_after_ascii P c A Y :
  is_ascii_byte c = true → rsteps ((P ++ c :: A) ++ Y) Y → rsteps (A ++ Y) Y.
Proof.
  intros Hc. remember (length P) as n eqn:En. revert P En.
  induction n as [n IH] using lt_wf_ind. intros P -> H.
  destruct (rsteps_inv _ _ H) as [HX|(HX & Hw & Hr)]; [by destruct P|].
  destruct (decide (P = [])) as [->|HP].
  - simpl in Hr. rewrite Hc in Hr. done.
  - assert (rune_width ((P ++ c :: A) ++ Y) ≤ length P) as HwP.
    { rewrite <- (assoc_L (++)). simpl. by apply rune_width_no_ascii. }
    rewrite drop_app_le' in Hr by done. eapply IH; [|done|done].
    rewrite drop_length.
    assert (0 < rune_width ((P ++ c :: A) ++ Y)) by (apply rune_width_pos; by destruct P).
    assert (0 < length P) by (destruct P; simpl; [done|lia]). lia.
Qed.

(** A prefix of whole runes is one in every longer part of the text. *)
Lemma rsteps_cut A v s' : rsteps (A ++ v ++ s') (v ++ s') → rsteps (A ++ v) v.
Proof.
  revert A. apply (rsteps_prefix_ind (λ A, rsteps (A ++ v) v)); [apply rsteps_refl|].
  intros A HA Hw _ IH. apply rsteps_step; [by destruct A|].
  rewrite (rune_width_app (A ++ v) s'); [..|rewrite <- (assoc_L (++)), app_length; lia]; [|by destruct A].
  rewrite <- (assoc_L (++)), drop_app_le' by done. done.
Qed.

Lemma rune_count_fuel_enough n m s : length s ≤ n → n ≤ m → rune_count_fuel m s = rune_count_fuel n s.
Proof.
  revert m s. induction n as [|n IH]; intros m s Hs Hm.
  { destruct s; simpl in *; [by destruct m|lia]. }
  destruct m as [|m]; [lia|]. destruct s as [|c s]; [done|]. cbn [rune_count_fuel]. f_equal.
  assert (0 < rune_width (c :: s)) by (by apply rune_width_pos).
  apply IH; [|lia]. rewrite drop_length. change (length (c :: s)) with (S (length s)) in *. lia.
Qed.
Lemma rune_count_cons s : s ≠ [] → rune_count s = S (rune_count (drop (rune_width s) s)).
Proof.
  intros Hs. unfold rune_count. destruct s as [|c s]; [done|].
  change (length (c :: s)) with (S (length s)) at 1. cbn [rune_count_fuel].
  f_equal. apply rune_count_fuel_enough; [done|]. rewrite drop_length.
  pose proof (rune_width_pos (c :: s) Hs). change (length (c :: s)) with (S (length s)). lia.
Qed.
Lemma rune_count_ascii c s : is_ascii_byte c = true → rune_count (c :: s) = S (rune_count s).
Proof. intros Hc. rewrite rune_count_cons by done. by rewrite rune_width_ascii. Qed.

Lemma rune_count_app A v : rsteps (A ++ v) v → rune_count (A ++ v) = rune_count A + rune_count v.
Proof.
  revert A. apply (rsteps_prefix_ind (λ A, rune_count (A ++ v) = rune_count A + rune_count v)); [done|].
  intros A HA Hw _ IH. rewrite (rune_count_cons (A ++ v)) by (by destruct A).
  rewrite (rune_count_cons A) by done. rewrite drop_app_le' by done.
  rewrite (rune_width_app A v) by done. rewrite IH. lia.
Qed.

(** ** Lines and columns *)
Lemma newlines_cons c s : newlines (c :: s) = (if decide (c = lf) then 1 else 0) + newlines s.
Proof. unfold newlines. rewrite filter_cons. by case_decide. Qed.
Lemma newlines_app s t : newlines (s ++ t) = newlines s + newlines t.
Proof. unfold newlines. by rewrite filter_app, app_length. Qed.
Lemma newlines_zero s : newlines s = 0 ↔ lf ∉ s.
Proof.
  induction s as [|c s IH]; [split; [intros _ ?%elem_of_nil|]; done|].
  rewrite newlines_cons, not_elem_of_cons. case_decide; subst.
  - split; [lia|]. by intros [? ?].
  - simpl. rewrite IH. naive_solver.
Qed.

Lemma after_last_lf_none s : lf ∉ s → after_last_lf s = s.
Proof. destruct s; [done|]. intros. cbn [after_last_lf]. by rewrite decide_False. Qed.
Lemma after_last_lf_split s : lf ∈ s → ∃ P, s = P ++ lf :: after_last_lf s.
Proof.
  induction s as [|c s IH]; [by intros ?%elem_of_nil|]. intros H. cbn [after_last_lf].
  rewrite decide_True by done. case_decide as Hs.
  - destruct (IH Hs) as [P HP]. exists (c :: P). simpl. by rewrite <- HP.
  - apply elem_of_cons in H as [<-|]; [|done]. by exists [].
Qed.
Lemma after_last_lf_no_lf s : lf ∉ after_last_lf s.
Proof.
  induction s as [|c s IH]; [by intros ?%elem_of_nil|]. cbn [after_last_lf]. repeat case_decide; done.
Qed.
Lemma after_last_lf_app_r s t : lf ∈ t → after_last_lf (s ++ t) = after_last_lf t.
Proof.
  intros Ht. induction s as [|c s IH]; [done|]. simpl.
  rewrite decide_True by (rewrite elem_of_cons, elem_of_app; tauto).
  by rewrite decide_True by (rewrite elem_of_app; tauto).
Qed.
Lemma after_last_lf_app_l s t : lf ∉ t → after_last_lf (s ++ t) = after_last_lf s ++ t.
Proof.
  intros Ht. induction s as [|c s IH]; [by apply after_last_lf_none|]. simpl.
  destruct (decide (lf ∈ c :: s)) as [H1|H1].
  - rewrite decide_True by (rewrite elem_of_cons, elem_of_app; apply elem_of_cons in H1; tauto).
    destruct (decide (lf ∈ s)) as [H2|H2].
    + by rewrite decide_True by (rewrite elem_of_app; tauto).
    + by rewrite decide_False by (rewrite elem_of_app; tauto).
  - rewrite decide_False; [done|]. rewrite elem_of_cons, elem_of_app.
    rewrite elem_of_cons in H1. tauto.
Qed.
Lemma from_last_lf_after s : lf ∈ s → from_last_lf s = lf :: after_last_lf s.
Proof.
  induction s as [|c s IH]; [by intros ?%elem_of_nil|]. intros H. cbn [from_last_lf after_last_lf].
  rewrite (decide_True _ _ H). destruct (decide (lf ∈ s)) as [Hs|Hs].
  - rewrite decide_False by (rewrite newlines_zero; intros H0; by apply H0). by apply IH.
  - rewrite decide_True by (by rewrite newlines_zero).
    apply elem_of_cons in H as [<-|]; [|done]. by rewrite decide_True.
Qed.

Lemma advance_pos_at file pre v s' :
  rsteps (pre ++ v ++ s') (v ++ s') → rsteps (v ++ s') s' →
  advance (pos_at file pre) v = pos_at file (pre ++ v).
Proof.
  intros H1 H2. unfold advance, pos_at. simpl. rewrite app_length, newlines_app. f_equal.
  destruct (decide (newlines v = 0)) as [Hv|Hv].
  - apply newlines_zero in Hv. rewrite after_last_lf_app_l by done.
    rewrite rune_count_app; [lia|]. apply (rsteps_cut _ _ s').
    destruct (decide (lf ∈ pre)) as [Hp|Hp].
    + destruct (after_last_lf_split _ Hp) as [P HP]. apply (rsteps_after_ascii P lf); [done|].
      by rewrite <- HP.
    + by rewrite after_last_lf_none.
  - rewrite newlines_zero in Hv. apply dec_stable in Hv.
    rewrite from_last_lf_after, after_last_lf_app_r by done. by rewrite rune_count_ascii.
Qed.
