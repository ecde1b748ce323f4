(** * Facts about relations: closures under local change, finite acyclic
    relations, transitive reduction.  Nothing here mentions the model. *)
From stdpp Require Import base list gmap relations.

Section rel.
Context {A : Type}.
Implicit Types R S : relation A.

Lemma tc_rtc' R x y : tc R x y → rtc R x y.
Proof. apply tc_rtc. Qed.
Lemma tc_last R x y : tc R x y → ∃ z, rtc R x z ∧ R z y.
Proof.
  induction 1 as [x y Hxy|x y z Hxy Hyz (w&Hw&Hwz)].
  - exists x. split; [constructor|done].
  - exists w. split; [|done]. eapply rtc_l; eauto.
Qed.
Lemma tc_first R x y : tc R x y → ∃ z, R x z ∧ rtc R z y.
Proof. intros Hxy. destruct Hxy as [? ? Hxy|? z ? Hxz Hzy]; eauto using rtc_refl, tc_rtc. Qed.
Lemma rtc_tc_tc R x y z : rtc R x y → tc R y z → tc R x z.
Proof. induction 1; eauto using tc_l. Qed.
Lemma tc_rtc_tc R x y z : tc R x y → rtc R y z → tc R x z.
Proof.
  intros Hxy Hyz. revert Hxy.
  induction Hyz as [|y w z Hyw Hwz IH]; intros Hxy; [done|].
  apply IH. eauto using tc_r.
Qed.
Lemma rtc_inv_eq_tc R x y : rtc R x y → x = y ∨ tc R x y.
Proof. destruct 1; [by left|right]. eapply tc_rtc_tc; [by apply tc_once|done]. Qed.
Lemma rtc_ind_l_snoc R x y z : rtc R x y → R y z → rtc R x z.
Proof. intros. eapply rtc_r; eauto. Qed.

Lemma tc_flip R x y : tc (flip R) x y ↔ tc R y x.
Proof.
  split.
  - induction 1 as [? ? HR|? ? ? HR _ IH]; [by apply tc_once|].
    eapply tc_r; [apply IH|done].
  - induction 1 as [? ? HR|? ? ? HR _ IH]; [by apply tc_once|].
    eapply tc_r; [apply IH|done].
Qed.

Lemma tc_mono R S x y : (∀ x y, R x y → S x y) → tc R x y → tc S x y.
Proof. intros Hsub. induction 1; eauto using tc_once, tc_l. Qed.
Lemma rtc_mono R S x y : (∀ x y, R x y → S x y) → rtc R x y → rtc S x y.
Proof. intros Hsub. induction 1; eauto using rtc_refl, rtc_l. Qed.
Lemma tc_iff R S x y : (∀ x y, R x y ↔ S x y) → tc R x y ↔ tc S x y.
Proof. intros HRS. split; apply tc_mono; naive_solver. Qed.

(** Paths from [v] only depend on the edges leaving what [v] reaches. *)
Lemma tc_local R S v w :
  (∀ x y, rtc S v x → R x y → S x y) → tc R v w → tc S v w.
Proof.
  intros Hloc Hvw.
  assert (∀ x, rtc S v x → tc R x w → tc S x w) as Hgen.
  { clear Hvw. intros x Hx Hxw. revert Hx. induction Hxw as [x y Hxy|x y z Hxy Hyz IH]; intros Hx.
    - apply tc_once. auto.
    - pose proof (Hloc _ _ Hx Hxy). eapply tc_l; [done|].
      apply IH. eapply rtc_r; eauto. }
  apply Hgen; [constructor|done].
Qed.

(** Adding one edge. *)
Lemma tc_add R S s t x y :
  (∀ x y, S x y ↔ R x y ∨ (x = s ∧ y = t)) →
  tc S x y → tc R x y ∨ (rtc R x s ∧ rtc R t y).
Proof.
  intros HS. induction 1 as [x y Hxy|x y z Hxy Hyz IH].
  - apply HS in Hxy as [Hxy|[-> ->]]; [left; by apply tc_once|right; split; constructor].
  - apply HS in Hxy as [Hxy|[-> ->]].
    + destruct IH as [IH|[IH1 IH2]]; [left; eauto using tc_l|right].
      split; [|done]. eapply rtc_l; eauto.
    + right. split; [constructor|].
      destruct IH as [IH|[IH1 IH2]]; [by apply tc_rtc|done].
Qed.

Lemma acyclic_add R S s t :
  (∀ x y, S x y ↔ R x y ∨ (x = s ∧ y = t)) →
  s ≠ t → ¬ tc R t s → (∀ v, ¬ tc R v v) → ∀ v, ¬ tc S v v.
Proof.
  intros HS Hne Hts Hac v Hv. apply (tc_add R S s t _ _ HS) in Hv as [Hv|[Hvs Htv]]; [by apply (Hac v)|].
  assert (rtc R t s) as Hrt by (etrans; eauto).
  apply rtc_inv_eq_tc in Hrt as [->|]; done.
Qed.

(** Irredundant edges. *)
Definition redundant R (u v : A) : Prop := ∃ c, R u c ∧ tc R c v.

End rel.

Section finite.
Context {A : Type} `{Countable A}.

(** A finite acyclic relation is well-founded, in both directions. *)
Lemma acyclic_acc (R : relation A) (V : gset A) :
  (∀ x y, R x y → x ∈ V ∧ y ∈ V) → (∀ x, ¬ tc R x x) → ∀ x, Acc (flip (tc R)) x.
Proof.
  intros HV Hac.
  assert (∀ n (S : gset A) x, S ⊆ V → (∀ y, y ∈ S → tc R y x) → size (V ∖ S) < n →
            Acc (flip (tc R)) x) as Hgen.
  { induction n as [|n IH]; intros S x HSV HS Hn; [lia|].
    constructor. intros y Hxy. unfold flip in Hxy.
    assert (x ∈ V) as Hx.
    { apply tc_first in Hxy as (z&Hz&_). by apply HV in Hz as [? _]. }
    assert (x ∉ S) as HxS by (intros HxS; by apply (Hac x), HS).
    apply (IH ({[x]} ∪ S)).
    - set_solver.
    - intros z [->%elem_of_singleton|Hz]%elem_of_union; [done|].
      eapply tc_transitive; eauto.
    - assert (V ∖ ({[x]} ∪ S) ⊂ V ∖ S) as Hlt%subset_size by set_solver. lia. }
  intros x. apply (Hgen (S (size (V ∖ ∅))) ∅); [set_solver..|lia].
Qed.

Lemma acyclic_acc_flip (R : relation A) (V : gset A) :
  (∀ x y, R x y → x ∈ V ∧ y ∈ V) → (∀ x, ¬ tc R x x) → ∀ x, Acc (tc R) x.
Proof.
  intros HV Hac x.
  assert (Acc (flip (tc (flip R))) x) as Hacc.
  { apply (acyclic_acc (flip R) V); [intros ?? Hf; apply HV in Hf; naive_solver|].
    intros y Hy. apply tc_flip in Hy. by eapply Hac. }
  induction Hacc as [x _ IH]. constructor. intros y Hy. apply IH.
  unfold flip at 1. by apply tc_flip.
Qed.

(** Dropping every redundant edge keeps the closure. *)
Lemma reduction_closure (R S : relation A) (V : gset A) :
  (∀ x y, R x y → x ∈ V ∧ y ∈ V) → (∀ x, ¬ tc R x x) →
  (∀ u v, R u v → S u v ∨ redundant R u v) →
  ∀ u v, tc R u v → tc S u v.
Proof.
  intros HV Hac HS.
  assert (∀ u v, R u v → tc S u v) as Hedge.
  { intros u. induction (acyclic_acc R V HV Hac u) as [u _ IHu].
    intros v. induction (acyclic_acc_flip R V HV Hac v) as [v _ IHv].
    intros Huv. destruct (HS u v Huv) as [?|(c&Huc&Hcv)]; [by apply tc_once|].
    eapply tc_transitive; [by apply (IHv c)|].
    assert (∀ x, tc R u x → ∀ y, tc R x y → tc S x y) as Hbelow.
    { intros x Hux y Hxy. clear - IHu Hux Hxy.
      induction Hxy as [x y Hxy|x y z Hxy Hyz IH].
      - by apply (IHu x).
      - eapply tc_transitive; [apply (IHu x); done|]. apply IH. by eapply tc_r. }
    eapply Hbelow; [by apply tc_once|done]. }
  intros u v. induction 1 as [u v Huv|u v w Huv Hvw IH]; [by apply Hedge|].
  eapply tc_transitive; eauto.
Qed.

(** An irredundant edge belongs to every relation with the same closure. *)
Lemma irredundant_necessary (R S : relation A) u v :
  (∀ x y, tc S x y ↔ tc R x y) → R u v → ¬ redundant R u v → S u v.
Proof.
  intros Heq Huv Hirr.
  assert (tc S u v) as HS by (apply Heq; by apply tc_once).
  apply tc_first in HS as (c&Huc&Hcv).
  apply rtc_inv_eq_tc in Hcv as [->|Hcv]; [done|].
  exfalso. apply Hirr.
  assert (tc R u c) as HRuc by (apply Heq; by apply tc_once).
  apply Heq in Hcv. apply tc_first in HRuc as (d&Hud&Hdc).
  exists d. split; [done|]. eapply rtc_tc_tc; eauto.
Qed.

End finite.
