(** * Captured texts are the texts of tokens *)
From stdpp Require Import base list option strings.
From Coq Require Import Ascii Lia.
From Verif Require Import GoBase EtxAst EtxHeap EtxHeapSpec EtxText EtxLex EtxUtil EtxGram EtxParse EtxParseBase
  EtxParseSpec EtxParseStore EtxParseTyped EtxParseFirst EtxParseParts EtxFormat EtxShape EtxPrec EtxReprint.

(** ** What is captured for a field *)
Fixpoint caps (f : fld) (g : gexp) : list gexp :=
  match g with
  | GLit _ | GTok _ | GSub _ _ => []
  | GCap f' g => (if decide (f = f') then [g] else []) ++ caps f g
  | GSeq gs | GAlt gs => flat_map (caps f) gs
  | GOpt g | GMany g | GSome g => caps f g
  end.
(** One token. *)
Fixpoint leaves (g : gexp) : option (list atom) :=
  match g with
  | GLit s => Some [ALit s]
  | GTok k => Some [ATok k]
  | GAlt gs => (fix go gs := match gs with [] => Some [] | g :: gs => l ← leaves g; m ← go gs; Some (l ++ m) end) gs
  | _ => None
  end.
Fixpoint all_leaves (gs : list gexp) : option (list atom) :=
  match gs with [] => Some [] | g :: gs => l ← leaves g; m ← all_leaves gs; Some (l ++ m) end.
Lemma leaves_alt gs : leaves (GAlt gs) = all_leaves gs.
Proof. cbn [leaves]. induction gs as [|g gs IH]; [done|]. cbn [all_leaves]. by rewrite <- IH. Qed.
Lemma all_leaves_in gs l g : all_leaves gs = Some l → g ∈ gs → ∃ m, leaves g = Some m ∧ ∀ a, a ∈ m → a ∈ l.
Proof.
  revert l. induction gs as [|g' gs IH]; intros l H Hg; [by apply elem_of_nil in Hg|]. cbn in H.
  destruct (leaves g') as [l1|] eqn:E1; [|done]. destruct (all_leaves gs) as [l2|] eqn:E2; [|done]. injection H as <-.
  apply elem_of_cons in Hg as [->|Hg].
  - exists l1. split; [done|]. intros a Ha. apply elem_of_app. by left.
  - destruct (IH l2 eq_refl Hg) as (m & Hm & Hi). exists m. split; [done|]. intros a Ha. apply elem_of_app. right. by apply Hi.
Qed.
Definition fits (u : token) (l : list atom) : Prop := ∃ a, a ∈ l ∧ atom_is u a = true.
Lemma fits_impl u l m : (∀ a, a ∈ l → a ∈ m) → fits u l → fits u m.
Proof. intros H (a & Ha & Hu). exists a. split; [by apply H|done]. Qed.
Lemma leaf_derives p g us cs l m : derives p g us cs l → leaves g = Some m → ∃ u, us = [u] ∧ l = [value u] ∧ fits u m.
Proof.
  intros H. revert p g us cs l H m.
  enough ((∀ p g us cs l, derives p g us cs l → ∀ m, leaves g = Some m → ∃ u, us = [u] ∧ l = [value u] ∧ fits u m) ∧
    (∀ p k us t, builds p k us t → True)) by tauto.
  apply (derivation_ind (λ p g us cs l, ∀ m, leaves g = Some m → ∃ u, us = [u] ∧ l = [value u] ∧ fits u m) (λ p k us t, True)); try done.
  - intros p s t Ht m [= <-]. exists t. split_and!; [done..|]. exists (ALit s). split; [by left|]. cbn. by apply bool_decide_eq_true.
  - intros p s t Ht m [= <-]. exists t. split_and!; [done..|]. exists (ATok s). split; [by left|]. cbn. by apply bool_decide_eq_true.
  - intros p g gs us cs l Hg _ IH m Hm. rewrite leaves_alt in Hm. destruct (all_leaves_in _ _ _ Hm Hg) as (m' & Hm' & Hi).
    destruct (IH m' Hm') as (u & -> & -> & Hu). exists u. split_and!; [done..|]. by eapply fits_impl.
Qed.
Definition sources (f : fld) (g : gexp) : option (list atom) := all_leaves (caps f g).
Lemma elem_flat {A B} (h : A → list B) a l b : a ∈ l → b ∈ h a → b ∈ flat_map h l.
Proof. rewrite !elem_of_list_In. intros. apply in_flat_map. eauto. Qed.
Lemma captured_cap p g us cs l f ls :
  derives p g us cs l → (f, Texts ls) ∈ cs → ∃ g' p' us' cs', g' ∈ caps f g ∧ derives p' g' us' cs' ls ∧ ∀ u, u ∈ us' → u ∈ us.
Proof.
  intros H. revert p g us cs l H.
  set (P := λ (g : gexp) (us : list token) (cs : list capture), (f, Texts ls) ∈ cs →
     ∃ g' p' us' cs', g' ∈ caps f g ∧ derives p' g' us' cs' ls ∧ ∀ u, u ∈ us' → u ∈ us).
  enough ((∀ p g us cs l, derives p g us cs l → P g us cs) ∧ (∀ p k us t, builds p k us t → True)) as [H _] by (intros; by eapply H).
  apply (derivation_ind (λ p g us cs l, P g us cs) (λ p k us t, True)); unfold P; try done.
  - by intros p s t _ ?%elem_of_nil.
  - by intros p s t _ ?%elem_of_nil.
  - intros p f' k us t _ _ H. apply elem_of_list_singleton in H. done.
  - intros p f' g us cs l Hd IH [H|H]%elem_of_app.
    + destruct (IH H) as (g' & p' & us' & cs' & H1 & H2 & H3). exists g', p', us', cs'. split_and!; [|done..].
      cbn [caps]. apply elem_of_app. by right.
    + apply elem_of_list_singleton in H as [= <- <-]. exists g, p, us, cs. split_and!; [|done..].
      cbn [caps]. rewrite decide_True by done. by left.
  - by intros p ?%elem_of_nil.
  - intros p g gs us vs cs ds l m _ IH1 _ IH2 [H|H]%elem_of_app.
    + destruct (IH1 H) as (g' & p' & us' & cs' & H1 & H2 & H3). exists g', p', us', cs'. split_and!; [|done|].
      * cbn [caps flat_map]. apply elem_of_app. by left.
      * intros u Hu. apply elem_of_app. left. by apply H3.
    + destruct (IH2 H) as (g' & p' & us' & cs' & H1 & H2 & H3). exists g', p', us', cs'. split_and!; [|done|].
      * cbn [caps flat_map] in *. apply elem_of_app. by right.
      * intros u Hu. apply elem_of_app. right. by apply H3.
  - intros p g gs us cs l Hg _ IH H. destruct (IH H) as (g' & p' & us' & cs' & H1 & H2 & H3). exists g', p', us', cs'. split_and!; [|done..].
    cbn [caps]. by eapply elem_flat.
  - by intros p g ?%elem_of_nil.
  - by intros p g ?%elem_of_nil.
  - intros p g us vs cs ds l m _ IH1 _ IH2 [H|H]%elem_of_app; [destruct (IH1 H) as (g' & p' & us' & cs' & H1 & H2 & H3)|destruct (IH2 H) as (g' & p' & us' & cs' & H1 & H2 & H3)];
      exists g', p', us', cs'; (split_and!; [done|done|]); intros u Hu; apply elem_of_app; [left|right]; by apply H3.
  - intros p g us vs cs ds l m _ IH1 _ IH2 [H|H]%elem_of_app; [destruct (IH1 H) as (g' & p' & us' & cs' & H1 & H2 & H3)|destruct (IH2 H) as (g' & p' & us' & cs' & H1 & H2 & H3)];
      exists g', p', us', cs'; (split_and!; [done|done|]); intros u Hu; apply elem_of_app; [left|right]; by apply H3.
Qed.
Lemma captured_text p g us cs l f ls m :
  derives p g us cs l → sources f g = Some m → (f, Texts ls) ∈ cs → ∃ u, u ∈ us ∧ ls = [value u] ∧ fits u m.
Proof.
  intros Hd Hm Hc. destruct (captured_cap _ _ _ _ _ _ _ Hd Hc) as (g' & p' & us' & cs' & H1 & H2 & H3).
  destruct (all_leaves_in _ _ _ Hm H1) as (m' & Hm' & Hi). destruct (leaf_derives _ _ _ _ _ _ H2 Hm') as (u & -> & -> & Hu).
  exists u. split_and!; [by apply H3, elem_of_list_singleton|done|]. by eapply fits_impl.
Qed.

(** ** How often *)
Fixpoint most (f : fld) (g : gexp) : nat :=
  match g with
  | GLit _ | GTok _ => 0
  | GSub f' _ => if decide (f = f') then 1 else 0
  | GCap f' g => most f g + (if decide (f = f') then 1 else 0)
  | GSeq gs => list_sum (map (most f) gs)
  | GAlt gs => list_max (map (most f) gs)
  | GOpt g => most f g
  | GMany g | GSome g => if decide (most f g = 0) then 0 else 2
  end.
Lemma most_captured p g us cs l f : derives p g us cs l → most f g <= 1 → length (captures_of f cs) <= most f g.
Proof.
  intros H. revert p g us cs l H.
  enough ((∀ p g us cs l, derives p g us cs l → most f g <= 1 → length (captures_of f cs) <= most f g) ∧ (∀ p k us t, builds p k us t → True)) by tauto.
  apply (derivation_ind (λ p g us cs l, most f g <= 1 → length (captures_of f cs) <= most f g) (λ p k us t, True)); try done.
  - intros p f' k us t _ _ _. cbn [most]. rewrite captures_of_cons. destruct (decide (f = f')) as [->|Hn], (decide _); cbn in *; try done; try lia.
  - intros p f' g us cs l _ IH H. cbn [most] in *. rewrite captures_of_app, app_length. specialize (IH ltac:(lia)).
    rewrite captures_of_cons. cbn [fst captures_of]. destruct (decide (f = f')) as [->|Hn], (decide _); cbn in *; try done; try lia.
  - intros p g gs us vs cs ds l m _ IH1 _ IH2 H. rewrite captures_of_app, app_length. cbn [most map list_sum fold_right] in *.
    change (fold_right Nat.add 0 (map (most f) gs)) with (list_sum (map (most f) gs)) in *.
    specialize (IH1 ltac:(lia)). specialize (IH2 ltac:(lia)). lia.
  - intros p g gs us cs l Hg _ IH H. cbn [most] in *.
    assert (most f g <= list_max (map (most f) gs)).
    { pose proof (list_max_le (map (most f) gs) (list_max (map (most f) gs))) as [Hl _]. specialize (Hl ltac:(lia)).
      rewrite List.Forall_forall in Hl. apply Hl, in_map. by apply elem_of_list_In. }
    specialize (IH ltac:(lia)). lia.
  - intros. apply Nat.le_0_l.
  - intros. apply Nat.le_0_l.
  - intros p g us vs cs ds l m _ IH1 _ IH2 H. rewrite captures_of_app, app_length. cbn [most] in *. destruct (decide (most f g = 0)) as [E|E]; [|lia].
    specialize (IH1 ltac:(lia)). specialize (IH2 ltac:(lia)). lia.
  - intros p g us vs cs ds l m _ IH1 _ IH2 H. rewrite captures_of_app, app_length. cbn [most] in *. destruct (decide (most f g = 0)) as [E|E]; [|lia].
    specialize (IH1 ltac:(lia)). specialize (IH2 ltac:(lia)). lia.
Qed.

(** ** Fields *)
Lemma texts_elem v cs : v ∈ texts_of cs → ∃ ls, Texts ls ∈ cs ∧ v ∈ ls.
Proof.
  intros (c & Hc & Hv)%elem_of_list_In%in_flat_map. apply elem_of_list_In in Hc, Hv. destruct c as [ls|t]; [|by apply elem_of_nil in Hv]. eauto.
Qed.
Lemma field_texts p g us cs l f m v :
  derives p g us cs l → sources f g = Some m → v ∈ texts_of (captures_of f cs) → ∃ u, u ∈ us ∧ v = value u ∧ fits u m.
Proof.
  intros Hd Hm (ls & H1 & H2)%texts_elem. apply captures_of_elem in H1. destruct (captured_text _ _ _ _ _ _ _ _ Hd Hm H1) as (u & Hu & -> & Hf).
  apply elem_of_list_singleton in H2 as ->. eauto.
Qed.
(** A text that is captured at most once. *)
Lemma str_token p k us t f m :
  builds p k us t → special_kind k = false → (f, TStr) ∈ schema k → sources f (grammar k) = Some m → most f (grammar k) <= 1 →
  str_of f t = [] ∨ ∃ u, u ∈ us ∧ str_of f t = value u ∧ fits u m.
Proof.
  intros [p' k' us' cs l fs Hd Hf] Hs Hsc Hm Hmost. pose proof (most_captured _ _ _ _ _ f Hd Hmost) as Hl.
  erewrite (str_of_field k' cs fs _ f _ Hs Hf Hsc eq_refl).
  destruct (captures_of f cs) as [|c [|c2 l']] eqn:E; [by left| |cbn in Hl; lia].
  destruct c as [ls|x]; [|by left]. right. assert ((f, Texts ls) ∈ cs) as Hc by (apply captures_of_elem; rewrite E; by left).
  destruct (captured_text _ _ _ _ _ _ _ _ Hd Hm Hc) as (u & Hu & -> & Hfit). exists u. split_and!; [done| |done].
  cbn. by rewrite !app_nil_r.
Qed.
(** Any number of texts. *)
Lemma str_tokens p k us t f m c :
  builds p k us t → special_kind k = false → (f, TStr) ∈ schema k → sources f (grammar k) = Some m →
  c ∈ str_of f t → ∃ u, u ∈ us ∧ c ∈ value u ∧ fits u m.
Proof.
  intros [p' k' us' cs l fs Hd Hf] Hs Hsc Hm. erewrite (str_of_field k' cs fs _ f _ Hs Hf Hsc eq_refl).
  intros (v & H2%elem_of_list_In & H1%elem_of_list_In)%elem_of_list_In%in_concat.
  destruct (field_texts _ _ _ _ _ _ _ _ Hd Hm H2) as (u & Hu & -> & Hfit). eauto.
Qed.
Lemma strs_tokens p k us t f m v :
  builds p k us t → special_kind k = false → (f, TStrs) ∈ schema k → sources f (grammar k) = Some m →
  v ∈ strs_of f t → ∃ u, u ∈ us ∧ v = value u ∧ fits u m.
Proof.
  intros [p' k' us' cs l fs Hd Hf] Hs Hsc Hm Hv. destruct (decide (captures_of f cs = [])) as [E|E].
  - exfalso. unfold strs_of in Hv. rewrite (filled_get k' _ fs f _ _ Hs Hf Hsc) in Hv. cbn [plain_value] in Hv. rewrite decide_True in Hv by done.
    by apply elem_of_nil in Hv.
  - erewrite (strs_of_field k' cs fs _ f _ Hs Hf Hsc E eq_refl) in Hv. by eapply field_texts.
Qed.
