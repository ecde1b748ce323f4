(** * String prints every vertex and every edge exactly once *)
From stdpp Require Import base list gmap relations strings pretty.
From Verif Require Import GoBase SetModel DagModel DagSpec DagWp RelFacts DagInv DagOps DagMut.

Lemma string_app_assoc (s1 s2 s3 : string) : ((s1 +:+ s2) +:+ s3 = s1 +:+ s2 +:+ s3)%string.
Proof. induction s1 as [|c s1 IH]; [done|]. exact (f_equal (String c) IH). Qed.
Lemma string_app_nil (s : string) : (s +:+ "" = s)%string.
Proof. induction s as [|c s IH]; [done|]. exact (f_equal (String c) IH). Qed.
Lemma sconcat_cons x l : String.concat "" (x :: l) = (x +:+ String.concat "" l)%string.
Proof. destruct l; [|done]. simpl. by rewrite string_app_nil. Qed.
Lemma sconcat_app l1 l2 :
  String.concat "" (l1 ++ l2) = (String.concat "" l1 +:+ String.concat "" l2)%string.
Proof.
  induction l1 as [|x l1 IH]; [done|].
  change ((x :: l1) ++ l2) with (x :: (l1 ++ l2)).
  by rewrite !sconcat_cons, IH, string_app_assoc.
Qed.
Lemma foldl_sconcat {A} (f : A → string) l sb :
  foldl (λ sb k, sb +:+ f k)%string sb l = (sb +:+ String.concat "" (map f l))%string.
Proof.
  revert sb. induction l as [|x l IH]; intros sb; cbn [foldl map]; [by rewrite string_app_nil|].
  by rewrite IH, sconcat_cons, string_app_assoc.
Qed.

Section str.
Context {K T : Type} `{Countable K} `{Inhabited T} (isz : K → bool).

Lemma edge_list_app (f : K → list K) l1 l2 :
  edge_list f (l1 ++ l2) = edge_list f l1 ++ edge_list f l2.
Proof. unfold edge_list. by rewrite map_app, concat_app. Qed.
Lemma edge_list_ext (f f' : K → list K) l :
  (∀ k, k ∈ l → f k = f' k) → edge_list f l = edge_list f' l.
Proof.
  intros Hf. unfold edge_list. f_equal. apply map_ext_in. intros k Hk.
  rewrite Hf; [done|]. by apply elem_of_list_In.
Qed.

Lemma GetSize_wp σ (g : graph K T) n (Q : nat → graph K T → nat → Prop) :
  legal σ → (∀ n', Q (size (ae (abs g))) g n') → wp (GetSize σ) g n Q.
Proof.
  intros Hσ HQ. apply wp_bind, wp_get, wp_bind, wp_range; [done|]. intros ks Hks.
  apply wp_for_each_pure.
  replace (foldl _ 0 ks) with (size (ae (abs g))); [done|].
  unfold size at 1, set_size.
  pose proof (edge_list_elements g (λ k, keys (read (outboundEdges g) k)) ks Hks (λ k, reflexivity _)) as Hp.
  simpl. rewrite <-Hp. rewrite (edge_list_length _ (λ k, size (read (outboundEdges g) k))); [done|].
  intros k. apply length_keys.
Qed.

Lemma StringOf_ok σ show : refines (T:=T) isz σ (OpString show) (StringOf σ show) RText.
Proof.
  intros g n Hσ Hg. apply wp_bind, wp_bind, wp_get, wp_ret, wp_bind, GetSize_wp; [done|].
  intros n1. apply wp_bind, wp_get, wp_bind, wp_range; [done|]. intros vs Hvs.
  apply wp_bind, wp_for_each_pure.
  apply wp_bind, wp_range; [done|]. intros ks Hks.
  set (sb0 := (foldl _ _ vs +:+ _)%string).
  set (line := λ e : K * K, show_line (show e.1 +:+ " -> " +:+ show e.2)%string).
  assert (NoDup ks) as Hnd. { rewrite Hks. apply NoDup_keys. }
  apply (wp_for_each _ _ (λ pre sb g' _, g' = g ∧ ∃ f : K → list K,
    (∀ k, f k ≡ₚ keys (read (outboundEdges g) k)) ∧
    sb = (sb0 +:+ String.concat "" (map line (edge_list f pre)))%string)).
  - intros pre v post sb g' n' Heq (->&f&Hf&->).
    apply wp_bind, wp_range; [done|]. intros cs Hcs.
    apply (wp_for_each _ _ (λ cpre sb g' _, g' = g ∧
      sb = (sb0 +:+ String.concat "" (map line (edge_list f pre ++ map (pair v) cpre)))%string)).
    + intros cpre c cpost sb g' n2 Heqc [-> ->]. apply wp_ret. split; [done|].
      rewrite string_app_assoc. f_equal.
      rewrite (map_app (pair v)), (app_assoc (edge_list f pre)), (map_app line _ (map _ [c])), sconcat_app.
      f_equal. unfold line, show_line. simpl. by rewrite !string_app_assoc.
    + split; [done|]. by rewrite app_nil_r.
    + intros sb g' n2 [-> ->]. split; [done|].
      exists (λ k, if decide (k = v) then cs else f k). split.
      * intros k. destruct (decide (k = v)) as [->|]; [done|apply Hf].
      * rewrite edge_list_app. do 4 f_equal.
        -- apply edge_list_ext. intros k Hk. rewrite decide_False; [done|]. intros ->.
           rewrite Heq in Hnd. apply NoDup_app in Hnd as (_&Hnd&_).
           by apply (Hnd v Hk); left.
        -- unfold edge_list. simpl. rewrite decide_True by done. by rewrite app_nil_r.
  - split; [done|]. exists (λ k, keys (read (outboundEdges g) k)). split; [done|].
    by rewrite string_app_nil.
  - intros sb g' n' (->&f&Hf&->). split; [done|]. split; [done|].
    exists vs, (edge_list f ks). split_and!.
    + rewrite Hvs. apply NoDup_Permutation; [apply NoDup_keys|apply NoDup_elements|].
      intros k. rewrite elem_of_elements, elem_of_dom. apply map_keys_elem.
    + by apply edge_list_elements.
    + f_equal. unfold show_graph, sb0.
      rewrite (foldl_sconcat (λ k, "  " +:+ show k +:+ nl)%string).
      simpl size. fold line. by rewrite !string_app_assoc.
Qed.

End str.
