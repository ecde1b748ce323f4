(** * Proofs of the properties of graphs in memory *)
From stdpp Require Import base list gmap fin_map_dom.
From Verif Require Import GoBase SetModel DagModel DagSpec DagObs DagInv DagRefine DagMem
  DagMemFacts DagMemProofs.

Section props.
Context {K T : Type} `{Countable K} `{Inhabited T} `{A0 : Alloc} (isz : K → bool).
Notation mem := (mem K T).
Implicit Types (m : mem) (l : loc) (p q : list (step K T)).

(** References that a client may write to without touching the graph. *)
Definition free m (given : list loc) : Prop :=
  NoDup given ∧ ∀ l, l ∈ given → is_Some (cells m !! l) ∧ ¬ owned m l.

Lemma start_ok m0 :
  sep (start m0) ∧ view (start m0) = NewAcyclicGraph ∧
  (∀ l c, cells m0 !! l = Some c → cells (start m0) !! l = Some c ∧ ¬ owned (start m0) l).
Proof.
  unfold start, hNewAcyclicGraph, hbind, new.
  set (v := a_cell (dom (cells m0))). set (m1 := put m0 v (CVerts ∅)).
  set (i := a_cell (dom (cells m1))). set (m2 := put m1 i (CSets ∅)).
  set (o := a_cell (dom (cells m2))). set (m3 := put m2 o (CSets ∅)).
  set (a := a_cell (dom (cells m3))). set (m4 := put m3 a (CSets ∅)).
  set (d := a_cell (dom (cells m4))). set (m5 := put m4 d (CSets ∅)).
  assert (Ev : cells m0 !! v = None) by apply not_elem_of_dom, a_free.
  assert (Ei : cells m1 !! i = None) by apply not_elem_of_dom, a_free.
  assert (Eo : cells m2 !! o = None) by apply not_elem_of_dom, a_free.
  assert (Ea : cells m3 !! a = None) by apply not_elem_of_dom, a_free.
  assert (Ed : cells m4 !! d = None) by apply not_elem_of_dom, a_free.
  assert (P : ∀ m l c l' c', cells m !! l = None → cells m !! l' = Some c' →
    cells (put m l c) !! l' = Some c' ∧ l ≠ l').
  { intros m l c l' c' E E'. assert (l ≠ l') by (intros ->; congruence).
    by rewrite lookup_put_ne. }
  pose proof (lookup_put_eq m0 v (CVerts ∅)) as Lv1. fold m1 in Lv1.
  destruct (P m1 i (CSets ∅) _ _ Ei Lv1) as [Lv2 Niv].
  pose proof (lookup_put_eq m1 i (CSets ∅)) as Li2. fold m2 in Lv2, Li2.
  destruct (P m2 o (CSets ∅) _ _ Eo Lv2) as [Lv3 Nov].
  destruct (P m2 o (CSets ∅) _ _ Eo Li2) as [Li3 Noi].
  pose proof (lookup_put_eq m2 o (CSets ∅)) as Lo3. fold m3 in Lv3, Li3, Lo3.
  destruct (P m3 a (CSets ∅) _ _ Ea Lv3) as [Lv4 Nav].
  destruct (P m3 a (CSets ∅) _ _ Ea Li3) as [Li4 Nai].
  destruct (P m3 a (CSets ∅) _ _ Ea Lo3) as [Lo4 Nao].
  pose proof (lookup_put_eq m3 a (CSets ∅)) as La4. fold m4 in Lv4, Li4, Lo4, La4.
  destruct (P m4 d (CSets ∅) _ _ Ed Lv4) as [Lv5 Ndv].
  destruct (P m4 d (CSets ∅) _ _ Ed Li4) as [Li5 Ndi].
  destruct (P m4 d (CSets ∅) _ _ Ed Lo4) as [Lo5 Ndo].
  destruct (P m4 d (CSets ∅) _ _ Ed La4) as [La5 Nda].
  pose proof (lookup_put_eq m4 d (CSets ∅)) as Ld5. fold m5 in Lv5, Li5, Lo5, La5, Ld5.
  set (m' := Mem (cells m5) (GRef v i o a d)).
  assert (Eo' : ∀ f, cells m' !! outer (this m') f = Some (CSets ∅)) by by intros [].
  assert (Hi : ∀ f k, inner m' f k = None).
  { intros f k. unfold inner, sets_at. by rewrite Eo', lookup_empty. }
  assert (Hd : ∀ f, deep m' f = ∅).
  { intros f. apply map_eq. intros k. by rewrite deep_lookup, Hi, lookup_empty. }
  split; [split|split].
  - by exists ∅.
  - intros f. exists ∅. apply Eo'.
  - intros [] [] E; simpl in E; congruence.
  - intros f k l. by rewrite Hi.
  - intros f k f' k' l. by rewrite Hi.
  - unfold view. rewrite !Hd. unfold verts_at.
    assert (cells m' !! rvertices (this m') = Some (CVerts ∅)) as -> by exact Lv5. done.
  - intros l c E.
    destruct (P m0 v (CVerts ∅) _ _ Ev E) as [E1 N1]. fold m1 in E1.
    destruct (P m1 i (CSets ∅) _ _ Ei E1) as [E2 N2]. fold m2 in E2.
    destruct (P m2 o (CSets ∅) _ _ Eo E2) as [E3 N3]. fold m3 in E3.
    destruct (P m3 a (CSets ∅) _ _ Ea E3) as [E4 N4]. fold m4 in E4.
    destruct (P m4 d (CSets ∅) _ _ Ed E4) as [E5 N5]. fold m5 in E5.
    split; [done|]. intros [Ho|[[f Ho]|(f&k&Ho)]].
    + done.
    + by destruct f.
    + by rewrite Hi in Ho.
Qed.

Lemma exec_mem σ (o : op K T) m :
  legal σ → sep m → inv isz (view m) →
  ∃ r m1 n1, hexec isz σ o m 0 = Ok (r, m1, n1) ∧ sep m1 ∧ inv isz (view m1) ∧
    call isz σ o (view m) = Ok (read_out m1 r, view m1) ∧ frame m m1 ∧ given_out m m1 r.
Proof.
  intros Hσ Hs Hi. destruct (call_ok isz σ o (view m) Hσ Hi) as (r&g&Hc&Hg&_).
  pose proof Hc as Hc'. unfold call in Hc'.
  destruct (exec isz σ o (view m) 0) as [[[b g'] n']| |] eqn:E; [|done..].
  injection Hc' as -> ->.
  destruct (rwp_exec isz σ o m 0 Hs _ _ _ E) as (a&m1&Hx&S1&V1&F1&R1&G1).
  subst. exists a, m1, n'. auto 10.
Qed.

Lemma free_frame m m1 given : free m given → frame m m1 →
  free m1 given ∧ ∀ l, l ∈ given → cells m1 !! l = cells m !! l.
Proof.
  intros [Hd Hf] F. split.
  - split; [done|]. intros l Hl. destruct (Hf l Hl) as [E Ho]. split.
    + by apply (fr_dom _ _ F).
    + by apply (fr_owned _ _ F).
  - intros l Hl. destruct (Hf l Hl) as [E Ho]. apply (fr_same _ _ F); [done|].
    by intros ?%mut_owned.
Qed.
Lemma refs_short (r : hout K T) : NoDup (refs r).
Proof. destruct r as [| | | | |[]|[]| |]; simpl; repeat constructor; set_solver. Qed.
Lemma free_given m m1 given r :
  free m given → frame m m1 → given_out m m1 r → free m1 (given ++ refs r).
Proof.
  intros Hf F G. destruct (free_frame _ _ _ Hf F) as [[Hd Hf1] _]. split.
  - apply NoDup_app. split_and!; [done| |apply refs_short].
    intros l Hl Hl'. destruct (G l Hl') as [E _]. destruct Hf as [_ Hf].
    destruct (Hf l Hl) as [[c E'] _]. congruence.
  - intros l [Hl|Hl]%elem_of_app; [by apply Hf1|]. by destruct (G l Hl) as (_&?&?).
Qed.
Lemma free_put m l c given : free m given → l ∈ given → free (put m l c) given.
Proof.
  intros [Hd Hf] Hl. split; [done|]. intros x Hx. destruct (Hf x Hx) as [E Ho].
  rewrite owned_put_free by by apply Hf. split; [|done].
  rewrite lookup_put. destruct (decide _); [by eexists|done].
Qed.

(** [others]: cells that neither belong to the graph nor were given to the client. *)
Lemma run_mem p given m :
  legal_history (calls p) → sep m → inv isz (view m) → free m given →
  ∃ outs given' m', hrun isz p given m = Ok (outs, given ++ given', m') ∧
    run isz (calls p) (view m) = Ok (outs, view m') ∧ sep m' ∧ inv isz (view m') ∧
    free m' (given ++ given') ∧
    (∀ l, is_Some (cells m !! l) → ¬ owned m l → l ∉ given →
       cells m' !! l = cells m !! l ∧ ¬ owned m' l ∧ l ∉ given').
Proof.
  revert given m. induction p as [|[σ o|i c] p IH]; intros given m Hl Hs Hi Hf.
  - exists [], [], m. rewrite app_nil_r. split_and!; try done. set_solver.
  - apply Forall_cons in Hl as [Hσ Hl]. simpl in Hσ.
    destruct (exec_mem σ o m Hσ Hs Hi) as (r&m1&n1&Hx&S1&I1&Hc&F1&G1).
    destruct (IH (given ++ refs r) m1 Hl S1 I1) as (outs&given'&m'&Hr&Hr'&S'&I'&Hf'&Ho).
    { by eapply free_given. }
    exists (read_out m1 r :: outs), (refs r ++ given'), m'.
    cbn [hrun calls run]. rewrite Hx, Hr, Hc, Hr'. rewrite (assoc_L (++)).
    split_and!; [done|done|done|done|done|]. intros l E N Hn.
    assert (cells m1 !! l = cells m !! l) as E1.
    { apply (fr_same _ _ F1); [done|]. by intros ?%mut_owned. }
    assert (l ∉ refs r) as Nr.
    { intros Hl'. destruct (G1 l Hl') as [E' _]. rewrite E' in E. by destruct E. }
    destruct (Ho l) as (E2&N2&Hn2).
    + by rewrite E1.
    + by apply (fr_owned _ _ F1).
    + rewrite elem_of_app. naive_solver.
    + split_and!; [congruence|done|]. rewrite elem_of_app. naive_solver.
  - cbn [hrun calls]. destruct (given !! i) as [l|] eqn:E; [|by apply IH].
    apply elem_of_list_lookup_2 in E.
    assert (¬ owned m l) as No by by apply Hf.
    destruct (IH given (put m l c) Hl) as (outs&given'&m'&Hr&Hr'&S'&I'&Hf'&Ho).
    + by apply sep_put_free.
    + by rewrite view_put_free.
    + by apply free_put.
    + exists outs, given', m'. rewrite view_put_free in Hr' by done.
      split_and!; [done|done|done|done|done|]. intros x Ex Nx Hn.
      assert (l ≠ x) by by intros ->.
      destruct (Ho x) as (E2&N2&Hn2); [by rewrite lookup_put_ne|by rewrite owned_put_free|done|].
      rewrite lookup_put_ne in E2 by done. done.
Qed.

Lemma free_nil m : free m [].
Proof. split; [constructor|]. intros l Hl. by apply elem_of_nil in Hl. Qed.

Lemma run_start p m0 :
  legal_history (calls p) →
  ∃ outs given m, hrun isz p [] (start m0) = Ok (outs, given, m) ∧
    run isz (calls p) NewAcyclicGraph = Ok (outs, view m) ∧ sep m ∧ inv isz (view m) ∧
    free m given ∧
    (∀ l c, cells m0 !! l = Some c → cells m !! l = Some c ∧ l ∉ given).
Proof.
  intros Hl. destruct (start_ok m0) as (S0&V0&Hold).
  destruct (run_mem p [] (start m0) Hl S0) as (outs&given&m&Hr&Hr'&S'&I'&Hf&Ho).
  - rewrite V0. apply inv_new.
  - apply free_nil.
  - rewrite V0 in Hr'. exists outs, given, m. split_and!; try done.
    intros l c E. destruct (Hold l c E) as [E' N].
    destruct (Ho l) as (E2&_&?); [by eexists|done|apply not_elem_of_nil|]. split; [congruence|done].
Qed.

(** ** C47 *)
Definition calls_only p : list (step K T) := map (λ '(σ, o), Call σ o) (calls p).
Lemma calls_calls_only p : calls (calls_only p) = calls p.
Proof. unfold calls_only. induction (calls p) as [|[σ o] h IH]; simpl; [done|]. by rewrite IH. Qed.

Lemma ok_pair {A B} (a a' : A) (b b' : B) : Ok (a, b) = Ok (a', b') → a = a' ∧ b = b'.
Proof. by intros [= -> ->]. Qed.
(*P C47_writes_have_no_effect *)
(** The client [p] calls the API and overwrites collections that it was given, as it
    likes.  The client that does the calls only gets the same results and ends with
    the same graph. *)
Lemma p47_client p m0 :
  legal_history (calls p) →
  ∃ outs given m given' m',
    hrun isz p [] (start m0) = Ok (outs, given, m) ∧
    hrun isz (map (λ '(σ, o), Call σ o) (calls p)) [] (start m0) = Ok (outs, given', m') ∧
    view m = view m'.
Proof.
  intros Hl. destruct (run_start p m0 Hl) as (outs&given&m&Hr&Hr'&_).
  destruct (run_start (calls_only p) m0) as (outs2&given2&m2&Hr2&Hr2'&_).
  { by rewrite calls_calls_only. }
  rewrite calls_calls_only in Hr2'. rewrite Hr' in Hr2'. apply ok_pair in Hr2' as [<- Hv].
  exists outs, given, m, given2, m2. split; [exact Hr|]. split; [exact Hr2|exact Hv].
Qed.

(*P C47_write_keeps_graph *)
(** Whatever a client writes into a collection it was given, at any time, the graph
    stays as it is. *)
Lemma p47_write p m0 outs given m l c :
  legal_history (calls p) →
  hrun isz p [] (start m0) = Ok (outs, given, m) →
  l ∈ given →
  view (put m l c) = view m.
Proof.
  intros Hl Hr Hin. destruct (run_start p m0 Hl) as (?&?&?&Hr1&_&_&_&[_ Hf]&_).
  rewrite Hr in Hr1. injection Hr1 as <- <- <-. apply view_put_free. by apply Hf.
Qed.

(** ** C64 *)
(*P C64_memory_model_agrees *)
(** With maps as references, every client gets the results that the model with maps as
    values gives for its calls, and the maps end with the contents of that model. *)
Lemma p64_agrees p m0 :
  legal_history (calls p) →
  ∃ outs given m,
    hrun isz p [] (start m0) = Ok (outs, given, m) ∧
    run isz (calls p) NewAcyclicGraph = Ok (outs, view m).
Proof.
  intros Hl. destruct (run_start p m0 Hl) as (outs&given&m&Hr&Hr'&_). eauto.
Qed.

(*P C64_no_shared_set *)
(** No set is stored in two places of a graph. *)
Lemma p64_separate p m0 outs given m f k f' k' l :
  legal_history (calls p) →
  hrun isz p [] (start m0) = Ok (outs, given, m) →
  sets_at m (outer (this m) f) !! k = Some l →
  sets_at m (outer (this m) f') !! k' = Some l →
  f = f' ∧ k = k'.
Proof.
  intros Hl Hr. destruct (run_start p m0 Hl) as (?&?&?&Hr1&_&Hs&_).
  rewrite Hr in Hr1. injection Hr1 as <- <- <-. apply (sep_j _ Hs).
Qed.

(*P C64_other_memory_untouched *)
(** Cells that were there before the graph was made keep their contents. *)
Lemma p64_others p m0 outs given m l c :
  legal_history (calls p) →
  hrun isz p [] (start m0) = Ok (outs, given, m) →
  cells m0 !! l = Some c →
  cells m !! l = Some c.
Proof.
  intros Hl Hr E. destruct (run_start p m0 Hl) as (?&?&?&Hr1&_&_&_&_&Ho).
  rewrite Hr in Hr1. injection Hr1 as <- <- <-. by apply Ho.
Qed.

(** ** C65 *)
Lemma snapshot (h : list (schedule K * op K T)) given m outs given' m' l :
  legal_history h → sep m → inv isz (view m) → free m given → l ∈ given →
  hrun isz (map (λ '(σ, o), Call σ o) h) given m = Ok (outs, given', m') →
  cells m' !! l = cells m !! l.
Proof.
  intros Hh. revert given m outs. induction Hh as [|[σ o] h Hσ Hh IH]; intros given m outs Hs Hi Hf Hin.
  { by intros [= <- <- <-]. }
  cbn [map hrun]. destruct (exec_mem σ o m Hσ Hs Hi) as (r&m1&n1&Hx&S1&I1&_&F1&G1). rewrite Hx.
  destruct (hrun isz _ _ m1) as [[[outs1 given1] m2]| |] eqn:Hr; [|done..]. intros [= <- <- <-].
  etrans; [eapply (IH (given ++ refs r) m1); [done|done| | |exact Hr]|].
  - by eapply free_given.
  - apply elem_of_app. by left.
  - by apply (free_frame m m1 given).
Qed.

(*P C65_results_are_snapshots *)
(** Later calls do not change a collection that was returned before. *)
Lemma p65_snapshot p m0 outs given m (h : list (schedule K * op K T)) outs' given' m' l :
  legal_history (calls p) → legal_history h →
  hrun isz p [] (start m0) = Ok (outs, given, m) →
  hrun isz (map (λ '(σ, o), Call σ o) h) given m = Ok (outs', given', m') →
  l ∈ given →
  cells m' !! l = cells m !! l.
Proof.
  intros Hl Hh Hr Hr' Hin. destruct (run_start p m0 Hl) as (?&?&?&Hr1&_&Hs&Hi&Hf&_).
  rewrite Hr in Hr1. injection Hr1 as <- <- <-. by eapply snapshot.
Qed.

(*P C65_results_are_new *)
(** Every collection that a call returns is a new one: no two results are the same
    map or slice, and none is one that was there before the graph was made. *)
Lemma p65_new p m0 outs given m :
  legal_history (calls p) →
  hrun isz p [] (start m0) = Ok (outs, given, m) →
  NoDup given ∧ ∀ l, l ∈ given → is_Some (cells m !! l) ∧ cells m0 !! l = None.
Proof.
  intros Hl Hr. destruct (run_start p m0 Hl) as (?&?&?&Hr1&_&_&_&[Hd Hf]&Ho).
  rewrite Hr in Hr1. injection Hr1 as <- <- <-. split; [done|]. intros l Hin.
  split; [by apply Hf|]. destruct (cells m0 !! l) eqn:E; [|done]. by destruct (Ho _ _ E).
Qed.
End props.
