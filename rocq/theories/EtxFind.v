(** * What the parser finds

    Derivations in which every alternative, option or iteration that is passed over is
    refused by the parser; the parser finds these. *)
From stdpp Require Import base list option strings.
From Coq Require Import Ascii Lia.
From Verif Require Import GoBase EtxAst EtxHeap EtxHeapSpec EtxText EtxLex EtxUtil EtxGram EtxParse EtxParseBase
  EtxParseSpec EtxParseStore EtxParseTyped EtxParseFirst EtxParseClean.

Fixpoint cap_fields (g : gexp) : list fld :=
  match g with
  | GLit _ | GTok _ => []
  | GSub f _ => [f]
  | GCap f g => f :: cap_fields g
  | GSeq gs | GAlt gs => flat_map cap_fields gs
  | GOpt g | GMany g | GSome g => cap_fields g
  end.
(** In a branch, captures of [w] waiting outside: the order of the captures of each field
    is that of the text. *)
Definition apart (w : list fld) (g : gexp) : bool :=
  no_commit false g || forallb (λ f, negb (bool_decide (f ∈ w))) (cap_fields g).
Fixpoint orderly (w : list fld) (g : gexp) : bool :=
  match g with
  | GLit _ | GTok _ | GSub _ _ => true
  | GCap _ g => orderly w g
  | GSeq gs =>
      (fix go (w : list fld) gs :=
         match gs with [] => true | g :: gs => orderly w g && go (w ++ cap_fields g) gs end) w gs
  | GAlt gs => forallb (λ g, apart w g && orderly [] g) gs
  | GOpt g => apart w g && orderly [] g
  | GMany g | GSome g => no_commit false g && orderly [] g
  end.
Lemma kinds_orderly k : orderly [] (grammar k) = true.
Proof. revert k. apply for_all_kinds. vm_compute. reflexivity. Qed.

(** ** Storing the captures, in whatever order across fields *)
Definition same_captures (cs ds : list capture) : Prop := ∀ f, captures_of f cs = captures_of f ds.
Lemma assoc_ext {X} (fs fs' : list (fld * X)) :
  NoDup (map fst fs) → map fst fs' = map fst fs → (∀ f, f ∈ map fst fs → assoc f fs' = assoc f fs) → fs' = fs.
Proof.
  revert fs'. induction fs as [|[f x] fs IH]; intros [|[f' x'] fs'] Hn Hm H; try done.
  injection Hm as -> Hm. apply NoDup_cons in Hn as [Hf Hn].
  assert (x' = x) as ->.
  { specialize (H f ltac:(by left)). cbn in H. rewrite !decide_True in H by done. by injection H. }
  f_equal. apply IH; [done..|]. intros g Hg. specialize (H g ltac:(by right)). cbn in H.
  rewrite !decide_False in H by (intros ->; done). done.
Qed.
Lemma filled_unique k cs fs fs' : filled k cs fs → filled k cs fs' → fs' = fs.
Proof.
  intros [H1 H2] [H3 H4]. apply assoc_ext; [|congruence|].
  - rewrite H1. pose proof (for_all_kinds _ grammar_types k) as H. cbn beta in H.
    apply andb_true_iff in H as [[_ H]%andb_true_iff _]. by apply bool_decide_eq_true in H.
  - intros f Hf. rewrite H1 in Hf. apply elem_of_list_fmap in Hf as ([f' ty] & -> & Hf). cbn.
    destruct (H2 f' ty Hf) as [_ ->]. by destruct (H4 f' ty Hf) as [_ ->].
Qed.
Lemma same_captures_elem cs cs' c : same_captures cs' cs → c ∈ cs' → c ∈ cs.
Proof.
  intros H Hc. destruct c as [f c]. apply captures_of_elem. rewrite <- H. unfold captures_of. apply elem_of_list_fmap.
  exists (f, c). split; [done|]. by apply elem_of_list_filter.
Qed.
Definition type_takes (ty : ftype) (c : captured) : bool :=
  match ty, c with (TStr | TBool | TStrs), Texts _ | (TPtr _ | TEmb _ | TList _), Struct _ => true | _, _ => false end.
Definition type_has (ty : ftype) (v : aval) : bool :=
  match ty, v with
  | TStr, VStr _ | TBool, VBool _ | TStrs, VStrs _ | TFloat, VFloat _ | TPtr _, VPtr _ | TEmb _, VEmb _ | TList _, VList _ => true
  | _, _ => false
  end.
Lemma upds_some ty v cs : type_has ty v = true → Forall (λ c, type_takes ty c = true) cs → is_Some (upds v cs).
Proof.
  intros Hv H. revert v Hv. induction H as [|c cs Hc _ IH]; intros v Hv; [by eexists|]. cbn [upds].
  destruct ty, v, c; try done; cbn; by apply IH.
Qed.
Lemma capture_typed k f c : (∃ ty, (f, ty) ∈ schema k ∧ type_takes ty c = true) →
  ∀ ty, (f, ty) ∈ schema k → type_takes ty c = true.
Proof. intros (ty & H1 & H2) ty' H3. by rewrite (nodup_schema k f ty' ty). Qed.
Lemma cap_ok_typed k c :
  special_kind k = false → cap_ok (λ _, True) (grammar k) c → ∃ ty, (c.1, ty) ∈ schema k ∧ type_takes ty c.2 = true.
Proof.
  intros Hk H. pose proof (for_all_kinds _ grammar_types k) as G. cbn beta in G.
  apply andb_true_iff in G as [[[G1 G2]%andb_true_iff _]%andb_true_iff _]. rewrite forallb_forall in G1, G2.
  destruct c as [f [l|t]]; cbn in H |- *.
  - apply elem_of_list_In, G2, existsb_exists in H as ([f' ty] & Hin & H). cbn in H.
    apply andb_true_iff in H as [->%bool_decide_eq_true H]. apply elem_of_list_In in Hin. exists ty. split; [done|].
    destruct ty; try done. apply bool_decide_eq_true in H as ->. done.
  - destruct H as [H _]. apply elem_of_list_In, G1, existsb_exists in H as ([f' ty] & Hin & H). cbn in H.
    apply andb_true_iff in H as [->%bool_decide_eq_true H]. apply elem_of_list_In in Hin. exists ty. split; [done|].
    by destruct ty.
Qed.
Lemma same_captures_one cs c : same_captures cs [c] → cs = [c].
Proof.
  intros H. destruct c as [f c]. destruct cs as [|c1 [|c2 cs]].
  - specialize (H f). rewrite captures_of_cons, decide_True in H by done. done.
  - by rewrite (proj1 (elem_of_list_singleton _ _) (same_captures_elem _ _ c1 H ltac:(by left))).
  - pose proof (proj1 (elem_of_list_singleton _ _) (same_captures_elem _ _ c1 H ltac:(by left))) as ->.
    pose proof (proj1 (elem_of_list_singleton _ _) (same_captures_elem _ _ c2 H ltac:(by right; left))) as ->.
    specialize (H f). by rewrite !captures_of_cons, !decide_True in H.
Qed.
Definition more (o : option (unit * list (option ast))) (ds : list captured) : option (unit * list (option ast)) :=
  match ds with [] => o | _ => Some (tt, match o with Some (_, l) => l | None => [] end ++ map Some (trees_of ds)) end.
Lemma store_fragments ds a b o :
  Forall (λ c, ∃ t, c = (FFragments, Struct t)) ds →
  store_all KHeredoc [(FLeadingTabs, a); (FDelimiter, b); (FFragments, VList o)] ds =
    Stored [(FLeadingTabs, a); (FDelimiter, b); (FFragments, VList (more o (captures_of FFragments ds)))].
Proof.
  intros H. revert o. induction H as [|c ds [t ->] Hds IH]; intros o; [done|].
  change (store_all KHeredoc [(FLeadingTabs, a); (FDelimiter, b);
    (FFragments, VList (Some (tt, match o with Some (_, l') => l' | None => [] end ++ [Some t])))] ds = Stored
    [(FLeadingTabs, a); (FDelimiter, b); (FFragments, VList (more o (Struct t :: captures_of FFragments ds)))]).
  rewrite IH. do 5 f_equal. unfold more. destruct (captures_of FFragments ds) as [|c' l]; [done|].
  change (trees_of (Struct t :: c' :: l)) with (t :: trees_of (c' :: l)). cbn [map]. by rewrite <- (assoc_L (++)).
Qed.
Lemma store_all_app k fs cs ds :
  store_all k fs (cs ++ ds) = match store_all k fs cs with Stored fs => store_all k fs ds | r => r end.
Proof. revert fs. induction cs as [|c cs IH]; intros fs; [done|]. cbn. destruct (store k fs c); try done. Qed.
Lemma store_filled k p us cs l cs' fs :
  derives p (grammar k) us cs l → filled k cs fs → same_captures cs' cs →
  store_all k (fields (zero no_pos k)) cs' = Stored fs.
Proof.
  intros Hd Hf Hs. destruct (special_kind k) eqn:Hk.
  - assert (k = KValue ∨ k = KHeredoc) as [-> | ->] by (destruct k; auto; done).
    + assert (cs' = cs) as ->.
      { pose proof Hd as Hd'. apply derives_value_inv in Hd' as [(v & [->|[->| ->]])|(t & [->|[->|[->| ->]]])]; by apply same_captures_one. }
      assert (∃ fs0, store_all KValue (fields (zero no_pos KValue)) cs = Stored fs0) as [fs0 H0].
      { pose proof Hd as Hd'. destruct Hf as [_ Hf].
        apply derives_value_inv in Hd' as [(v & [->|[->| ->]])|(t & [->|[->|[->| ->]]])]; try (by eexists).
        destruct (Hf FNumber (TPtr KValueNumber)) as [[x Hx] _]; [vm_compute; repeat constructor|].
        change ((n ← capture_number v; Some (VPtr (Some (T no_pos KValueNumber
              [(FValue, VFloat (Some (tt, str n.1))); (FSource, VStr (str n.1))]))) : option aval) = Some x) in Hx.
        cbn [store_all store]. change (default [] (head [v])) with v. destruct (capture_number v) as [[src n]|]; [|done]. by eexists. }
      rewrite H0. f_equal. eapply filled_unique; [exact Hf|]. by eapply filled_stored.
    + pose proof Hd as Hd'. apply derives_heredoc_inv in Hd' as (t & ds & _ & _ & -> & Hds).
      assert ((FDelimiter, Texts [value t]) ∈ cs') as Hin.
      { apply captures_of_elem. rewrite Hs. rewrite captures_of_cons, decide_True by done. by left. }
      apply elem_of_list_split in Hin as (ds1 & ds2 & ->).
      assert (captures_of FDelimiter ds = []) as Hno.
      { clear -Hds. induction Hds as [|c ds [t' ->] _ IH]; [done|]. by rewrite captures_of_cons, decide_False. }
      assert (captures_of FDelimiter ds1 = [] ∧ captures_of FDelimiter ds2 = []) as [Hno1 Hno2].
      { specialize (Hs FDelimiter). rewrite captures_of_app, !captures_of_cons, !decide_True, Hno in Hs by done.
        destruct (captures_of FDelimiter ds1) as [|? [|? ?]]; [|done..]. injection Hs as Hs. done. }
      assert (Forall (λ c, ∃ t, c = (FFragments, Struct t)) ds1 ∧ Forall (λ c, ∃ t, c = (FFragments, Struct t)) ds2) as [H1 H2].
      { assert (∀ c, c ∈ ds1 ∨ c ∈ ds2 → ∃ t, c = (FFragments, Struct t)) as Hc.
        { intros c Hc. assert (c ∈ (FDelimiter, Texts [value t]) :: ds) as [-> | Hc']%elem_of_cons.
          - eapply same_captures_elem; [exact Hs|]. apply elem_of_app. destruct Hc; [by left|right; by right].
          - exfalso. assert (∀ ds', (FDelimiter, Texts [value t]) ∈ ds' → captures_of FDelimiter ds' ≠ []) as Hne.
            { intros ds' Hd' E. apply elem_of_list_split in Hd' as (l1 & l2 & ->).
              rewrite captures_of_app, captures_of_cons, decide_True in E by done. by apply app_nil in E as [_ ?]. }
            destruct Hc as [Hc|Hc]; by apply Hne in Hc.
          - rewrite Forall_forall in Hds. by apply Hds. }
        split; apply Forall_forall; intros c Hc'; apply Hc; auto. }
      destruct Hf as [Hn Hf]. destruct (Hf FDelimiter TStr) as [[x Hx] _]; [vm_compute; repeat constructor|].
      unfold field_value in Hx. rewrite captures_of_cons, decide_True, Hno in Hx by done.
      destruct (capture_delimiter (value t)) as [[dash u]|] eqn:E; [|done].
      assert (∃ fs0, store_all KHeredoc (fields (zero no_pos KHeredoc)) ((FDelimiter, Texts [value t]) :: ds) = Stored fs0 ∧
        store_all KHeredoc (fields (zero no_pos KHeredoc)) (ds1 ++ (FDelimiter, Texts [value t]) :: ds2) = Stored fs0) as (fs0 & H3 & H4).
      { exists [(FLeadingTabs, VBool dash); (FDelimiter, VStr (str u)); (FFragments, VList (more None (captures_of FFragments ds)))].
        split.
        - cbn [store_all store]. change (default [] (head [value t])) with (value t). rewrite E. destruct dash; by apply (store_fragments ds).
        - rewrite store_all_app. replace (store_all KHeredoc (fields (zero no_pos KHeredoc)) ds1) with
            (Stored [(FLeadingTabs, VBool false); (FDelimiter, VStr ""); (FFragments, VList (more None (captures_of FFragments ds1)))])
            by (symmetry; by apply (store_fragments ds1)).
          cbn [store_all store]. change (default [] (head [value t])) with (value t). rewrite E.
          etransitivity; [destruct dash; by apply (store_fragments ds2)|]. do 5 f_equal.
          specialize (Hs FFragments). rewrite captures_of_app, !captures_of_cons, !decide_False in Hs by done. rewrite <- Hs.
          unfold more. destruct (captures_of FFragments ds1) as [|c1 l1]; [done|]. destruct (captures_of FFragments ds2) as [|c2 l2].
          + by rewrite app_nil_r.
          + assert (trees_of ((c1 :: l1) ++ c2 :: l2) = trees_of (c1 :: l1) ++ trees_of (c2 :: l2)) as -> by apply flat_map_app.
            by rewrite map_app. }
      rewrite H4. f_equal. eapply filled_unique; [split; [exact Hn|exact Hf]|]. by eapply filled_stored.
  - destruct (builds_ind3 (λ _, True) ltac:(done)) as [_ Hok]. apply Hok in Hd as Hc.
    assert (∀ c, c ∈ cs' → ∃ ty, (c.1, ty) ∈ schema k ∧ type_takes ty c.2 = true) as Hty.
    { intros c Hc'. apply cap_ok_typed; [done|]. rewrite Forall_forall in Hc. apply Hc. by eapply same_captures_elem. }
    destruct (store_all_stored k cs' (fields (zero no_pos k))) as [fs0 H0].
    + apply Forall_forall. intros. by apply special_kind_false.
    + intros f v Hv. assert (f ∈ map fst (schema k)) as Hin.
      { rewrite <- zero_names. clear -Hv. revert Hv. generalize (fields (zero no_pos k) : list (fld * aval)).
        intros l. induction l as [|[f' v'] l IH]; [done|]. cbn. destruct (decide (f = f')) as [->|]; [by left|]. intros. right. by apply IH. }
      apply elem_of_list_fmap in Hin as ([f' ty] & -> & Hin). cbn [fst] in Hv |- *.
      destruct (zero_assoc k f' ty Hin) as (v' & Hv' & Hz). assert (v' = v) as -> by congruence.
      apply (upds_some ty); [by destruct ty, v|]. apply Forall_forall. intros c Hc'.
      destruct (Hty (f', c)) as (ty' & ? & ?); [by apply captures_of_elem|]. cbn in *. by rewrite (nodup_schema k f' ty ty').
    + apply Forall_forall. intros c Hc'. destruct (Hty c Hc') as (ty & Hin & _). destruct (zero_assoc k c.1 ty Hin) as (v & Hv & _).
      rewrite Hv. by eexists.
    + rewrite H0. f_equal. eapply filled_unique; [exact Hf|]. by eapply filled_plain.
Qed.

Section find.
Context (eof : pos).
Notation P := (parser eof).
(** [g] does not match at [ts], and the search goes on. *)
Definition refused (g : gexp) (ts : list token) : Prop :=
  ∀ x, todo x = ts → waiting x = [] →
    (eval P g x = Ret None x) ∨
    (∃ y, eval P g x = Err y ∧ assigned y = assigned x ∧ (length ts <= lookahead + length (todo y))%nat).

(** [finds g us rest cs l]: [g] describes [us] in front of [rest]; [cs] and [l] as in
    [derives]. *)
Inductive finds : gexp → list token → list token → list capture → list text → Prop :=
| f_lit s t rest : value t = chars s → finds (GLit s) [t] rest [] [value t]
| f_tok k t rest : kind_of_token t = k → finds (GTok k) [t] rest [] [value t]
| f_sub f k us rest t : locates k us rest t → finds (GSub f k) us rest [(f, Struct t)] [[]]
| f_cap f g us rest cs l : finds g us rest cs l → finds (GCap f g) us rest (cs ++ [(f, Texts l)]) [[]]
| f_seq gs us rest cs l : finds_all gs us rest cs l → l ≠ [] → finds (GSeq gs) us rest cs l
| f_alt gs1 g gs2 us rest cs l :
    Forall (λ g, refused g (us ++ rest)) gs1 → finds g us rest cs l → finds (GAlt (gs1 ++ g :: gs2)) us rest cs l
| f_none g rest : refused g rest → finds (GOpt g) [] rest [] []
| f_opt g us rest cs l : finds g us rest cs l → finds (GOpt g) us rest cs l
| f_many g us rest cs l : finds_many g us rest cs l → finds (GMany g) us rest cs l
| f_some g us vs rest cs ds l m :
    finds g us (vs ++ rest) cs l → us ≠ [] → finds_many g vs rest ds m →
    finds (GSome g) (us ++ vs) rest (cs ++ ds) (l ++ m)
with finds_all : list gexp → list token → list token → list capture → list text → Prop :=
| fa_nil rest : finds_all [] [] rest [] []
| fa_cons g gs us vs rest cs ds l m :
    finds g us (vs ++ rest) cs l → finds_all gs vs rest ds m →
    finds_all (g :: gs) (us ++ vs) rest (cs ++ ds) (l ++ m)
with finds_many : gexp → list token → list token → list capture → list text → Prop :=
| fm_nil g rest : refused g rest → finds_many g [] rest [] []
| fm_cons g us vs rest cs ds l m :
    finds g us (vs ++ rest) cs l → us ≠ [] → finds_many g vs rest ds m →
    finds_many g (us ++ vs) rest (cs ++ ds) (l ++ m)
with locates : kind → list token → list token → ast → Prop :=
| l_struct k us rest cs l fs :
    finds (grammar k) us rest cs l → filled k cs fs →
    locates k us rest (T (position eof k (us ++ rest)) k fs).
Scheme finds_ind2 := Minimality for finds Sort Prop
  with finds_all_ind2 := Minimality for finds_all Sort Prop
  with finds_many_ind2 := Minimality for finds_many Sort Prop
  with locates_ind2 := Minimality for locates Sort Prop.
Combined Scheme finding_ind from finds_ind2, finds_all_ind2, finds_many_ind2, locates_ind2.

Definition within_fields (w : list fld) (cs : list capture) : Prop := ∀ c, c ∈ cs → c.1 ∈ w.
Record found (w : list fld) (fields : list fld) (x : ctx) (rest : list token) (cs : list capture) (y : ctx) : Prop := Found {
  fd_todo : todo y = rest;
  fd_caps : same_captures (assigned y ++ waiting y) (assigned x ++ waiting x ++ cs);
  fd_wait : within_fields (w ++ fields) (waiting y) }.
Definition runs (g : gexp) (us rest : list token) (cs : list capture) (l : list text) : Prop :=
  within_fields (cap_fields g) cs ∧
  ∀ w x, orderly w g = true → todo x = us ++ rest → within_fields w (waiting x) →
    ∃ y, eval P g x = Ret (Some l) y ∧ found w (cap_fields g) x rest cs y.

Lemma captures_none f w cs : within_fields w cs → f ∉ w → captures_of f cs = [].
Proof.
  intros H Hf. unfold captures_of. induction cs as [|c cs IH]; [done|]. rewrite filter_cons.
  destruct (decide (c.1 = f)) as [E|E].
  - destruct Hf. rewrite <- E. apply H. by left.
  - apply IH. intros c' Hc'. apply H. by right.
Qed.
Lemma branch_found w g us rest cs l x y :
  apart w g = true → within_fields (cap_fields g) cs → within_fields w (waiting x) →
  eval P g (branch x) = Ret (Some l) y → found [] (cap_fields g) (branch x) rest cs y →
  todo x = us ++ rest → found w (cap_fields g) x rest cs (accept x y).
Proof.
  intros Ha Hcs Hw E [H1 H2 H3] Hx. cbn in H2, H3. split; cbn; [done| |].
  - intros f. specialize (H2 f). rewrite !captures_of_app in *. unfold apart in Ha. apply orb_true_iff in Ha as [Ha|Ha].
    + pose proof (no_commit_sound P g false (branch x) Ha (λ _, eq_refl)) as Hc. rewrite E in Hc. destruct Hc as [Hc _].
      cbn in Hc. rewrite Hc in *. apply app_inv_head in H2. by rewrite H2.
    + destruct (decide (f ∈ w)) as [Hf|Hf].
      * assert (f ∉ cap_fields g) as Hg.
        { intros Hg. rewrite forallb_forall in Ha. apply elem_of_list_In in Hg. specialize (Ha f Hg). by rewrite bool_decide_true in Ha. }
        rewrite (captures_none f _ _ H3 Hg), (captures_none f _ _ Hcs Hg), !app_nil_r in *. by rewrite H2.
      * rewrite (captures_none f _ _ Hw Hf). done.
  - intros c [Hc|Hc]%elem_of_app; apply elem_of_app; [left; by apply Hw|right]. by apply H3.
Qed.
Lemma drop_branch_same x y : assigned y = assigned x → drop_branch x y = x.
Proof. intros H. unfold drop_branch. rewrite H. by destruct x. Qed.
Lemma accept_branch x : accept x (branch x) = x.
Proof. unfold accept. cbn. rewrite app_nil_r. by destruct x. Qed.
Lemma go_on x y : (length (todo x) <= lookahead + length (todo y))%nat → stop x y = false.
Proof. intros H. unfold stop. apply Nat.ltb_ge. lia. Qed.
Lemma refused_alt g gs failed x :
  refused g (todo x) → ∃ failed', run_alt (eval P) failed (g :: gs) x = run_alt (eval P) failed' gs x.
Proof.
  intros H. cbn [run_alt]. destruct (H (branch x) eq_refl eq_refl) as [E|(y & E & Ha & Hl)]; rewrite E.
  - exists failed. by rewrite drop_branch_same.
  - rewrite go_on by exact Hl. exists true. by rewrite drop_branch_same.
Qed.
Lemma refused_opt g x : refused g (todo x) → run_opt (eval P g) x = Ret (Some []) x.
Proof.
  intros H. unfold run_opt. destruct (H (branch x) eq_refl eq_refl) as [E|(y & E & Ha & Hl)]; rewrite E.
  - by rewrite accept_branch.
  - rewrite go_on by exact Hl. by rewrite drop_branch_same.
Qed.
Lemma refused_many g n acc x : refused g (todo x) → run_many (eval P g) false (S n) acc x = Ret (Some acc) x.
Proof.
  intros H. cbn [run_many]. destruct (H (branch x) eq_refl eq_refl) as [E|(y & E & Ha & Hl)]; rewrite E.
  - by rewrite accept_branch.
  - rewrite go_on by exact Hl. by rewrite drop_branch_same.
Qed.
Lemma within_nil w : within_fields w [].
Proof. by intros c ?%elem_of_nil. Qed.
Lemma within_app w cs ds : within_fields w cs → within_fields w ds → within_fields w (cs ++ ds).
Proof. intros H1 H2 c [H|H]%elem_of_app; auto. Qed.
Lemma within_sub w w' cs : (∀ f, f ∈ w → f ∈ w') → within_fields w cs → within_fields w' cs.
Proof. intros H1 H2 c Hc. by apply H1, H2. Qed.
Lemma found_trans w f1 f2 fs x r y r' z cs ds :
  found w f1 x r cs y → found (w ++ f1) f2 y r' ds z → (∀ f, f ∈ f1 ∨ f ∈ f2 → f ∈ fs) → found w fs x r' (cs ++ ds) z.
Proof.
  intros [_ H2 H3] [H4 H5 H6] Hsub. split; [done| |].
  - intros f. specialize (H2 f). rewrite (H5 f), (assoc_L (++) (assigned y)), captures_of_app, H2, <- captures_of_app.
    by rewrite <- !(assoc_L (++)).
  - eapply within_sub; [|exact H6]. intros f. rewrite !elem_of_app. naive_solver.
Qed.
Lemma found_sub w w' fs x r cs y : found w fs x r cs y → (∀ f, f ∈ w → f ∈ w') → found w' fs x r cs y.
Proof. intros [H1 H2 H3] Hw. split; [done..|]. eapply within_sub; [|exact H3]. intros f. rewrite !elem_of_app. naive_solver. Qed.
Lemma found_refl w fs x : within_fields w (waiting x) → found w fs x (todo x) [] x.
Proof. intros H. split; [done|by rewrite app_nil_r|]. eapply within_sub; [|exact H]. intros f ?. apply elem_of_app. by left. Qed.

Lemma many_runs_cons g us vs rest cs ds l m n some acc w x :
  runs g us (vs ++ rest) cs l → us ≠ [] → no_commit false g = true → orderly [] g = true →
  todo x = (us ++ vs) ++ rest → within_fields w (waiting x) → (length vs < n)%nat →
  (∀ acc y, todo y = vs ++ rest → within_fields (w ++ cap_fields g) (waiting y) →
     ∃ z, run_many (eval P g) false n acc y = Ret (Some (acc ++ m)) z ∧ found (w ++ cap_fields g) (cap_fields g) y rest ds z) →
  ∃ z, run_many (eval P g) some (S n) acc x = Ret (Some (acc ++ l ++ m)) z ∧ found w (cap_fields g) x rest (cs ++ ds) z.
Proof.
  intros [Hcs Hg] Hus Hn Ho Hx Hw Hlen Hrest. rewrite <- (assoc_L (++)) in Hx.
  destruct (Hg [] (branch x) Ho Hx (within_nil _)) as (y & E & Hy).
  assert (found w (cap_fields g) x (vs ++ rest) cs (accept x y)) as Hxy.
  { eapply branch_found; try done. unfold apart. by rewrite Hn. }
  cbn [run_many]. rewrite E. destruct (Hrest (acc ++ l) (accept x y)) as (z & Ez & Hz).
  - apply Hxy.
  - apply Hxy.
  - exists z. rewrite <- (assoc_L (++)) in Ez. split; [done|]. eapply found_trans; [exact Hxy|exact Hz|]. naive_solver.
Qed.
Lemma finds_derives :
  (∀ g us rest cs l, finds g us rest cs l → derives (first_pos eof rest) g us cs l) ∧
  (∀ gs us rest cs l, finds_all gs us rest cs l → derives (first_pos eof rest) (GSeq gs) us cs l) ∧
  (∀ g us rest cs l, finds_many g us rest cs l → derives (first_pos eof rest) (GMany g) us cs l) ∧
  (∀ k us rest t, locates k us rest t → builds (first_pos eof rest) k us t).
Proof.
  apply finding_ind; try (by intros; constructor); try done.
  - intros gs1 g gs2 us rest cs l _ _ H. apply (d_alt _ g); [apply elem_of_app; right; by left|done].
  - intros g us vs rest cs ds l m _ H1 _ _ H2. constructor; [|done]. by rewrite <- first_pos_app.
  - intros g gs us vs rest cs ds l m _ H1 _ H2. constructor; [|done]. by rewrite <- first_pos_app.
  - intros g us vs rest cs ds l m _ H1 _ _ H2. constructor; [|done]. by rewrite <- first_pos_app.
  - intros k us rest cs l fs _ H1 H2. rewrite position_first. by econstructor.
Qed.
Lemma finding :
  (∀ g us rest cs l, finds g us rest cs l → runs g us rest cs l) ∧
  (∀ gs us rest cs l, finds_all gs us rest cs l →
     within_fields (flat_map cap_fields gs) cs ∧
     ∀ w x acc first, orderly w (GSeq gs) = true → todo x = us ++ rest → within_fields w (waiting x) →
       ∃ y, run_seq (eval P) first gs acc x = Ret (if bool_decide (acc ++ l = []) then None else Some (acc ++ l)) y ∧
         found w (flat_map cap_fields gs) x rest cs y) ∧
  (∀ g us rest cs l, finds_many g us rest cs l →
     within_fields (cap_fields g) cs ∧
     ∀ w n acc x, orderly w (GMany g) = true → todo x = us ++ rest → within_fields w (waiting x) → (length us < n)%nat →
       ∃ y, run_many (eval P g) false n acc x = Ret (Some (acc ++ l)) y ∧ found w (cap_fields g) x rest cs y) ∧
  (∀ k us rest t, locates k us rest t → P k (us ++ rest) = PNode t rest).
Proof.
  apply finding_ind.
  - intros s t rest Hs. split; [apply within_nil|]. intros w x _ Hx Hw. exists (Ctx rest (assigned x) (waiting x)).
    cbn [eval]. unfold next_is. rewrite Hx. cbn. rewrite bool_decide_true by done. split; [done|].
    split; [done|cbn; by rewrite app_nil_r|]. cbn. by rewrite app_nil_r.
  - intros k t rest Hs. split; [apply within_nil|]. intros w x _ Hx Hw. exists (Ctx rest (assigned x) (waiting x)).
    cbn [eval]. unfold next_is. rewrite Hx. cbn. rewrite bool_decide_true by done. split; [done|].
    split; [done|cbn; by rewrite app_nil_r|]. cbn. by rewrite app_nil_r.
  - intros f k us rest t _ Hk. split; [intros c ->%elem_of_list_singleton; by left|]. intros w x _ Hx Hw. eexists.
    cbn [eval]. rewrite Hx, Hk. split; [done|]. split; [done|cbn; by rewrite (assoc_L (++))|].
    cbn. intros c ->%elem_of_list_singleton. apply elem_of_app. right. by left.
  - intros f g us rest cs l _ [Hcs Hg]. split.
    { apply within_app; [eapply within_sub; [|exact Hcs]; by right|]. intros c ->%elem_of_list_singleton. by left. }
    intros w x Ho Hx Hw. destruct (Hg w x Ho Hx Hw) as (y & E & [H1 H2 H3]). eexists. cbn [eval]. rewrite E. split; [done|].
    split; cbn; [done| |].
    + intros f'. specialize (H2 f'). rewrite !(assoc_L (++)), captures_of_app, H2, <- captures_of_app, <- !(assoc_L (++)). done.
    + apply within_app; [eapply within_sub; [|exact H3]|].
      * intros f'. rewrite !elem_of_app, elem_of_cons. naive_solver.
      * intros c ->%elem_of_list_singleton. apply elem_of_app. right. by left.
  - intros gs us rest cs l _ [Hcs Hg] Hl. split; [done|]. intros w x Ho Hx Hw.
    destruct (Hg w x [] true Ho Hx Hw) as (y & E & Hy). exists y. cbn [eval]. rewrite E. cbn [app].
    by rewrite bool_decide_false.
  - intros gs1 g gs2 us rest cs l Href _ [Hcs Hg]. split.
    { eapply within_sub; [|exact Hcs]. intros f Hf. cbn. rewrite flat_map_app. apply elem_of_app. right. cbn. apply elem_of_app. by left. }
    intros w x Ho Hx Hw. cbn [orderly] in Ho. rewrite forallb_app in Ho. apply andb_true_iff in Ho as [_ Ho]. cbn [forallb] in Ho.
    apply andb_true_iff in Ho as [[Ha Ho]%andb_true_iff _]. cbn [eval].
    assert (∃ failed, run_alt (eval P) false (gs1 ++ g :: gs2) x = run_alt (eval P) failed (g :: gs2) x) as [failed ->].
    { generalize false. clear Hcs Hg. induction Href as [|g' gs1 Hg' _ IH]; intros failed; [by exists failed|].
      rewrite <- Hx in Hg'. destruct (refused_alt g' (gs1 ++ g :: gs2) failed x Hg') as [failed' E]. cbn [app]. rewrite E. apply IH. }
    destruct (Hg [] (branch x) Ho Hx (within_nil _)) as (y & E & Hy). exists (accept x y). cbn [run_alt]. rewrite E.
    split; [done|]. pose proof (branch_found w g us rest cs l x y Ha Hcs Hw E Hy Hx) as [H1 H2 H3]. split; [done..|].
    eapply within_sub; [|exact H3]. intros f. rewrite !elem_of_app. intros [?|?]; [by left|right]. cbn. rewrite flat_map_app.
    apply elem_of_app. right. cbn. apply elem_of_app. by left.
  - intros g rest Href. split; [apply within_nil|]. intros w x Ho Hx Hw. exists x. cbn [eval]. cbn in Hx. subst rest.
    split; [by apply refused_opt|by apply found_refl].
  - intros g us rest cs l _ [Hcs Hg]. split; [done|]. intros w x Ho Hx Hw. cbn [orderly] in Ho. apply andb_true_iff in Ho as [Ha Ho].
    destruct (Hg [] (branch x) Ho Hx (within_nil _)) as (y & E & Hy). exists (accept x y). cbn [eval]. unfold run_opt. rewrite E.
    split; [done|]. exact (branch_found w g us rest cs l x y Ha Hcs Hw E Hy Hx).
  - intros g us rest cs l _ [Hcs Hg]. split; [done|]. intros w x Ho Hx Hw. cbn [eval].
    destruct (Hg w (S (length (todo x))) [] x Ho Hx Hw) as (y & E & Hy); [rewrite Hx, app_length; lia|]. by exists y.
  - intros g us vs rest cs ds l m _ Hg Hus _ [Hds Hm]. split; [apply within_app; [apply Hg|done]|]. intros w x Ho Hx Hw. cbn [eval].
    pose proof Ho as Ho'. cbn [orderly] in Ho. apply andb_true_iff in Ho as [Hn Ho].
    destruct (many_runs_cons g us vs rest cs ds l m (length (todo x)) true [] w x Hg Hus Hn Ho Hx Hw) as (z & E & Hz).
    + rewrite Hx, !app_length. destruct us; [done|]. cbn. lia.
    + intros acc y Hy Hwy. apply Hm; [done..|]. rewrite Hx, !app_length. destruct us; [done|]. cbn. lia.
    + by exists z.
  - intros rest. split; [apply within_nil|]. intros w x acc first Ho Hx Hw. exists x. cbn [run_seq]. rewrite app_nil_r. cbn in Hx. subst rest.
    split; [done|by apply found_refl].
  - intros g gs us vs rest cs ds l m _ [Hcs Hg] _ [Hds Hgs]. split.
    { cbn. apply within_app; [eapply within_sub; [|exact Hcs]|eapply within_sub; [|exact Hds]]; intros f ?; apply elem_of_app; auto. }
    intros w x acc first Ho Hx Hw. rewrite <- (assoc_L (++)) in Hx.
    change (orderly w g && orderly (w ++ cap_fields g) (GSeq gs) = true) in Ho. apply andb_true_iff in Ho as [Ho1 Ho2].
    destruct (Hg w x Ho1 Hx Hw) as (y & E & Hy). cbn [run_seq]. rewrite E.
    destruct (Hgs (w ++ cap_fields g) y (acc ++ l) false Ho2) as (z & Ez & Hz); [apply Hy|apply Hy|].
    exists z. rewrite <- (assoc_L (++)) in Ez. split; [done|]. eapply found_trans; [exact Hy|exact Hz|]. cbn. intros f.
    rewrite elem_of_app. naive_solver.
  - intros g rest Href. split; [apply within_nil|]. intros w n acc x Ho Hx Hw Hn. exists x. cbn in Hx. subst rest. rewrite app_nil_r.
    destruct n as [|n]; [cbn in Hn; lia|]. split; [by apply refused_many|by apply found_refl].
  - intros g us vs rest cs ds l m _ Hg Hus _ [Hds Hm]. split; [apply within_app; [apply Hg|done]|]. intros w n acc x Ho Hx Hw Hn.
    pose proof Ho as Ho'. cbn [orderly] in Ho. apply andb_true_iff in Ho as [Hnc Ho]. destruct n as [|n]; [lia|].
    rewrite app_length in Hn. assert (0 < length us)%nat by (destruct us; [done|]; cbn; lia).
    apply (many_runs_cons g us vs rest cs ds l m n false acc w x Hg Hus Hnc Ho Hx Hw); [lia|].
    intros acc' y Hy Hwy. apply Hm; [done..|lia].
  - intros k us rest cs l fs Hf [Hcs Hg] Hfs. rewrite parser_unfold.
    destruct (Hg [] (Ctx (us ++ rest) [] []) (kinds_orderly k) eq_refl (within_nil _)) as (y & E & Hy). rewrite E. cbn [finish_struct].
    destruct Hy as [-> Hc _]. cbn [assigned waiting app] in Hc.
    by rewrite (store_filled k _ us cs l _ fs (proj1 finds_derives _ _ _ _ _ Hf) Hfs Hc).
Qed.
End find.
