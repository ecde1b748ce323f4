(** * Where the nodes of a parsed file are *)
From stdpp Require Import base list option strings sorting.
From Coq Require Import Ascii Lia.
From Verif Require Import GoBase EtxAst EtxHeap EtxHeapSpec EtxText EtxLex EtxLexSpec EtxLexFacts EtxLexPropProofs EtxUtil
  EtxGram EtxParse EtxParseBase EtxParseSpec EtxParseStore EtxParseTyped EtxParsePropProofs EtxParseParts EtxClone EtxChildren
  EtxShape EtxOrder.

(** ** Keys: the kind and the position of a node *)
Definition key (m : ast) : kind * pos := (kind_of m, ann m).
Definition keys (ts : list ast) : list (kind * pos) := key <$> placed_nodes (flat_map nodes ts).
Definition marks (us : list token) : list pos := start <$> us.
Lemma keys_app ts ts' : keys (ts ++ ts') = keys ts ++ keys ts'.
Proof. unfold keys. by rewrite flat_map_app, placed_app, fmap_app. Qed.
Lemma keys_perm ts ts' : ts ≡ₚ ts' → keys ts ≡ₚ keys ts'.
Proof.
  intros H. unfold keys, placed_nodes. apply fmap_Permutation. apply filter_Permutation. by apply Permutation_flat_map.
Qed.
Lemma keys_sub ts ts' : ts ⊆+ ts' → keys ts ⊆+ keys ts'.
Proof.
  intros [l H]%submseteq_Permutation. rewrite (keys_perm _ _ H), keys_app. apply submseteq_inserts_r. done.
Qed.

(** ** The grammar: an empty struct is followed by a token *)
(** The structs of [g] all start with a token of their own. *)
Fixpoint closed (g : gexp) : bool :=
  match g with
  | GLit _ | GTok _ => true
  | GSub _ k => negb (empty_struct k)
  | GCap _ g | GOpt g | GMany g | GSome g => closed g
  | GAlt gs => forallb closed gs
  | GSeq gs =>
      (fix go gs := match gs with [] => true | g :: gs => (closed g || negb (nullable (GSeq gs))) && go gs end) gs
  end.
(** What follows a struct that may be empty starts with a token. *)
Fixpoint apart (g : gexp) : bool :=
  match g with
  | GLit _ | GTok _ | GSub _ _ => true
  | GCap _ g | GOpt g => apart g
  | GMany g | GSome g => apart g && closed g
  | GAlt gs => forallb apart gs
  | GSeq gs =>
      (fix go gs := match gs with
       | [] => true
       | g :: gs => apart g && (closed g || bool_decide (heads (GSeq gs) = [])) && go gs
       end) gs
  end.
Lemma closed_seq g gs : closed (GSeq (g :: gs)) = (closed g || negb (nullable (GSeq gs))) && closed (GSeq gs).
Proof. done. Qed.
Lemma apart_seq g gs :
  apart (GSeq (g :: gs)) = apart g && (closed g || bool_decide (heads (GSeq gs) = [])) && apart (GSeq gs).
Proof. done. Qed.
Lemma heads_seq g gs : heads (GSeq (g :: gs)) = heads g ++ (if nullable g then heads (GSeq gs) else []).
Proof. done. Qed.
Lemma grammar_apart k : apart (grammar k) && closed (grammar k) = true.
Proof. revert k. apply for_all_kinds. vm_compute. reflexivity. Qed.
Lemma grammar_heads k : Forall (λ k', rank k' < rank k)%nat (heads (grammar k)).
Proof.
  pose proof (kinds_ok k) as H. unfold kind_ok in H. apply andb_true_iff in H as [[[_ H]%andb_true_iff _]%andb_true_iff _].
  rewrite forallb_forall in H. apply Forall_forall. intros k' Hk'. apply elem_of_list_In, H, Nat.ltb_lt in Hk'. done.
Qed.
Lemma nonempty :
  (∀ p g us cs l, derives p g us cs l → nullable g = false → us ≠ []) ∧
  (∀ p k us t, builds p k us t → empty_struct k = false → us ≠ []).
Proof.
  apply (derivation_ind (λ p g us cs l, nullable g = false → us ≠ []) (λ p k us t, empty_struct k = false → us ≠ [])); try done.
  - intros p g gs us vs cs ds l m _ IH1 _ IH2 H. cbn [nullable forallb] in H. intros [-> ->]%app_nil.
    destruct (nullable g); [by apply IH2|by apply IH1].
  - intros p g gs us cs l Hg _ IH H. apply IH. cbn [nullable] in H. destruct (nullable g) eqn:E; [|done].
    rewrite <- not_true_iff_false in H. destruct H. apply existsb_exists. exists g. split; [by apply elem_of_list_In|done].
  - intros p g us vs cs ds l m _ IH1 _ _ H. intros [-> ->]%app_nil. by apply IH1.
  - intros p k us cs l fs _ IH _ H. apply IH. pose proof (kinds_ok k) as Hk. unfold kind_ok in Hk.
    apply andb_true_iff in Hk as [[_ Hk]%andb_true_iff _]. rewrite H in Hk. by destruct (nullable (grammar k)).
Qed.

(** ** The values of the fields *)
Lemma zero_unplaced :
  forallb (λ k, forallb (λ m : ast, bool_decide (ann m = no_pos)) (nodes (T no_pos k (zero_fields no_pos 15 k) : ast))) all_kinds = true.
Proof. vm_compute. reflexivity. Qed.
Lemma unplaced_keys ts : Forall (λ m, ann m = no_pos) (flat_map nodes ts) → keys ts = [].
Proof.
  unfold keys, placed_nodes. induction (flat_map nodes ts) as [|m l IH]; [done|]. intros [H1 H2]%Forall_cons.
  rewrite filter_cons, decide_False by (by intros ?). by apply IH.
Qed.
Lemma field_keys k f ty cs v :
  k ≠ KValueNumber → (f, ty) ∈ schema k → field_value k f ty cs = Some v →
  keys (val_subs v) ⊆+ keys (trees_of (captures_of f cs)).
Proof.
  intros Hk Hty Hv.
  assert (Hplain : plain_value k f ty (captures_of f cs) = Some v → keys (val_subs v) ⊆+ keys (trees_of (captures_of f cs))).
  { clear Hv. generalize (captures_of f cs). intros ds H. destruct ty; cbn [plain_value] in H.
    1-3: injection H as <-; apply submseteq_nil_l.
    - exfalso. by apply no_floats in Hty.
    - injection H as <-. destruct (last _) as [t|] eqn:E; [|apply submseteq_nil_l].
      apply keys_sub, sublist_submseteq. by apply last_sublist.
    - destruct (last _) as [t|] eqn:E.
      + injection H as <-. apply keys_sub, sublist_submseteq. by apply last_sublist.
      + pose proof (zero_emb _ _ _ Hty) as Hz. cbv beta iota in Hz. rewrite Hz in H.
        assert (v = VEmb (T no_pos k0 (zero_fields no_pos 15 k0))) as -> by congruence. clear H Hz.
        rewrite unplaced_keys; [apply submseteq_nil_l|]. cbn [val_subs flat_map]. rewrite app_nil_r.
        pose proof (for_all_kinds _ zero_unplaced k0) as Hu.
        cbn beta in Hu. rewrite forallb_forall in Hu. apply Forall_forall. intros m Hm.
        by apply elem_of_list_In, Hu, bool_decide_eq_true in Hm.
    - injection H as <-. destruct (decide _); [apply submseteq_nil_l|]. cbn [val_subs]. by rewrite omap_id_Some. }
  destruct (special_kind k) eqn:Hs; [|apply Hplain; by rewrite <- field_value_plain].
  destruct k; try done; destruct f; try (by apply Hplain); cbn [field_value] in Hv.
  - destruct (captures_of FBool cs) as [|[[|w [|? ?]]|t] [|? ?]]; try done; injection Hv as <-; apply submseteq_nil_l.
  - destruct (captures_of FNumber cs) as [|[[|w [|? ?]]|t] [|? ?]]; try done; [injection Hv as <-; apply submseteq_nil_l|].
    destruct (capture_number w); [|done]. injection Hv as <-. apply submseteq_nil_l.
  - destruct (captures_of FDelimiter cs) as [|[[|w [|? ?]]|t] [|? ?]]; try done.
    destruct (capture_delimiter w); [|done]. injection Hv as <-. apply submseteq_nil_l.
  - destruct (captures_of FDelimiter cs) as [|[[|w [|? ?]]|t] [|? ?]]; try done.
    destruct (capture_delimiter w); [|done]. injection Hv as <-. apply submseteq_nil_l.
Qed.
Lemma captured_sub fs cs : NoDup fs → captured_in fs cs ⊆+ map snd cs.
Proof.
  intros H. revert cs. induction H as [|f fs Hf _ IH]; intros cs; [apply submseteq_nil_l|]. cbn [captured_in flat_map].
  fold (captured_in fs cs).
  assert (E : captured_in fs cs = captured_in fs (filter (λ c, c.1 ≠ f) cs)).
  { clear IH. induction fs as [|f' fs IH]; [done|]. apply not_elem_of_cons in Hf as [Hne Hf]. cbn [captured_in flat_map].
    fold (captured_in fs cs). fold (captured_in fs (filter (λ c, c.1 ≠ f) cs)). rewrite <- IH by done. f_equal.
    unfold captures_of. f_equal. clear IH. induction cs as [|c cs IH]; [done|]. rewrite !filter_cons.
    destruct (decide (c.1 ≠ f)) as [E|E].
    - rewrite ?filter_cons. destruct (decide (c.1 = f')); [f_equal|]; exact IH.
    - rewrite decide_False; [exact IH|]. intros E'. apply E. congruence. }
  rewrite E. etrans; [apply submseteq_app; [reflexivity|apply IH]|]. clear E IH Hf. unfold captures_of. rewrite <- map_app.
  apply Permutation_submseteq. apply (fmap_Permutation snd).
  induction cs as [|c cs IH]; [done|]. rewrite !filter_cons. destruct (decide (c.1 = f)) as [E|E].
  - rewrite decide_False by (intros ?; done). cbn. by rewrite IH.
  - rewrite decide_True by done. rewrite <- Permutation_middle. by rewrite IH.
Qed.
Lemma nodes_val_subs (v : aval) : nodes_val v = flat_map nodes (val_subs v).
Proof.
  destruct v as [| | | |[t|]|t|[[b l]|]]; try done; cbn [nodes_val val_subs flat_map]; rewrite ?app_nil_r; try done.
  induction l as [|[t|] l IH]; [done|..]; cbn [flat_map omap list_omap id]; by rewrite IH.
Qed.
Lemma struct_keys p k us cs l fs :
  derives p (grammar k) us cs l → filled k cs fs →
  keys (flat_map (λ q : fld * aval, val_subs q.2) fs) ⊆+ keys (trees_of (map snd cs)).
Proof.
  intros Hd [Hf1 Hf2].
  assert (Hnum : k ≠ KValueNumber).
  { intros ->. cbn in Hd. apply derives_alt_inv in Hd as (g & Hg & _). by apply elem_of_nil in Hg. }
  assert (Hnd : NoDup (map fst fs)) by (rewrite Hf1; apply schema_nodup).
  etrans; [|apply keys_sub; transitivity (trees_of (captured_in (map fst fs) cs)); [reflexivity|]].
  2: { pose proof (captured_sub _ cs Hnd) as [x Hx]%submseteq_Permutation. unfold trees_of at 2. rewrite (Permutation_flat_map _ Hx).
       rewrite flat_map_app. by apply submseteq_inserts_r. }
  assert (Hall : ∀ f v, (f, v) ∈ fs → ∃ ty, (f, ty) ∈ schema k ∧ field_value k f ty cs = Some v).
  { intros f v Hin. assert (f ∈ map fst fs) as Hm by (apply elem_of_list_fmap; by exists (f, v)).
    rewrite Hf1 in Hm. apply elem_of_list_fmap in Hm as ([f' ty] & -> & Hty). cbn [fst] in *. exists ty. split; [done|].
    destruct (Hf2 _ _ Hty) as [_ <-]. clear -Hin Hnd. cbn in *. induction fs as [|[g w] fs IH]; [by apply elem_of_nil in Hin|].
    cbn [map fst] in Hnd. apply NoDup_cons in Hnd as [Hn1 Hn2]. cbn. apply elem_of_cons in Hin as [[= -> ->]|H1].
    - by rewrite decide_True.
    - rewrite decide_False; [by apply IH|]. intros ->. destruct Hn1. apply elem_of_list_fmap. by exists (g, v). }
  clear Hf1 Hf2 Hnd. induction fs as [|[f v] fs IH]; [apply submseteq_nil_l|]. cbn [map fst flat_map snd captured_in].
  rewrite trees_of_app, !keys_app. apply submseteq_app.
  - destruct (Hall f v) as (ty & Hty & Hv); [by left|]. by eapply field_keys.
  - apply IH. intros g w Hw. apply Hall. by right.
Qed.

(** ** Keys are different *)
Lemma sub_NoDup {X} (l l' : list X) : l ⊆+ l' → NoDup l' → NoDup l.
Proof. intros [x ->]%submseteq_Permutation [H _]%NoDup_app. done. Qed.
(** The keys of a stretch are different and stand at its tokens or at what follows; those
    at its beginning belong to the structs that can start it. *)
Definition clean_keys (p : pos) (us : list token) (K : list (kind * pos)) (hs : list kind) : Prop :=
  NoDup K ∧ (∀ k o, (k, o) ∈ K → o ∈ marks us ∨ o = p) ∧
  (∀ n, Forall (λ k, rank k < n)%nat hs → ∀ k o, (k, o) ∈ K → o = first_pos p us → rank k < n)%nat.
Definition inside (us : list token) (K : list (kind * pos)) : Prop := ∀ k o, (k, o) ∈ K → o ∈ marks us.
Definition separate (p : pos) (us : list token) : Prop := NoDup (marks us ++ [p]).
Lemma first_pos_in p us : first_pos p us ∈ marks us ∨ us = [] ∧ first_pos p us = p.
Proof. destruct us; [by right|left; by left]. Qed.
Lemma separate_app p us vs :
  separate p (us ++ vs) → separate (first_pos p vs) us ∧ separate p vs ∧ (∀ o, o ∈ marks us → o ∉ marks vs ∧ o ≠ p).
Proof.
  unfold separate, marks. rewrite fmap_app, <- app_assoc. intros (H1 & H2 & H3)%NoDup_app.
  assert (H4 : ∀ o, o ∈ start <$> us → o ∉ start <$> vs ∧ o ≠ p).
  { intros o Ho. specialize (H2 o Ho). rewrite elem_of_app, elem_of_list_singleton in H2. tauto. }
  split_and!; [|done|done]. apply NoDup_app. split_and!; [done| |apply NoDup_singleton].
  intros o Ho ->%elem_of_list_singleton. destruct (H4 _ Ho) as [H5 H6]. destruct vs as [|v vs]; [done|]. apply H5. by left.
Qed.
Lemma clean_app p us vs K K' hs hs' :
  separate p (us ++ vs) → clean_keys (first_pos p vs) us K hs → clean_keys p vs K' hs' →
  inside us K ∨ hs' = [] → (us = [] → ∀ k, k ∈ hs' → k ∈ hs) →
  clean_keys p (us ++ vs) (K ++ K') hs.
Proof.
  intros Hs (H1 & H2 & H3) (H1' & H2' & H3') Hin Hhs. destruct (separate_app _ _ _ Hs) as (_ & Hs2 & Hd). split_and!.
  - apply NoDup_app. split_and!; [done| |done]. intros [k o] Hk Hk'. specialize (H2' _ _ Hk').
    assert (Hm : o ∈ marks us → False) by (intros Ho; destruct (Hd o Ho) as [? ?]; tauto).
    destruct Hin as [Hin| ->]; [by apply Hm, (Hin k)|]. destruct (H2 _ _ Hk) as [Ho| ->]; [by apply Hm|].
    pose proof (H3' 0 ltac:(constructor) _ _ Hk' eq_refl). lia.
  - intros k o [Hk|Hk]%elem_of_app; unfold marks; rewrite fmap_app, elem_of_app.
    + destruct (H2 _ _ Hk) as [?| ->]; [tauto|]. destruct (first_pos_in p vs) as [?|[_ ?]]; tauto.
    + apply H2' in Hk. tauto.
  - intros n Hn k o Hk Ho. rewrite first_pos_app in Ho. apply elem_of_app in Hk as [Hk|Hk]; [by eapply H3|].
    destruct us as [|u us].
    + cbn [first_pos] in Ho. eapply H3'; [|done|done]. rewrite Forall_forall in *. auto.
    + exfalso. cbn [first_pos] in Ho. destruct (Hd o) as [Hd1 Hd2]; [rewrite Ho; by left|]. apply H2' in Hk. tauto.
Qed.
Lemma clean_heads p us K hs hs' : (∀ k, k ∈ hs → k ∈ hs') → clean_keys p us K hs → clean_keys p us K hs'.
Proof.
  intros H (H1 & H2 & H3). split_and!; [done..|]. intros n Hn. apply H3. rewrite Forall_forall in *. auto.
Qed.
Lemma clean_none p us hs : clean_keys p us [] hs ∧ inside us [].
Proof.
  split; [|by intros ? ? ?%elem_of_nil].
  split_and!; [constructor|by intros ? ? ?%elem_of_nil|by intros n _ ? ? ?%elem_of_nil].
Qed.
Lemma inside_app us vs K K' : inside us K → inside vs K' → inside (us ++ vs) (K ++ K').
Proof. intros H H' k o [Hk|Hk]%elem_of_app; unfold marks; rewrite fmap_app, elem_of_app; [left; by eapply H|right; by eapply H']. Qed.

(** The keys of a struct: its own, and those of its parts. *)
Definition D_claim (p : pos) (g : gexp) (us : list token) (cs : list capture) (l : list text) : Prop :=
  separate p us → apart g = true →
  clean_keys p us (keys (trees_of (map snd cs))) (heads g) ∧ (closed g = true → inside us (keys (trees_of (map snd cs)))).
Definition B_claim (p : pos) (k : kind) (us : list token) (t : ast) : Prop :=
  separate p us →
  NoDup (keys [t]) ∧
  (∀ k' o, (k', o) ∈ keys [t] →
    k' = k ∧ o = first_pos p us ∧ ann t ≠ no_pos ∨ o ∈ marks us ∧ (o = first_pos p us → rank k' < rank k)%nat).
Lemma many_clean p g us vs (cs ds : list capture) :
  separate p (us ++ vs) → clean_keys (first_pos p vs) us (keys (trees_of (map snd cs))) (heads g) →
  inside us (keys (trees_of (map snd cs))) →
  clean_keys p vs (keys (trees_of (map snd ds))) (heads g) → inside vs (keys (trees_of (map snd ds))) →
  clean_keys p (us ++ vs) (keys (trees_of (map snd (cs ++ ds)))) (heads g) ∧
  inside (us ++ vs) (keys (trees_of (map snd (cs ++ ds)))).
Proof.
  intros Hs H1 H2 H3 H4. rewrite map_app, trees_of_app, keys_app. split; [|by apply inside_app].
  eapply clean_app; [done..|by left|done].
Qed.
Lemma keys_clean :
  (∀ p g us cs l, derives p g us cs l → D_claim p g us cs l) ∧ (∀ p k us t, builds p k us t → B_claim p k us t).
Proof.
  apply (derivation_ind D_claim B_claim).
  - intros p s t _ _ _. cbn. destruct (clean_none p [t] []). by split.
  - intros p k t _ _ _. cbn. destruct (clean_none p [t] []). by split.
  - intros p f k us t Hb IH Hs _. destruct (IH Hs) as [H1 H2]. cbn [map snd trees_of flat_map app]. split.
    + split_and!; [done|..].
      * intros k' o [(-> & -> & _)|[? _]]%H2; [|by left]. destruct (first_pos_in p us) as [?|[_ ?]]; [by left|by right].
      * intros n Hn k' o Hk' Ho. cbn [heads] in Hn; apply Forall_cons in Hn as [Hn _]. destruct (H2 _ _ Hk') as [[-> _]|[_ H]]; [done|].
        specialize (H Ho). lia.
    + cbn [closed]. intros Hk%negb_true_iff k' o [(-> & -> & _)|[Hin _]]%H2; [|exact Hin].
      pose proof (proj2 nonempty _ _ _ _ Hb Hk). destruct us; [done|by left].
  - intros p f g us cs l _ IH Hs Ha. rewrite map_app, trees_of_app. cbn [map snd trees_of flat_map]. rewrite app_nil_r.
    by apply IH.
  - intros p _ _. cbn. destruct (clean_none p [] []). by split.
  - intros p g gs us vs cs ds l m Hd1 IH1 Hd2 IH2 Hs. rewrite apart_seq, closed_seq.
    intros [[Ha1 Ho]%andb_true_iff Ha2]%andb_true_iff. destruct (separate_app _ _ _ Hs) as (Hs1 & Hs2 & Hd).
    destruct (IH1 Hs1 Ha1) as [C1 S1]. destruct (IH2 Hs2 Ha2) as [C2 S2].
    rewrite map_app, trees_of_app, keys_app, heads_seq. split.
    + eapply clean_app; [done|eapply clean_heads; [|exact C1]|exact C2|..].
      * intros k Hk. apply elem_of_app. by left.
      * apply orb_true_iff in Ho as [Ho|Ho%bool_decide_eq_true]; [left; by apply S1|by right].
      * intros -> k Hk. apply elem_of_app. right. destruct (nullable g) eqn:En; [done|].
        by destruct (proj1 nonempty _ _ _ _ _ Hd1 En).
    + intros [[Hc|Hc%negb_true_iff]%orb_true_iff Hc2]%andb_true_iff; [apply inside_app; [by apply S1|by apply S2]|].
      pose proof (proj1 nonempty _ _ _ _ _ Hd2 Hc) as Hne. intros k o. rewrite elem_of_app. unfold marks.
      rewrite fmap_app, elem_of_app. intros [Hk|Hk]; [|right; by eapply S2].
      destruct C1 as (_ & C1 & _). destruct (C1 _ _ Hk) as [?| ->]; [by left|]. right. destruct vs; [done|by left].
  - intros p g gs us cs l Hg _ IH Hs. cbn [apart closed heads]. rewrite !forallb_forall.
    intros Ha. apply elem_of_list_In in Hg. destruct (IH Hs (Ha _ Hg)) as [H1 H2]. split.
    + eapply clean_heads; [|exact H1]. intros k Hk. apply elem_of_list_In, in_flat_map. exists g. split; [done|by apply elem_of_list_In].
    + intros Hc. by apply H2, Hc.
  - intros p g _ _. destruct (clean_none p [] (heads g)). by split.
  - intros p g us cs l _ IH. exact IH.
  - intros p g _ _. destruct (clean_none p [] (heads g)). by split.
  - intros p g us vs cs ds l m _ IH1 _ IH2 Hs. destruct (separate_app _ _ _ Hs) as (Hs1 & Hs2 & _). cbn [apart closed heads].
    intros Ha. pose proof Ha as [Ha1 Ha2]%andb_true_iff. destruct (IH1 Hs1 Ha1) as [C1 S1]. destruct (IH2 Hs2 Ha) as [C2 S2].
    destruct (many_clean p g us vs cs ds Hs C1 (S1 Ha2) C2 (S2 Ha2)). by split.
  - intros p g us vs cs ds l m _ IH1 _ IH2 Hs. destruct (separate_app _ _ _ Hs) as (Hs1 & Hs2 & _). cbn [apart closed heads].
    intros Ha. pose proof Ha as [Ha1 Ha2]%andb_true_iff. destruct (IH1 Hs1 Ha1) as [C1 S1]. destruct (IH2 Hs2 Ha) as [C2 S2].
    destruct (many_clean p g us vs cs ds Hs C1 (S1 Ha2) C2 (S2 Ha2)). by split.
  - intros p k us cs l fs Hd IH Hf Hnd. pose proof (grammar_apart k) as [Ha Hc]%andb_true_iff.
    destruct (IH Hnd Ha) as [(H1 & _ & H3) H2]. specialize (H2 Hc).
    pose proof (struct_keys _ _ _ _ _ _ Hd Hf) as Hs. specialize (H3 (rank k) (grammar_heads k)).
    set (q := match k with KAST => no_pos | _ => first_pos p us end).
    assert (E : keys [T q k fs] = (if decide (q ≠ no_pos) then [(k, q)] else []) ++
      keys (flat_map (λ q : fld * aval, val_subs q.2) fs)).
    { unfold keys. cbn [flat_map nodes]. rewrite app_nil_r. unfold placed_nodes. rewrite filter_cons. cbn [ann].
      replace (flat_map (λ p0 : fld * aval, nodes_val p0.2) fs) with (flat_map nodes (flat_map (λ q : fld * aval, val_subs q.2) fs));
        [by destruct (decide _)|].
      clear. induction fs as [|[f v] fs IH]; [done|]. cbn [flat_map snd]. by rewrite flat_map_app, IH, nodes_val_subs. }
    rewrite E. clear E. cbn [ann].
    assert (Hq : q ≠ no_pos → q = first_pos p us) by (intros ?; unfold q in *; by destruct k).
    set (K := keys (flat_map (λ q : fld * aval, val_subs q.2) fs)) in *.
    assert (HK : ∀ k' o, (k', o) ∈ K → o ∈ marks us ∧ (o = first_pos p us → rank k' < rank k)%nat).
    { intros k' o Hk. assert (Hk' : (k', o) ∈ keys (trees_of (map snd cs))) by (by eapply elem_of_submseteq).
      split; [by eapply H2|by apply H3]. }
    split.
    + apply NoDup_app. split_and!; [destruct (decide _); [apply NoDup_singleton|constructor]| |by eapply sub_NoDup].
      intros [k' o] Hk1 Hk2. destruct (decide (q ≠ no_pos)) as [Hne|]; [|by apply elem_of_nil in Hk1].
      apply elem_of_list_singleton in Hk1. injection Hk1 as -> ->. apply HK in Hk2 as [_ Hr].
      specialize (Hr (Hq Hne)). lia.
    + intros k' o [Hk|Hk]%elem_of_app; [|by right; apply HK]. destruct (decide (q ≠ no_pos)) as [Hne|]; [|by apply elem_of_nil in Hk].
      apply elem_of_list_singleton in Hk. injection Hk as -> ->. left. split_and!; [done|by apply Hq|done].
Qed.

(** ** Files *)
Lemma starts_strict (ts : list token) n :
  (∀ i t, ts !! i = Some t → offset (start t) = n + length (concat (map value (take i ts))))%nat →
  Forall (λ t, value t ≠ []) ts →
  StronglySorted (λ t t', offset (start t) < offset (start t'))%nat ts ∧ Forall (λ t, n ≤ offset (start t))%nat ts.
Proof.
  revert n. induction ts as [|t ts IH]; intros n H Hv; [split; constructor|]. apply Forall_cons in Hv as [Hv1 Hv2].
  pose proof (H 0%nat t eq_refl) as H0. cbn in H0.
  destruct (IH (n + length (value t))%nat) as [H1 H2]; [|done|].
  { intros i t' Ht'. rewrite (H (S i) t' Ht'). cbn. rewrite app_length. lia. }
  assert (0 < length (value t))%nat by (destruct (value t); [done|cbn; lia]).
  split; constructor; [done| |lia|].
  - eapply Forall_impl; [exact H2|]. intros x. cbn. lia.
  - eapply Forall_impl; [exact H2|]. intros x. cbn. lia.
Qed.
Lemma strict_nodup (ts : list token) :
  StronglySorted (λ t t', offset (start t) < offset (start t'))%nat ts → NoDup (marks ts).
Proof.
  induction 1 as [|t ts _ IH H]; [constructor|]. cbn. constructor; [|done]. intros (t' & E & Ht')%elem_of_list_fmap.
  rewrite Forall_forall in H. specialize (H _ Ht'). cbn in H. rewrite E in H. lia.
Qed.
Lemma lexed_separate s ts st : lex "" s = Ok (Lexed ts st) → separate (advance (start_pos "") s) (elide ts).
Proof.
  intros H. assert (Hs : ∀ i t, ts !! i = Some t → offset (start t) = (0 + length (concat (map value (take i ts))))%nat).
  { intros i t Ht. destruct (p38 "" s _ i t H Ht) as (pre & post & _ & -> & ->). done. }
  destruct (p36 "" s _ H) as [Hv _]. cbn [tokens_of] in Hv.
  destruct (starts_strict ts 0 Hs Hv) as [H1 _]. apply NoDup_app. split_and!; [|intros o Ho Hp|apply NoDup_singleton].
  - apply strict_nodup. eapply sorted_sublist; [apply filter_sublist'|done].
  - apply elem_of_list_singleton in Hp. apply elem_of_list_fmap in Ho as (t & -> & [_ Ht]%elem_of_list_filter).
    pose proof Ht as [i Hi]%elem_of_list_lookup. rewrite Forall_forall in Hv. specialize (Hv _ Ht).
    destruct (p38 "" s _ i t H Hi) as (pre & post & -> & _ & Hst). rewrite Hst in Hp. apply (f_equal offset) in Hp.
    cbn in Hp. rewrite !app_length in Hp. destruct (value t); [done|]. cbn in Hp. lia.
Qed.
Lemma placed_of_token s r m :
  parse s = Ok (Some r) → m ∈ nodes r → ann m ≠ no_pos →
  ∃ ts st t, lex "" s = Ok (Lexed ts st) ∧ t ∈ elide ts ∧ ann m = start t.
Proof.
  intros Hp Hm Hne. destruct (parse_built _ _ Hp) as (ts & st & Hl & Hb). exists ts, st.
  destruct (proj2 keys_clean _ _ _ _ Hb (lexed_separate _ _ _ Hl)) as [_ H].
  destruct (H (kind_of m) (ann m)) as [(_ & _ & Hr)|[Hin _]].
  - unfold keys. apply elem_of_list_fmap. exists m. split; [done|]. apply elem_of_list_filter. split; [done|].
    cbn. by rewrite app_nil_r.
  - destruct Hr. by inversion Hb.
  - apply elem_of_list_fmap in Hin as (t & E & Ht). by exists t.
Qed.
(*P C94_where_a_node_is *)
(** The position of a node of a parsed file is that of a token of the file that is not white space: the text
    from there on begins with that token, and line and column count what is before it. *)
Lemma p94 s r m :
  parse s = Ok (Some r) → m ∈ nodes r → ann m ≠ no_pos →
  ∃ ts st t pre post, lex "" s = Ok (Lexed ts st) ∧ t ∈ ts ∧ kind_of_token t ≠ TWhitespace ∧
    s = pre ++ value t ++ post ∧ value t ≠ [] ∧ ann m = pos_at "" pre.
Proof.
  intros Hp Hm Hne. destruct (placed_of_token _ _ _ Hp Hm Hne) as (ts & st & t & Hl & [Hk Ht]%elem_of_list_filter & E).
  pose proof Ht as [i Hi]%elem_of_list_lookup. destruct (p38 "" s _ i t Hl Hi) as (pre & post & Es & _ & Hst).
  destruct (p36 "" s _ Hl) as [Hv _]. cbn [tokens_of] in Hv. rewrite Forall_forall in Hv.
  exists ts, st, t, pre, post. split_and!; try done; [by apply Hv|by rewrite E].
Qed.
Lemma pos_by_offset s r m :
  parse s = Ok (Some r) → m ∈ nodes r → ann m ≠ no_pos → ann m = pos_at "" (take (offset (ann m)) s).
Proof.
  intros Hp Hm Hne. destruct (p94 _ _ _ Hp Hm Hne) as (ts & st & t & pre & post & _ & _ & _ & Es & _ & E).
  rewrite E at 2. cbn [pos_at offset]. rewrite Es, take_app. done.
Qed.
(*P C94_one_node_at_a_place *)
(** No two nodes of a parsed file have the same kind and the same position. *)
Lemma p94_once s r :
  parse s = Ok (Some r) →
  NoDup ((λ m : ast, (kind_of m, offset (ann m))) <$> filter (λ m, ann m ≠ no_pos) (nodes r)).
Proof.
  intros Hp. destruct (parse_built _ _ Hp) as (ts & st & Hl & Hb).
  destruct (proj2 keys_clean _ _ _ _ Hb (lexed_separate _ _ _ Hl)) as [H _].
  unfold keys in H. cbn [flat_map] in H. rewrite app_nil_r in H.
  apply (NoDup_fmap_1 (λ q : kind * nat, (q.1, pos_at "" (take q.2 s)))). rewrite <- list_fmap_compose.
  erewrite list_fmap_ext; [exact H|]. intros i m Hm. cbn. unfold key. f_equal. symmetry.
  apply elem_of_list_lookup_2 in Hm. apply elem_of_list_filter in Hm as [H1 H2]. by eapply pos_by_offset.
Qed.
(*P C94_inside_the_parent *)
(** No node of a parsed file starts before a node that it is part of. *)
Lemma p94_inside s r m c :
  parse s = Ok (Some r) → m ∈ nodes r → c ∈ nodes m → ann m ≠ no_pos → ann c ≠ no_pos →
  (offset (ann m) ≤ offset (ann c))%nat.
Proof.
  intros Hp Hm Hc Hm0 Hc0. destruct (parse_built _ _ Hp) as (ts & st & Hl & Hb).
  pose proof (lexed_ordered _ _ _ Hl) as Ho.
  destruct (nodes_within _ _ _ _ _ Hb Hm) as [(pre & us & post & E & Hbm)|Hlo].
  2: { pose proof (p60_well_formed _ _ Hp) as (_ & Ht & _). apply (proj1 typed_node _ _ Hm) in Ht.
       by rewrite (loose_nodes _ _ Hlo Ht Hc). }
  assert (Hann : ∀ p k us (t : ast), builds p k us t → ann t ≠ no_pos → ann t = first_pos p us).
  { intros p k ws t H Hne. destruct H. cbn in *. by destruct k. }
  rewrite (Hann _ _ _ _ Hbm Hm0). pose proof (lexed_separate _ _ _ Hl) as Hs. rewrite E in Ho, Hs.
  apply ordered_suffix in Ho. apply separate_app in Hs as (_ & Hs & _). apply separate_app in Hs as (Hs & _).
  destruct (proj2 keys_clean _ _ _ _ Hbm Hs) as [_ H]. destruct (H (kind_of c) (ann c)) as [(_ & -> & _)|[Hin _]]; [|done|].
  - unfold keys. apply elem_of_list_fmap. exists c. split; [done|]. apply elem_of_list_filter. split; [done|].
    cbn. by rewrite app_nil_r.
  - apply elem_of_list_fmap in Hin as (t & -> & Ht). apply elem_of_list_split in Ht as (l1 & l2 & ->).
    rewrite <- first_pos_app. rewrite <- app_assoc in *. exact (first_pos_mono _ _ _ Ho).
Qed.
