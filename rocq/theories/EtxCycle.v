(** * Trees that can be written down, again and again *)
From stdpp Require Import base list option strings relations.
From Coq Require Import Ascii Lia.
From Verif Require EtxOrder.
From Verif Require Import GoBase EtxAst EtxHeap EtxHeapSpec EtxText EtxTextFacts EtxLex EtxLexSpec EtxLexString EtxUtil EtxNumProofs EtxGram EtxParse EtxParseBase
  EtxParseSpec EtxParseStore EtxParseTyped EtxParseFirst EtxParseParts EtxFormat EtxShape EtxPrec EtxFormatTotal EtxFormatPanic EtxReprintSpec EtxRelex EtxReprint
  EtxParsePropProofs EtxSettled EtxDeclsSpec EtxWriteSpec EtxCode EtxSays EtxOrdinarySpec EtxOrdinaryLex EtxOrdinaryCaps EtxWriteFile EtxOrdinary.

(** ** The gist of a node *)
Lemma kind_gist t : kind_of (gist t) = kind_of t.
Proof. by destruct t. Qed.
Lemma str_gist f t : str_of f (gist t) = str_of f t.
Proof.
  unfold str_of. rewrite get_gist. destruct (get f t) as [[s|b|[[[] [|]]|]|o|[c|]|c|[[[] l]|]]|]; try done.
  cbn [fmap option_fmap option_map]. rewrite gist_list. by destruct (keep l).
Qed.
Lemma strs_gist f t : strs_of f (gist t) = strs_of f t.
Proof.
  unfold strs_of. rewrite get_gist. destruct (get f t) as [[s|b|[[[] [|]]|]|o|[c|]|c|[[[] l]|]]|]; try done.
  cbn [fmap option_fmap option_map]. rewrite gist_list. by destruct (keep l).
Qed.
Lemma bool_gist f t : bool_of f (gist t) = bool_of f t.
Proof.
  unfold bool_of. rewrite get_gist. destruct (get f t) as [[s|b|[[[] [|]]|]|o|[c|]|c|[[[] l]|]]|]; try done.
  cbn [fmap option_fmap option_map]. rewrite gist_list. by destruct (keep l).
Qed.
Lemma ptr_gist f t : ptr_of f (gist t) = gist <$> ptr_of f t.
Proof.
  unfold ptr_of. rewrite get_gist. destruct (get f t) as [[s|b|[[[] [|]]|]|o|[c|]|c|[[[] l]|]]|]; try done.
  cbn [fmap option_fmap option_map]. rewrite gist_list. by destruct (keep l).
Qed.
Lemma emb_gist f t : emb_of f (gist t) = gist <$> emb_of f t.
Proof.
  unfold emb_of. rewrite get_gist. destruct (get f t) as [[s|b|[[[] [|]]|]|o|[c|]|c|[[[] l]|]]|]; try done.
  cbn [fmap option_fmap option_map]. rewrite gist_list. by destruct (keep l).
Qed.
Lemma list_gist f t : list_of f (gist t) = keep (list_of f t).
Proof.
  unfold list_of. rewrite get_gist. destruct (get f t) as [[s|b|[[[] [|]]|]|o|[c|]|c|[[[] l]|]]|]; try done.
  cbn [fmap option_fmap option_map]. rewrite gist_list. by destruct (keep l).
Qed.
Lemma has_gist f t : has f (gist t) = has f t.
Proof. unfold has. rewrite ptr_gist. by destruct (ptr_of f t). Qed.
Lemma numeric_gist t : numeric (gist t) = numeric t.
Proof.
  assert (∀ t, number_value (gist t) = number_value t) as Hv by (intros x; unfold number_value; rewrite ptr_gist; by destruct (ptr_of FNumber x)).
  assert (∀ t, number_primary (gist t) = number_primary t) as Hp.
  { intros x. unfold number_primary. rewrite ptr_gist. destruct (ptr_of FValue x); [apply Hv|done]. }
  unfold numeric. rewrite kind_gist, Hv, Hp, emb_gist. destruct (emb_of FValue t); [|done]. cbn. by rewrite Hp.
Qed.
Lemma named_gist t : named (gist t) = named t.
Proof.
  unfold named. rewrite emb_gist. destruct (emb_of FValue t) as [c|]; [|done]. cbn. unfold named_primary. rewrite ptr_gist. by destruct (ptr_of FIdent c).
Qed.
Lemma keep_list m f k : typed m = true → (f, TList k) ∈ schema (kind_of m) → row_kind k = false → list_of f (gist m) = map (fmap gist) (list_of f m).
Proof.
  intros Hty Hs Hk. rewrite list_gist. unfold list_of. destruct (get f m) as [[| | | | | |[[u l]|]]|] eqn:E; try done.
  destruct (typed_fields _ _ _ Hty (get_held _ _ _ E)) as (ty & H1 & H2).
  assert (ty = TList k) as ->.
  { pose proof (schema_nodup (kind_of m)) as Hn. eapply nodup_schema; done. }
  cbn in H2. revert H2. clear -Hk. induction l as [|[c|] l IH]; [done|..]; cbn; intros H.
  - apply andb_true_iff in H as [H1 H2]. apply andb_true_iff in H1 as [H1%bool_decide_eq_true _]. unfold blank_line. rewrite H1, Hk. cbn. f_equal. by apply IH.
  - f_equal. by apply IH.
Qed.
Lemma ordinary_gist m : typed m = true → ordinary_node (gist m) ↔ ordinary_node m.
Proof.
  intros Hty. unfold ordinary_node. rewrite kind_gist. rewrite !str_gist, !strs_gist, !has_gist, !ptr_gist, !emb_gist.
  apply and_iff_compat_l. destruct (kind_of m) eqn:Hk; try done.
  - rewrite (keep_list m FReturn KParameterType Hty) by (try rewrite Hk; in_sc || done).
    split; intros H r Hr.
    + rewrite Hr in H. rewrite <- has_gist. by apply H.
    + destruct (list_of FReturn m) as [|[x|] [|]]; try done. injection Hr as <-. rewrite has_gist. by apply H.
  - rewrite numeric_gist, named_gist. split; intros [H1 H2]; (split; [intros c Hc|intros Hi v Hv]).
    + rewrite <- (numeric_gist c). apply H1. by rewrite Hc.
    + rewrite <- has_gist. apply H2; [done|]. by rewrite Hv.
    + destruct (ptr_of FPost m) as [x|]; [|done]. injection Hc as <-. rewrite numeric_gist. by apply H1.
    + destruct (emb_of FValue m) as [x|]; [|done]. injection Hv as <-. rewrite has_gist. by apply H2.
  - apply and_iff_compat_l. 
    assert (list_of FMonads (gist m) ≠ [] ↔ list_of FMonads m ≠ []) as E.
    { erewrite (keep_list m FMonads _ Hty); [|rewrite Hk; in_sc|done]. by destruct (list_of FMonads m). }
    split; intros H c Hc.
    + rewrite <- (numeric_gist c), <- E. apply H. by rewrite Hc.
    + destruct (ptr_of FPost m) as [x|]; [|done]. injection Hc as <-. rewrite numeric_gist, E. by apply H.
Qed.
(** ** The nodes of the gist *)
Lemma fields_gist t : fields (gist t) = map (λ x, (x.1, gist_val x.2)) (fields t).
Proof. destruct t. by rewrite gist_T. Qed.
Lemma gist_subs v (c : ast) : c ∈ val_subs (gist_val v) → ∃ d, d ∈ val_subs v ∧ c = gist d.
Proof.
  destruct v as [s|b|[[[] [|]]|]|o|[x|]|x|[[[] l]|]]; try (by intros ?%elem_of_nil).
  - intros ->%elem_of_list_singleton. exists x. split; [by left|done].
  - intros ->%elem_of_list_singleton. exists x. split; [by left|done].
  - rewrite gist_list. assert (∀ l, c ∈ omap id (keep l) → ∃ d, d ∈ omap id l ∧ c = gist d) as H.
    { clear. intros l. induction l as [|[t|] l IH]; [by intros ?%elem_of_nil| |exact IH]. cbn. destruct (blank_line t).
      - intros (d & H & E)%IH. exists d. split; [by right|done].
      - intros [->|(d & H & E)%IH]%elem_of_cons; [exists t; split; [by left|done]|exists d; split; [by right|done]]. }
    specialize (H l). unfold slice. by destruct (keep l).
Qed.
Lemma subs_gist v (d : ast) : d ∈ val_subs v → blank_line d = false → gist d ∈ val_subs (gist_val v).
Proof.
  destruct v as [s|b|[[[] [|]]|]|o|[x|]|x|[[[] l]|]]; try (by intros ?%elem_of_nil).
  - intros ->%elem_of_list_singleton _. by left.
  - intros ->%elem_of_list_singleton _. by left.
  - rewrite gist_list. intros H Hb. assert (gist d ∈ omap id (keep l)) as Hk; [|unfold slice; by destruct (keep l)]. cbn [val_subs] in H.
    induction l as [|[t|] l IH]; [by apply elem_of_nil in H| |by apply IH]. cbn in H |- *. apply elem_of_cons in H as [->|H].
    + rewrite Hb. by left.
    + destruct (blank_line t); [by apply IH|right; by apply IH].
Qed.
Lemma nodes_gist (t n : ast) : n ∈ nodes (gist t) → ∃ m, m ∈ nodes t ∧ n = gist m.
Proof.
  assert (∃ k, size t < k) as [k Hk] by (exists (S (size t)); lia). revert t Hk. induction k as [|k IH]; intros t Hn; [lia|].
  intros [->|(f & v & c & H1 & H2 & H3)]%nodes_inv; [exists t; split; [destruct t; by left|done]|].
  rewrite fields_gist in H1. apply elem_of_list_fmap in H1 as ([f' w] & [= -> ->] & Hf). cbn [snd] in H2.
  apply gist_subs in H2 as (d & Hd & ->). pose proof (size_sub _ _ _ _ Hf Hd) as Hs.
  destruct (IH d ltac:(lia) H3) as (m & Hm & ->). exists m. split; [|done]. eapply EtxOrder.nodes_trans; [|exact Hm]. by eapply EtxOrder.sub_node.
Qed.
Lemma gist_nodes (t m : ast) : m ∈ nodes t → gist m ∈ nodes (gist t) ∨ ∃ b, b ∈ nodes t ∧ blank_line b = true ∧ m ∈ nodes b.
Proof.
  assert (∃ k, size t < k) as [k Hk] by (exists (S (size t)); lia). revert t Hk. induction k as [|k IH]; intros t Hn; [lia|].
  intros [->|(f & v & c & H1 & H2 & H3)]%nodes_inv; [left; destruct t; by left|].
  pose proof (EtxOrder.sub_node _ _ _ _ H1 H2) as Hc. destruct (blank_line c) eqn:Eb; [right; by exists c|].
  pose proof (size_sub _ _ _ _ H1 H2) as Hs. destruct (IH c ltac:(lia) H3) as [H|(b & Hb & Hbb & Hm)].
  - left. eapply EtxOrder.nodes_trans; [|exact H]. eapply (EtxOrder.sub_node _ _ f (gist_val v)); [|by apply subs_gist].
    rewrite fields_gist. apply elem_of_list_fmap. by exists (f, v).
  - right. exists b. split; [|done]. by eapply EtxOrder.nodes_trans.
Qed.

(** ** What can be written down is ordinary *)
Lemma no_empty_line m : typed m = true → (∀ ty, (FEmptyLine, ty) ∉ schema (kind_of m)) → str_of FEmptyLine m = [].
Proof.
  intros Hty Hs. unfold str_of. destruct (get FEmptyLine m) as [v|] eqn:E; [|done]. exfalso.
  destruct (typed_fields _ _ _ Hty (get_held _ _ _ E)) as (ty & H & _). by apply (Hs ty).
Qed.
Lemma item_cr fs m : item_of fs m → cr ∉ str_of FEmptyLine m.
Proof.
  intros [[-> _]|[[_ H] _]]; [apply not_elem_of_nil|]. intros Hc. rewrite Forall_forall in H. by apply H in Hc.
Qed.
Lemma writable_ordinary m : typed m = true → writable_node m → ordinary_node m.
Proof.
  intros Hty [_ H]. split.
  - destruct (kind_of m) eqn:Hk; try done.
    all: try (rewrite no_empty_line; [apply not_elem_of_nil|done|rewrite Hk; intros ty Hs; cbn [schema] in Hs; try unfold binary in Hs;
      repeat (apply elem_of_cons in Hs as [[=]|Hs]); by apply elem_of_nil in Hs]).
    all: try (by eapply item_cr; apply H). all: try (by eapply item_cr; exact H).
    all: destruct H as (_ & _ & ->); apply not_elem_of_nil.
  - destruct (kind_of m) eqn:Hk; try done.
    + by destruct H.
    + destruct H as [H _]. intros E. rewrite E in H. by apply name_head in H.
    + destruct H as [H _]. intros E. rewrite E in H. by apply name_head in H.
    + by destruct H.
    + by destruct H as (_ & _ & H).
    + destruct H as (_ & _ & _ & H). split_and!.
      * destruct H as [[H _]|H]; [done|]. destruct_or?; by rewrite H.
      * intros Hq. destruct H as [[_ H]|H]; [rewrite Forall_forall in H; by apply H in Hq|].
        destruct_or?; rewrite H in Hq; revert Hq; by apply (bool_decide_unpack (¬ _)); vm_compute.
      * by apply piece_no_lf.
    + destruct H as [_ H]. unfold none_of, set_in in H. unfold has. destruct (is_nil (ptr_of FComment m)) eqn:E; [done|]. rewrite filter_cons, decide_True in H by done. done.
    + destruct (has FLeft m); [by left|right; by apply H].
    + destruct H as (_ & H1 & _ & H2). split; [|done]. unfold none_of, set_in in H1. unfold has. destruct (is_nil (ptr_of FSubExpression m)) eqn:E; [done|].
      rewrite filter_cons, decide_True in H1 by done. done.
Qed.

(** ** Empty lines of the text *)
Definition lf_tokens (us : list token) : Prop := Forall (λ u, kind_of_token u = TLF → value u = [lf]) us.
Lemma no_cr p us m : builds p (kind_of m) us m → lf_tokens us → cr ∉ str_of FEmptyLine m.
Proof.
  intros Hb Hl. pose proof (builds_good _ _ _ _ Hb) as [_ [Hty _]].
  assert (Hgo : special_kind (kind_of m) = false → (FEmptyLine, TStr) ∈ schema (kind_of m) → sources FEmptyLine (grammar (kind_of m)) = Some [ATok TLF] → cr ∉ str_of FEmptyLine m).
  { intros Hs Hsc Hso Hc. destruct (str_tokens _ _ _ _ _ _ _ Hb Hs Hsc Hso Hc) as (u & Hu & Hcu & Hf%fits_tok). unfold lf_tokens in Hl. rewrite Forall_forall in Hl.
    rewrite (Hl u Hu Hf) in Hcu. by apply elem_of_list_singleton in Hcu. }
  destruct (kind_of m) eqn:Hk;
  try (rewrite no_empty_line; [apply not_elem_of_nil|done|rewrite Hk; intros ty Hs; cbn [schema] in Hs; try unfold binary in Hs;
      repeat (apply elem_of_cons in Hs as [[=]|Hs]); by apply elem_of_nil in Hs]).
  all: apply Hgo; [done|in_sc|vm_compute; reflexivity].
Qed.
Lemma blank_alone p us b :
  builds p (kind_of b) us b → good_tokens us → blank_line b = true → has FComment b = false ∧ ∀ m, m ∈ nodes b → m = b.
Proof.
  intros Hb Hg Hbl. unfold blank_line in Hbl. apply andb_true_iff in Hbl as [Hk He%bool_decide_eq_true].
  pose proof (builds_shaped _ _ _ _ Hb (good_values _ Hg)) as Hs.
  assert (has FComment b = false ∧ ∀ f v c, (f, v) ∈ fields b → c ∉ val_subs v) as [H1 H2].
  { destruct (kind_of b) eqn:E; try done; shapes b E Hs; try (by destruct He).
    all: split; [done|]. all: intros f v c Hf Hc.
    all: repeat (apply elem_of_cons in Hf as [[= -> ->]|Hf]; [by apply elem_of_nil in Hc|]); by apply elem_of_nil in Hf. }
  split; [done|]. intros m [->|(f & v & c & Hf & Hc & _)]%nodes_inv; [done|]. by destruct (H2 _ _ _ Hf Hc).
Qed.
Lemma gist_ordinary p us r r' :
  writable r → builds p KAST us r' → good_tokens us → lf_tokens us → gist r' = gist r → ordinary r'.
Proof.
  intros [Hty Hw] Hb Hg Hl E m Hm. pose proof (builds_good _ _ _ _ Hb) as [_ [Hty' _]].
  destruct (gist_nodes _ _ Hm) as [H|(b & Hbn & Hbl & Hmb)].
  - rewrite E in H. apply nodes_gist in H as (x & Hx & Eg).
    pose proof (proj1 EtxOrder.typed_node _ _ Hm Hty') as Htm. pose proof (proj1 EtxOrder.typed_node _ _ Hx Hty) as Htx.
    apply (ordinary_gist m Htm). rewrite Eg. apply (ordinary_gist x Htx). by apply writable_ordinary, Hw.
  - destruct (nodes_within _ _ _ _ _ Hb Hbn) as [(pre & vs & post & -> & Hbb)|Hlo].
    + pose proof (good_part _ _ _ Hg) as Hgv. destruct (blank_alone _ _ _ Hbb Hgv Hbl) as [Hc Hn]. apply Hn in Hmb as ->. split.
      * eapply no_cr; [done|]. by apply Forall_app in Hl as [_ [Hl _]%Forall_app].
      * apply andb_true_iff in Hbl as [Hk _]. by destruct (kind_of b).
    + exfalso. apply andb_true_iff in Hbl as [Hk _]. destruct Hlo as [Hlo|[Hlo|[->| ->]]]; try done; by rewrite Hlo in Hk.
Qed.
(*P C77_one_cycle *)
(** A tree that can be written down is formatted to a text that is parsed to a tree that
    says the same and can be written down. *)
Lemma one_cycle r :
  writable r → kind_of r = KAST →
  ∃ u r', format r = Ok u ∧ parse u = Ok (Some r') ∧ gist r' = gist r ∧ writable r' ∧ kind_of r' = KAST.
Proof.
  intros Hw Hk. destruct (file_says r Hw Hk) as (u & W & F & L & Y). destruct (legible_lex u W L) as (ts & Hl & E).
  destruct (Y (advance (start_pos "") u) (elide ts) [] E eq_refl) as (r' & S & G). exists u, r'. split; [done|].
  assert (parse u = Ok (Some r')) as Hp by (by eapply settled_file_parsed). split; [done|]. split; [done|].
  destruct (parse_built _ _ Hp) as (ts' & st' & Hl' & Hb). rewrite Hl in Hl'. injection Hl' as <- <-.
  assert (good_tokens (elide ts)) as Hgt.
  { unfold lex in Hl. destruct (lex_chained _ _ _ _ _ _ Hl) as (H1 & H2 & _). split; [|by apply chained_elide].
    apply Forall_forall. unfold elide. intros x [_ Hx]%elem_of_list_filter. rewrite Forall_forall in H1. by apply H1. }
  split; [|by eapply builds_kind]. eapply ordinary_writable; [done|done|]. eapply gist_ordinary; [done|done|done| |done].
  apply legible_lf in L. rewrite <- E in L. apply Forall_forall. intros x Hx Hkx. rewrite Forall_forall in L.
  refine (L (lex_of x) _ _); [apply elem_of_list_fmap; by exists x|by destruct x].
Qed.
(*P C77_any_number_of_cycles *)
(** However often a tree is formatted and parsed again, what it says stays the same, and it can be formatted again. *)
Lemma many_cycles r r' :
  writable r → kind_of r = KAST → rtc (λ t t', ∃ u, format t = Ok u ∧ parse u = Ok (Some t')) r r' →
  gist r' = gist r ∧ ∃ u r'', format r' = Ok u ∧ parse u = Ok (Some r'') ∧ gist r'' = gist r.
Proof.
  intros Hw Hk H. revert Hw Hk. induction H as [r|r r1 r' (u & F & P) _ IH]; intros Hw Hk.
  - destruct (one_cycle r Hw Hk) as (u & r' & ? & ? & ? & _). split; [done|]. by exists u, r'.
  - destruct (one_cycle r Hw Hk) as (u' & r1' & F' & P' & G & Hw' & Hk'). rewrite F in F'. injection F' as <-. rewrite P in P'. injection P' as <-.
    destruct (IH Hw' Hk') as (G' & ?). rewrite <- G. done.
Qed.
(*P C77_ordinary_files *)
(** The same for accepted ordinary files, and the text: every text reached by formatting is
    accepted, and says what the file said. *)
Lemma ordinary_cycles s r u :
  parse s = Ok (Some r) → ordinary r → rtc formats_to s u →
  ∃ r' v, parse u = Ok (Some r') ∧ gist r' = gist r ∧ ordinary r' ∧ format r' = Ok v.
Proof.
  intros Hp Ho H. revert r Hp Ho. induction H as [s|s t u (r0 & Hr0 & Ht) _ IH]; intros r Hp Ho.
  - destruct (ordinary_survives _ _ Hp Ho) as (v & _ & Hv & _). by exists r, v.
  - rewrite Hp in Hr0. injection Hr0 as <-. pose proof (parsed_writable _ _ Hp Ho) as Hw.
    destruct (parse_good _ _ Hp) as (q & us & Hb & _). destruct (one_cycle r Hw (builds_kind _ _ _ _ Hb)) as (u' & r1 & F & P & G & Hw1 & _).
    rewrite Ht in F. injection F as <-. destruct (IH r1 P) as (r' & v & H1 & H2 & H3).
    + intros m Hm. apply writable_ordinary; [by eapply (proj1 EtxOrder.typed_node), (proj1 Hw1)|by apply Hw1].
    + exists r', v. by rewrite <- G.
Qed.
