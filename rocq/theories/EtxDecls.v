(** * Files of declarations *)
From stdpp Require Import base list option strings relations.
From Coq Require Import Ascii Lia.
From Verif Require Import GoBase EtxAst EtxHeap EtxHeapSpec EtxText EtxLex EtxLexSpec EtxLexFacts EtxLexNest EtxLexOps EtxLexIdent EtxLexString EtxUtil EtxUtilProofs EtxNumProofs EtxGram
  EtxParse EtxParseBase EtxParseSpec EtxParseStore EtxParseFirst EtxParseClean EtxParseLevel EtxParseLexed EtxParseTyped EtxParseParts EtxPrecSpec EtxPrec EtxPrecParse
  EtxShape EtxFormat EtxFormatSpec EtxFormatTotal EtxReprintSpec EtxParsePropProofs EtxFormatPropProofs EtxOrder EtxLayout EtxRelex EtxReprint EtxReprintProofs EtxBarrier EtxFlat EtxNeat EtxItems EtxDeclsSpec EtxBare.

(** ** A declaration does not depend on what comes after its line *)
Definition word_gram : gexp := GCap FDeclType (GAlt (map GLit ["input"; "output"; "const"; "val"])).
Lemma word_yes sub d ts :
  value d ∈ decl_words → eval sub word_gram (Ctx (d :: ts) [] []) = Ret (Some [[]]) (Ctx ts [] [(FDeclType, Texts [value d])]).
Proof.
  intros Hd. unfold word_gram. cbn [map eval run_alt]. unfold next_is. cbn [branch todo].
  unfold decl_words in Hd. cbn [map] in Hd. rewrite !elem_of_cons, elem_of_nil in Hd.
  destruct d as [dk dv dp]. cbn [value] in *. destruct Hd as [E|[E|[E|[E|[]]]]]; subst dv; vm_compute; reflexivity.
Qed.
Lemma alike_word t t' : alike t t' → value t ∈ decl_words → value t' = value t.
Proof.
  intros Ht Hv. unfold decl_words in Hv. apply elem_of_list_fmap in Hv as (w & Hv & Hw). rewrite Hv.
  assert (literal_ok w = true) as Hok. { rewrite !elem_of_cons, elem_of_nil in Hw. by destruct Hw as [->|[->|[->|[->|[]]]]]. }
  pose proof (literal_alike w t t' Hok Ht) as H. rewrite bool_decide_eq_true_2 in H by done. symmetry in H. by apply bool_decide_eq_true in H.
Qed.
Lemma decl_local eof eof' d d' v v' B B' :
  value d ∈ decl_words → alike d d' → Forall2 alike v v' → neat v → v ≠ [] → wall true B → wall true B' →
  beside_parsed (λ b, upto (at_ true b) B B') (upto any B B') (parser eof KDecl (d :: v ++ B)) (parser eof' KDecl (d' :: v' ++ B')).
Proof.
  intros Hd Hdd Hv [Hf He] Hn HB HB'. pose proof (alike_word _ _ Hdd Hd) as Hd'.
  set (n := S (enough KDecl (d :: v ++ B) + enough KDecl (d' :: v' ++ B'))).
  rewrite <- (parser_enough eof n) by (unfold n; lia). rewrite <- (parser_enough eof' n) by (unfold n; lia). subst n.
  set (m := enough KDecl (d :: v ++ B) + enough KDecl (d' :: v' ++ B')).
  eapply (struct_beside eof eof' _ _ _ _ _ _ false); [intros ?; apply upto_any|apply upto_low|].
  cbn [grammar]. unfold g_decl. fold word_gram. rewrite !seq_first, !word_yes by (done || by rewrite Hd'). rewrite Hd'.
  eapply (seq_beside false (may true) opener (λ b, upto (at_ true b) B B') (upto any B B')) with (b := true); try done.
  - intros ?; apply upto_any.
  - apply upto_low.
  - assert (∀ g, (∀ k', k' ∈ subs g → k' ∈ local_kinds true) → caps_ok KDecl g = true →
      runs false (may true) opener (λ b, upto (at_ true b) B B') (upto any B B') KDecl (eval (parse_struct eof m)) (eval (parse_struct eof' m)) g) as Hg.
    { intros g Hs Hc b c x x' Hw Hx. apply (eval_local eof eof' m true); try done. intros k' Hk'. by apply local_all, Hs. }
    repeat (apply Forall_cons; split); [apply Hg; [|done]..|constructor].
    + intros k' Hk'. by apply elem_of_nil in Hk'.
    + intros k' ->%elem_of_list_singleton. lit_in.
    + intros k' ->%elem_of_list_singleton. lit_in.
  - constructor; [|constructor|]; cbn [todo assigned waiting].
    + exists v, v'. split_and!; done.
    + constructor; [|constructor]. split; [done|]. by left.
Qed.
(** In particular: *)
Lemma decl_again eof eof' p d ud ud' rest B B' :
  parser eof KDecl (ud ++ B) = PNode d B → builds p KDecl ud d → plain d → from root (ud ++ rest) → wall true B → wall true B' →
  Forall2 alike ud ud' → ∃ d', parser eof' KDecl (ud' ++ B') = PNode d' B' ∧ unplaced d' = unplaced d.
Proof.
  intros Hp Hb Hpl Hfrom HB HB' Hal. destruct (decl_is_neat _ _ _ _ Hb Hpl Hfrom) as (w & v & -> & Hw & _ & Hv & Hn).
  apply Forall2_cons_inv_l in Hal as (w' & v' & Hww & Hvv & ->).
  pose proof (decl_local eof eof' w w' v v' B B' Hw Hww Hvv Hv Hn HB HB') as H. cbn [app] in *. rewrite Hp in H.
  pose proof (parser_not_out_of_fuel eof' KDecl (w' :: v' ++ B')) as Hno.
  destruct (parser eof' KDecl (w' :: v' ++ B')) as [t' us'| | | |]; inversion H as [t1 t2 us1 us2 Hu Hup| | | | |]; subst; [|done].
  exists t'. split; [|done]. f_equal. destruct Hup as (x & x' & E & -> & Hx & _).
  rewrite <- (app_nil_l B) in E at 1. apply app_inv_tail in E as <-. by apply Forall2_nil_inv_l in Hx as ->.
Qed.

(** ** Line feeds *)
Definition feed (t : token) : Prop := kind_of_token t = TLF ∧ value t ∈ [[lf]; [cr]].
Lemma feed_step c p z : c ∈ [lf; cr] → lex_step root p (c :: z) = Some (Token TLF [c] p, z, root).
Proof.
  intros Hc. unfold root.
  assert (∃ r b g, first_match (rules (SRoot, [])) (c :: z) = Some (r, Spot b z g) ∧ rname r = TLF ∧ act r = Stay) as (r & b & g & H1 & H2 & H3).
  { rewrite !elem_of_cons, elem_of_nil in Hc. destruct Hc as [->|[->|[]]]; eexists _, _, _; (split; [reflexivity|by split]). }
  rewrite (lex_step_some [] (SRoot, []) p (c :: z) r (Spot b z g) [c] H1 eq_refl ltac:(done)). by rewrite H2, H3.
Qed.
Lemma respells_feed t z : feed t → respells [t] (value t) z.
Proof.
  intros [Hk Hv]. rewrite !elem_of_cons, elem_of_nil in Hv.
  assert (∃ c, value t = [c] ∧ c ∈ [lf; cr]) as (c & E & Hc) by (destruct Hv as [->|[->|[]]]; eexists; (split; [done|lit_in])).
  rewrite E. apply respells_step. intros p. exists (Token TLF [c] p). split_and!; [by apply feed_step|by apply alike_same|done].
Qed.
Lemma respells_feeds us z : Forall feed us → respells us (text_of us) z.
Proof.
  induction 1 as [|t us Ht _ IH]; [apply respells_nil|]. unfold text_of. cbn [map concat]. apply (respells_app [t] us); [by apply respells_feed|done].
Qed.
Lemma from_feed t us : from root (t :: us) → kind_of_token t = TLF → feed t ∧ from root us.
Proof.
  intros (p & s & s' & st' & H & Hf)%from_root_cons Hk.
  apply step_rule in H as (r & y & Hr & Hk' & Hl & _ & _ & -> & _ & _). rewrite Hk in Hk'. cbn [rules] in Hr.
  assert (Forall (λ r, rname r = TLF → act r = Stay ∧ pattern r = RSet (λ c, Ascii.eqb c cr || Ascii.eqb c lf)) core) as H.
  { unfold core. repeat (apply Forall_cons; split; [first [done|intros _; by split]|]). constructor. }
  rewrite Forall_forall in H. destruct (H r Hr (eq_sym Hk')) as [Ha Hq]. rewrite Hq in Hl. rewrite Ha in Hf. destruct Hl as (c & Hv & _ & Hc).
  split; [|done]. split; [done|]. rewrite Hv.
  apply orb_true_iff in Hc as [E|E]; apply Ascii.eqb_eq in E as ->; lit_in.
Qed.
Lemma feed_alike c c' : feed c → alike c c' → feed c'.
Proof.
  intros [Hk Hv] [E1 E2|? ? E|? ? ? Hin E]; [|by rewrite Hk in E|].
  - split; [by rewrite <- E1|by rewrite <- E2].
  - rewrite Hk in E. subst. not_in Hin.
Qed.
Lemma feed_wall c B : feed c → wall true (c :: B).
Proof. intros H. by left. Qed.

(** ** Declarations that stand in a file *)
Definition declared (d : ast) (ud : list token) : Prop :=
  ∃ eof p B, parser eof KDecl (ud ++ B) = PNode d B ∧ builds p KDecl ud d ∧ plain d ∧ from root (ud ++ B) ∧ wall true B.
Lemma declared_word d ud : declared d ud → ∃ w v, ud = w :: v ∧ kind_of_token w = TIdent.
Proof.
  intros (eof & p & B & _ & Hb & Hpl & Hf & _). destruct (decl_is_neat _ _ _ _ Hb Hpl Hf) as (w & v & -> & _ & Hk & _). by exists w, v.
Qed.
Lemma declared_again eof d ud ud' B : declared d ud → Forall2 alike ud ud' → wall true B →
  ∃ d', parser eof KDecl (ud' ++ B) = PNode d' B ∧ unplaced d' = unplaced d.
Proof. intros (eof0 & p & B0 & H1 & H2 & H3 & H4 & H5) Hal HB. by eapply decl_again. Qed.
Lemma declared_text d ud : declared d ud → ∃ u, format d = Ok u ∧ ∀ z, respells ud u (lf :: z).
Proof.
  intros (eof & p & B & _ & Hb & Hpl & Hf & _).
  destruct (claims (size d) KDecl ltac:(is_printable) p ud d B ltac:(lia) Hb Hpl Hf) as [_ _ (u & H3 & H4 & H5)].
  exists u. split; [done|]. intros z. by apply H5.
Qed.

(** Tokens that are declarations, each on a line of its own and followed by an empty one, and
    empty lines; and how many line feeds there are. *)
Inductive lined : list token → list ast → nat → Prop :=
| lined_nil : lined [] [] 0
| lined_feed c W ds n : feed c → lined W ds n → lined (c :: W) ds (S n)
| lined_decl d ud c W ds n :
    declared d ud → feed c → match W with c' :: _ => feed c' | [] => True end → lined W ds n → lined (ud ++ c :: W) (d :: ds) (S n).
Lemma lined_split W ds n : lined W ds n → ∃ us W' m, W = us ++ W' ∧ Forall feed us ∧ no_feed W' ∧ lined W' ds m ∧ n = (length us + m)%nat.
Proof.
  induction 1 as [|c W ds n Hc _ (us & W' & m & -> & H1 & H2 & H3 & ->)|d ud c W ds n Hd Hc HW Hl _].
  - exists [], [], 0. split_and!; [done|done|done|constructor|done].
  - exists (c :: us), W', m. split_and!; [done|by constructor|done|done|done].
  - exists [], (ud ++ c :: W), (S n). split_and!; [done|done| |by constructor|done].
    destruct (declared_word _ _ Hd) as (w & v & -> & Hw). cbn. by rewrite Hw.
Qed.
Lemma feeds_app us W ds n : Forall feed us → lined W ds n → lined (us ++ W) ds (length us + n).
Proof. induction 1; [done|]. intros. cbn. constructor; auto. Qed.
(** The length of what is printed for nodes. *)
Definition printed (t : ast) : nat := match format t with Ok u => length u | _ => 0 end.
Fixpoint printed_all (l : list ast) : nat := match l with [] => 0 | t :: l => printed t + printed_all l end.
Definition is_line (i : ast) : Prop := ptr_of FDecl i ≠ None ∨ str_of FEmptyLine i ≠ [].
Definition decls_of (is : list ast) : list ast := omap (ptr_of FDecl) is.
Lemma feed_text us : Forall feed us → us ≠ [] → text_of us ≠ [].
Proof.
  intros H Hn E. destruct H as [|t us [_ Hv] _]; [done|]. change (text_of (t :: us)) with (value t ++ text_of us) in E.
  apply app_eq_nil in E as [E _]. rewrite E in Hv. not_in Hv.
Qed.
Lemma feed_length us : Forall feed us → length (text_of us) = length us.
Proof.
  induction 1 as [|t us [_ Hv] _ IH]; [done|]. change (text_of (t :: us)) with (value t ++ text_of us). rewrite app_length, IH. cbn [length].
  rewrite !elem_of_cons, elem_of_nil in Hv. by destruct Hv as [->|[->|[]]].
Qed.
Definition starts_fed (W : list token) : Prop := match W with c :: _ => feed c | [] => False end.
Lemma lined_parse eof n : ∀ W ds m ts, length W <= n → lined W ds m → Forall2 alike W ts →
  ∃ is, chain eof ts is ∧ Forall is_line is ∧ map unplaced (decls_of is) = map unplaced ds ∧
    printed_all is + length ds = printed_all ds + m ∧ 2 * length ds <= length is + 1 ∧ (starts_fed W → 2 * length ds <= length is).
Proof.
  induction n as [n IH] using lt_wf_ind. intros W ds m ts Hn Hl Hal.
  destruct (lined_split _ _ _ Hl) as (us & W' & m' & -> & Hus & Hno & Hl' & ->). apply Forall2_app_inv_l in Hal as (us' & ts' & Hu & Hal & ->).
  assert (Forall feed us') as Hus'.
  { clear -Hus Hu. induction Hu; [constructor|]. apply Forall_cons in Hus as [? ?]. constructor; [by eapply feed_alike|auto]. }
  assert (∃ is, chain eof ts' is ∧ Forall is_line is ∧ map unplaced (decls_of is) = map unplaced ds ∧
    printed_all is + length ds = printed_all ds + m' ∧ 2 * length ds <= length is + 1) as (is & H1 & H2 & H3 & H4 & H5).
  { destruct Hl' as [|c W ds m' Hc Hl'|d ud c W ds m' Hd Hc HW Hl'].
    - apply Forall2_nil_inv_l in Hal as ->. exists []. split_and!; [constructor|constructor|done|done|cbn; lia].
    - destruct Hno. apply Hc.
    - apply Forall2_app_inv_l in Hal as (ud' & ts1 & Hud & Hal & ->). apply Forall2_cons_inv_l in Hal as (c' & ts2 & Hcc & Hal & ->).
      pose proof (feed_alike _ _ Hc Hcc) as Hc'.
      destruct (declared_again eof d ud ud' (c' :: ts2) Hd Hud (feed_wall _ _ Hc')) as (d' & Hp & Hdd).
      rewrite !app_length in Hn. cbn [length] in Hn.
      destruct (IH (length W) ltac:(lia) W ds m' ts2 ltac:(lia) Hl' Hal) as (is & G1 & G2 & G3 & G4 & G5 & G6).
      assert (no_feed (ud' ++ c' :: ts2)) as Hnf.
      { destruct (declared_word _ _ Hd) as (w & v & -> & Hw). apply Forall2_cons_inv_l in Hud as (w' & v' & Hww & _ & ->).
        cbn. rewrite <- (alike_kind _ _ Hww), Hw. done. }
      destruct (decl_item eof _ _ _ Hnf Hp) as (i & Hi & Hid & _ & Hfi). cbn [drop_lf] in Hi. rewrite decide_True in Hi by apply Hc'.
      exists (i :: is). split_and!; [by econstructor|constructor; [|done]; left; by rewrite Hid| | |].
      + unfold decls_of. cbn [omap list_omap]. rewrite Hid. cbn [map]. unfold decls_of in G3. by rewrite Hdd, G3.
      + cbn [printed_all length].
        assert (printed i = printed d) as -> by (unfold printed; by rewrite Hfi, (p72_same _ _ Hdd)). lia.
      + cbn [length]. destruct W as [|c2 W2]; [|specialize (G6 HW); lia]. inversion Hl'; subst; [cbn; lia|]. by destruct ud0. }
  destruct (decide (us' = [])) as [->|Eu].
  { apply Forall2_nil_inv_r in Hu as ->. exists is. split_and!; try done. intros Hs. exfalso. cbn [app] in Hs. destruct W' as [|w W']; [done|].
    destruct Hno. apply Hs. }
  assert (no_feed ts') as Hnf.
  { destruct Hal as [|w w' ? ? Hw _]; [done|]. cbn in *. by rewrite <- (alike_kind _ _ Hw). }
  destruct (blank_item eof us' ts') as (i & Hi & Hid & His & Hfi); [|done|done|].
  { eapply Forall_impl; [exact Hus'|]. by intros t [? _]. }
  exists (i :: is). split_and!; [by econstructor|constructor; [|done]| | | |].
  - right. rewrite His. by apply feed_text.
  - unfold decls_of. cbn [omap list_omap]. by rewrite Hid.
  - cbn [printed_all].
    assert (printed i = length us) as ->.
    { unfold printed. rewrite Hfi by (by apply feed_text). rewrite feed_length by done. symmetry. by eapply Forall2_length. }
    lia.
  - cbn [length]. lia.
  - cbn [length]. lia.
Qed.

(** ** From a file to its lines *)
Definition new_line : token := Token TLF [lf] no_pos.
Lemma new_line_feed : feed new_line.
Proof. split; [done|lit_in]. Qed.
Definition piece (i : ast) (us : list token) : Prop :=
  (∃ d, ptr_of FDecl i = Some d ∧ format i = format d ∧ declared d us) ∨
  ptr_of FDecl i = None ∧ format i = Ok (text_of us) ∧ Forall feed us.
Lemma word_not_blocked eof k w v : value w ∈ decl_words → ¬ blocked eof k (w :: v).
Proof.
  intros Hw (u & us & [= <- <-] & H & _). unfold decl_words in Hw.
  destruct H as [[Hk Hv]|(_ & Hv & _)].
  - apply ops_of_lor in Hk. rewrite Hv in Hw.
    assert (forallb (λ t, bool_decide (chars (op_text t) ∉ map chars ["input"; "output"; "const"; "val"])) ops_lor = true) as H by (vm_compute; reflexivity).
    rewrite forallb_forall in H. apply elem_of_list_In in Hk. specialize (H _ Hk). by apply bool_decide_eq_true in H.
  - rewrite Hv in Hw. not_in Hw.
Qed.
Lemma feed_not_blocked eof k c v : kind_of_token c = TLF → ¬ blocked eof k (c :: v).
Proof.
  intros Hc (u & us & [= <- <-] & H & _). destruct H as [[Hk Hv]|(_ & Hv & Hk)]; rewrite Hc in Hk.
  - apply ops_of_lor in Hk. not_in Hk.
  - not_in Hk.
Qed.
Lemma decl_word eof ts d ts' : parser eof KDecl ts = PNode d ts' → ∃ w v, ts = w :: v ∧ value w ∈ decl_words.
Proof.
  intros E. destruct (parser_starts eof none_dead ts first_closed_all ltac:(done) _ _ _ E) as [H|(w & v & -> & Hw)].
  - pose proof (parser_moves eof KDecl ts) as Hm. rewrite E in Hm. destruct Hm as (us & Hus & Hn). exfalso.
    specialize (Hn eq_refl). apply (f_equal length) in Hus. rewrite H, app_length in Hus. destruct us; [done|]. cbn in Hus. lia.
  - exists w, v. split; [done|].
    assert (first_of none_dead KDecl = map ALit ["input"; "output"; "const"; "val"]) as E1 by (vm_compute; reflexivity).
    rewrite E1 in Hw. clear -Hw. cbn in Hw. unfold decl_words. cbn [map]. rewrite !elem_of_cons.
    rewrite !orb_true_iff, !bool_decide_eq_true in Hw. decompose [or] Hw; [by left|by right; left|by do 2 right; left|by do 3 right; left|done].
Qed.
Lemma feeds_from us ts : Forall (λ t, kind_of_token t = TLF) us → from root (us ++ ts) → Forall feed us ∧ from root ts.
Proof.
  induction 1 as [|t us Ht _ IH]; [done|]. cbn. intros H. apply from_feed in H as [H1 H2]; [|done]. apply IH in H2 as [? ?]. split; [by constructor|done].
Qed.
Lemma chain_pieces eof ts is : chain eof ts is → from root ts → Forall regular ts → Forall is_line is → Forall plain (decls_of is) →
  ∃ uss, Forall2 piece is uss.
Proof.
  induction 1 as [|ts i ts' is Hi Hc IH]; intros Hf Hr Hl Hp; [by exists []|].
  apply Forall_cons in Hl as [Hli Hl]. unfold decls_of in Hp. cbn [omap list_omap] in Hp.
  destruct (item_cases _ _ _ _ Hi) as [(us & -> & Hn & Hus & _ & Hd & Hs & Hfm)|[(Hnf & d & ts2 & Hd & Hts & Hid & Hfm)|(_ & Hd & He)]].
  - rewrite Hd in Hp. apply feeds_from in Hf as [Hfu Hf]; [|done]. apply Forall_app in Hr as [_ Hr].
    destruct (IH Hf Hr Hl Hp) as (uss & H). exists (us :: uss). constructor; [|done]. right.
    split_and!; [done|apply Hfm; by apply feed_text|done].
  - rewrite Hid in Hp. apply Forall_cons in Hp as [Hpd Hp]. assert (ts2 = [] ∨ ∃ c v, ts2 = c :: v ∧ (kind_of_token c = TLF ∨ value c ∈ decl_words)) as Hts2.
    { destruct ts2 as [|c v]; [by left|]. right. exists c, v. split; [done|]. destruct (decide (kind_of_token c = TLF)) as [?|Hck]; [by left|right].
      cbn [drop_lf] in Hts. rewrite decide_False in Hts by done. subst ts'. inversion Hc as [|? j ts3 js Hj Hcj]; subst.
      apply Forall_cons in Hl as [Hlj _].
      destruct (item_cases _ _ _ _ Hj) as [(us & E & Hn & Hus & _)|[(_ & d' & ts4 & Hd' & _)|(_ & Hd' & He)]].
      - destruct Hus as [|u us Hu _]; [done|]. injection E as -> _. done.
      - destruct (decl_word _ _ _ _ Hd') as (w & v' & [= -> ->] & Hw). done.
      - destruct Hlj as [?|?]; done. }
    assert (∃ ud, ts = ud ++ ts2 ∧ builds (first_pos eof ts2) KDecl ud d) as (ud & -> & Hb).
    { pose proof (parser_built eof KDecl ts Hr) as Hb. rewrite Hd in Hb. destruct Hb as [?|[_ Hb]]; [done|]. exfalso.
      destruct Hts2 as [->|(c & v & -> & [Hck|Hw])].
      - by destruct Hb as (? & ? & ? & _).
      - by eapply feed_not_blocked.
      - by eapply word_not_blocked. }
    destruct (claims (size d) KDecl ltac:(is_printable) _ ud d ts2 ltac:(lia) Hb Hpd Hf) as [Hf2 _ _].
    assert (wall true ts2 ∧ from root ts') as [Hw Hf'].
    { rewrite Hts. destruct Hts2 as [->|(c & v & -> & [Hck|Hw])]; [done| |].
      - cbn [drop_lf]. rewrite decide_True by done. apply from_feed in Hf2 as [Hfc Hf2]; [|done]. split; [by apply feed_wall|done].
      - assert (kind_of_token c = TIdent) as Hck.
        { apply elem_of_list_fmap in Hw as (w & Hdw & Hw).
          assert (EtxReprintProofs.starts is_alpha (chars w) ∧ ¬ is_keyword (chars w)) as [Ha Hkw].
          { rewrite !elem_of_cons, elem_of_nil in Hw. decompose [or] Hw; subst; try done; (split; [done|by apply (bool_decide_unpack _)]). }
          destruct (chars w) as [|a b] eqn:Ew; [done|]. by eapply from_word. }
        cbn [drop_lf]. rewrite decide_False by (by rewrite Hck). split; [by right|done]. }
    apply Forall_app in Hr as [_ Hr].
    assert (Forall regular ts') as Hr'.
    { rewrite Hts. destruct ts2 as [|c v]; [done|]. cbn [drop_lf]. destruct (decide _); [|done]. by apply Forall_cons in Hr as [_ ?]. }
    destruct (IH Hf' Hr' Hl Hp) as (uss & H). exists (ud :: uss). constructor; [|done]. left. exists d. split_and!; [done|done|].
    by eexists _, _, _.
  - destruct Hli as [?|?]; done.
Qed.
Fixpoint spaced (l : list (list token)) : list token :=
  match l with [] => [] | [u] => u ++ [new_line] | u :: l => u ++ new_line :: new_line :: spaced l end.
Lemma piece_text i us : piece i us → ∃ u, format i = Ok u ∧ ∀ z, respells us u (lf :: z).
Proof.
  intros [(d & _ & -> & Hd)|(_ & -> & Hf)]; [by apply declared_text|]. eexists. split; [done|]. intros z. by apply respells_feeds.
Qed.
Lemma pieces_text is uss : Forall2 piece is uss → is ≠ [] →
  ∃ l, fmt_all format (map Some is) = Ok l ∧ respells (spaced uss) (join [lf; lf] l ++ [lf]) [].
Proof.
  induction 1 as [|i us is uss Hi H IH]; [done|]. intros _. destruct (piece_text _ _ Hi) as (u & Hu & Hre). cbn [map fmt_all fmt_of]. rewrite Hu.
  destruct H as [|i2 us2 is uss Hi2 H].
  - exists [u]. split; [done|]. cbn [join spaced]. apply respells_app; [apply (Hre [])|]. apply (respells_feed new_line), new_line_feed.
  - destruct (IH ltac:(done)) as (l & Hl & Hr). rewrite Hl. exists (u :: l). split; [done|].
    assert (join [lf; lf] (u :: l) ++ [lf] = u ++ (value new_line ++ value new_line ++ join [lf; lf] l ++ [lf])) as ->.
    { destruct l; [|cbn; by rewrite <- !(assoc_L (++))]. exfalso. cbn [map fmt_all] in Hl. destruct (fmt_of format (Some i2)) as [?| |]; [|done..]. cbn in Hl. by destruct (fmt_all format (map Some is)). }
    change (spaced (us :: us2 :: uss)) with (us ++ ([new_line] ++ [new_line] ++ spaced (us2 :: uss))).
    apply respells_app; [apply Hre|]. do 2 (apply respells_app; [apply respells_feed, new_line_feed|]). done.
Qed.
Lemma pieces_lined is uss : Forall2 piece is uss →
  ∃ n, lined (spaced uss) (decls_of is) n ∧ (is ≠ [] → printed_all is + 2 * length is = printed_all (decls_of is) + n + 1).
Proof.
  assert (∀ i us W ds n, piece i us → match W with c' :: _ => feed c' | [] => True end → lined W ds n →
    lined (us ++ new_line :: W) (match ptr_of FDecl i with Some d => d :: ds | None => ds end)
      (match ptr_of FDecl i with Some _ => S n | None => printed i + S n end)) as Hone.
  { clear. intros i us W ds n [(d & -> & _ & Hd)|(-> & Hfi & Hf)] HW Hl.
    - apply lined_decl; [done|apply new_line_feed|done|done].
    - unfold printed. rewrite Hfi, feed_length by done. apply feeds_app; [done|]. by apply lined_feed; [apply new_line_feed|]. }
  assert (∀ i us is n, piece i us → printed_all (i :: is) = printed i + printed_all is ∧
    printed_all (decls_of (i :: is)) + (match ptr_of FDecl i with Some _ => n | None => printed i + n end) = printed i + printed_all (decls_of is) + n) as Hsum.
  { clear. intros i us is n Hi. split; [done|]. unfold decls_of. cbn [omap list_omap]. destruct Hi as [(d & E & Hfd & Hd)|(E & Hfi & Hf)]; rewrite E.
    - cbn [printed_all]. assert (printed d = printed i) as <- by (unfold printed; by rewrite Hfd). lia.
    - lia. }
  induction 1 as [|i us is uss Hi H IH]; [exists 0; split; [constructor|done]|]. destruct IH as (n & Hl & Hc).
  destruct H as [|i2 us2 is uss Hi2 H].
  - eexists. split; [apply (Hone i us [] [] 0); [done|done|constructor]|]. intros _. pose proof (Hsum i us [] 1 Hi) as [E1 E2].
    change (decls_of [i]) with (match ptr_of FDecl i with Some d => d :: [] | None => [] end) in *. rewrite E1. cbn [length]. cbn in E2 |- *. lia.
  - eexists. change (spaced (us :: us2 :: uss)) with (us ++ new_line :: new_line :: spaced (us2 :: uss)). split.
    + apply Hone; [done|apply new_line_feed|]. apply lined_feed; [apply new_line_feed|exact Hl].
    + intros _. specialize (Hc ltac:(done)). pose proof (Hsum i us (i2 :: is) (S (S n)) Hi) as [E1 E2]. rewrite E1. cbn [length] in *. unfold decls_of in *.
      rewrite <- (Nat.add_comm 1). lia.
Qed.

(** ** Files *)
Lemma parse_tokens_of s r : parse s = Ok (Some r) →
  ∃ ts st, lex "" s = Ok (Lexed ts st) ∧ parser (advance (start_pos "") s) KAST (elide ts) = PNode r [].
Proof.
  unfold parse. destruct (lex "" s) as [[ts st|]| |] eqn:E; try done. rewrite parse_tokens_parser. intros H. exists ts, st. split; [done|].
  destruct (parser _ KAST (elide ts)) as [t [|]| | | |]; try done. by injection H as ->.
Qed.
Lemma declarations_of r is : list_of FItems r = map Some is → declarations r = decls_of is.
Proof. unfold declarations, decls_of. intros ->. induction is as [|i is IH]; [done|]. cbn. destruct (ptr_of FDecl i); by rewrite IH. Qed.
Lemma lined_file u W ds n : lined W ds n → respells W u [] →
  ∃ r is, parse u = Ok (Some r) ∧ only_declarations r ∧ map unplaced (declarations r) = map unplaced ds ∧ list_of FItems r = map Some is ∧
    printed_all is + length ds = printed_all ds + n ∧ 2 * length ds <= length is + 1 ∧ (W ≠ [] → is ≠ []).
Proof.
  intros Hl Hre. destruct (Hre (start_pos "")) as (ts & p & Hlx & Hal). rewrite app_nil_r in Hlx. apply lexed_to in Hlx.
  set (eof := advance (start_pos "") u).
  destruct (lined_parse eof (length W) W ds n (elide ts) ltac:(lia) Hl Hal) as (is & H1 & H2 & H3 & H4 & H5 & _).
  destruct (chain_file eof _ _ H1) as (r & Hr & Hi). exists r, is. split_and!; try done.
  - unfold parse. rewrite Hlx, parse_tokens_parser. fold eof. by rewrite Hr.
  - intros o Ho. rewrite Hi in Ho. apply elem_of_list_fmap in Ho as (i & -> & Hin). exists i. split; [done|]. rewrite Forall_forall in H2. by apply H2.
  - by rewrite (declarations_of _ _ Hi).
  - intros HW ->. inversion H1 as [E|]. destruct Hal; [done|]. done.
Qed.
Lemma file_pieces s r : parse s = Ok (Some r) → only_declarations r → Forall plain (declarations r) →
  ∃ is uss, list_of FItems r = map Some is ∧ kind_of r = KAST ∧ Forall2 piece is uss.
Proof.
  intros Hp Ho Hpl. destruct (parse_tokens_of _ _ Hp) as (ts & st & Hl & Hr). destruct (file_chain _ _ _ Hr) as (is & Hc & Hi & Hk).
  destruct (lex_lexes _ _ _ _ _ _ Hl) as (p1 & Hlx). fold root in Hlx.
  destruct (chain_pieces _ _ _ Hc) as (uss & H).
  - by eexists _, _, _, _, _, _.
  - apply elide_regular. exact (lexed_regular _ _ _ Hl).
  - apply Forall_forall. intros i Hin. destruct (Ho (Some i)) as (j & [= <-] & Hj); [|done]. rewrite Hi. by apply elem_of_list_fmap_1.
  - by rewrite <- (declarations_of _ _ Hi).
  - by exists is, uss.
Qed.
Lemma file_length r is u : list_of FItems r = map Some is → kind_of r = KAST → format r = Ok u → length u = printed_all is + 2 * length is - 1.
Proof.
  intros Hi Hk. rewrite format_unfold. unfold format_node. rewrite Hk, Hi. destruct is as [|i is]; [by intros [= <-]|].
  rewrite decide_False by done. destruct (fmt_all format (map Some (i :: is))) as [l| |] eqn:E; [|done..]. cbn. intros [= <-].
  assert (∀ is l, fmt_all format (map Some is) = Ok l → length l = length is ∧ (is ≠ [] → length (join [lf; lf] l) + 2 = printed_all is + 2 * length is)) as H.
  { clear. induction is as [|i is IH]; intros l; cbn [map fmt_all]; [by intros [= <-]|]. cbn [fmt_of].
    destruct (format i) as [u| |] eqn:Ei; [|done..]. cbn. destruct (fmt_all format (map Some is)) as [l'| |]; [|done..]. cbn. intros [= <-].
    destruct (IH _ eq_refl) as [IH1 IH2]. split; [cbn; by rewrite IH1|]. intros _. cbn [printed_all length]. unfold printed at 1. rewrite Ei.
    destruct l' as [|v l'], is as [|i2 is]; try done; [cbn; lia|]. specialize (IH2 ltac:(done)).
    change (join [lf; lf] (u :: v :: l')) with (u ++ [lf; lf] ++ join [lf; lf] (v :: l')). rewrite !app_length. cbn [length] in *. lia. }
  destruct (H _ _ E) as [_ H2]. specialize (H2 ltac:(done)). rewrite app_length. cbn [length printed_all] in *. lia.
Qed.
(** All of it. *)
Lemma format_twice s r :
  parse s = Ok (Some r) → only_declarations r → Forall plain (declarations r) →
  ∃ u r', format r = Ok u ∧ parse u = Ok (Some r') ∧ only_declarations r' ∧
    map unplaced (declarations r') = map unplaced (declarations r) ∧
    ∀ v, format r' = Ok v → length u + 3 * (length (declarations r) - 1) <= length v.
Proof.
  intros Hp Ho Hpl. destruct (file_pieces _ _ Hp Ho Hpl) as (is & uss & Hi & Hk & H). rewrite (declarations_of _ _ Hi).
  pose proof (pieces_lined _ _ H) as (n & Hl & Hc).
  destruct (decide (is = [])) as [->|Hn].
  - apply Forall2_nil_inv_l in H as ->. destruct (lined_file [] [] [] n Hl (respells_nil [])) as (r' & is' & H1 & H2 & H3 & _).
    exists [], r'. split_and!; try done; [|cbn; lia]. rewrite format_unfold. unfold format_node. by rewrite Hk, Hi.
  - destruct (pieces_text _ _ H Hn) as (l & Hf & Hre). destruct (lined_file _ _ _ _ Hl Hre) as (r' & is' & H1 & H2 & H3 & H4 & H5 & H6 & H7).
    assert (format r = Ok (join [lf; lf] l ++ [lf])) as Hr.
    { rewrite format_unfold. unfold format_node. rewrite Hk, Hi. rewrite decide_False by (by destruct is). by rewrite Hf. }
    exists (join [lf; lf] l ++ [lf]), r'. split_and!; try done. intros v Hv.
    rewrite (file_length _ _ _ Hi Hk Hr). rewrite (file_length _ _ _ H4 (proj1 (parsed_built _ _ H1)) Hv). specialize (Hc Hn).
    assert (is' ≠ []) as Hn' by (apply H7; destruct H as [|i us is [|us2 uss] Hi' H]; [done|cbn; by destruct us|cbn; by destruct us]).
    destruct is' as [|i' is']; [done|]. cbn [length] in *. lia.
Qed.
(*P C71_declarations_survive *)
(** A file of declarations that are written plainly and of empty lines is formatted, the
    formatted text is parsed, and the declarations in it are those of the file, positions aside. *)
Lemma p71 s r :
  parse s = Ok (Some r) → only_declarations r → Forall plain (declarations r) →
  ∃ u r', format r = Ok u ∧ parse u = Ok (Some r') ∧ only_declarations r' ∧
    map unplaced (declarations r') = map unplaced (declarations r).
Proof. intros H1 H2 H3. destruct (format_twice _ _ H1 H2 H3) as (u & r' & ? & ? & ? & ? & _). by exists u, r'. Qed.
(*P C71_no_two_are_confused *)
(** Files with different declarations are formatted differently. *)
Lemma p71_injective s r s' r' u :
  parse s = Ok (Some r) → only_declarations r → Forall plain (declarations r) → parse s' = Ok (Some r') → only_declarations r' → Forall plain (declarations r') →
  format r = Ok u → format r' = Ok u → map unplaced (declarations r) = map unplaced (declarations r').
Proof.
  intros H1 H2 H3 H1' H2' H3' E E'. destruct (p71 _ _ H1 H2 H3) as (v & t & F & Hp & _ & Ht). destruct (p71 _ _ H1' H2' H3') as (v' & t' & F' & Hp' & _ & Ht').
  rewrite E in F. injection F as <-. rewrite E' in F'. injection F' as <-. rewrite Hp in Hp'. injection Hp' as <-. by rewrite <- Ht, Ht'.
Qed.
Lemma plain_same l l' : map unplaced l = map unplaced l' → Forall plain l' → Forall plain l.
Proof.
  revert l'. induction l as [|d l IH]; intros [|d' l'] E; try done.
  injection E as E1 E2. intros [Hd Hl]%Forall_cons. constructor; [|by eapply IH]. apply bare_plain. rewrite E1. by apply bare_plain.
Qed.
(*P C71_again_and_again *)
(** So it is however often the file is formatted, and it can always be formatted once more. *)
Lemma p71_again s r u :
  parse s = Ok (Some r) → only_declarations r → Forall plain (declarations r) → rtc formats_to s u →
  ∃ r' v, parse u = Ok (Some r') ∧ only_declarations r' ∧ map unplaced (declarations r') = map unplaced (declarations r) ∧ format r' = Ok v.
Proof.
  intros H1 H2 H3 H. revert r H1 H2 H3. induction H as [s|s t u (r0 & Hr0 & Ht) _ IH]; intros r H1 H2 H3.
  - destruct (p71 _ _ H1 H2 H3) as (v & _ & Hv & _). by exists r, v.
  - rewrite H1 in Hr0. injection Hr0 as <-. destruct (p71 _ _ H1 H2 H3) as (v & r' & Hv & G1 & G2 & G3). rewrite Ht in Hv. injection Hv as <-.
    assert (Forall plain (declarations r')) as G4.
    { by eapply plain_same. }
    destruct (IH r' G1 G2 G4) as (r2 & w & ? & ? & E & ?). exists r2, w. split_and!; try done. by rewrite E.
Qed.
(*P C73_blank_lines_pile_up *)
(** Formatting the formatted text adds at least three characters (in fact line feeds)
    for every declaration after the first one. *)
Lemma p73_grows s r u v :
  parse s = Ok (Some r) → only_declarations r → Forall plain (declarations r) → formats_to s u → formats_to u v →
  length u + 3 * (length (declarations r) - 1) <= length v.
Proof.
  intros H1 H2 H3 (r1 & E1 & Hu) (r2 & E2 & Hv). rewrite H1 in E1. injection E1 as <-.
  destruct (format_twice _ _ H1 H2 H3) as (u' & r' & F1 & F2 & _ & _ & F). rewrite Hu in F1. injection F1 as <-. rewrite E2 in F2. injection F2 as <-. by apply F.
Qed.
(*P C73_never_settles *)
(** However often such a file with two declarations is formatted, formatting it once more
    changes it. *)
Lemma p73_never s r u :
  parse s = Ok (Some r) → only_declarations r → Forall plain (declarations r) → 2 <= length (declarations r) →
  rtc formats_to s u → ¬ formats_to u u.
Proof.
  intros H1 H2 H3 Hn H Hu. destruct (p71_again _ _ _ H1 H2 H3 H) as (r' & v & G1 & G2 & G3 & G4).
  assert (Forall plain (declarations r')) as G5.
  { by eapply plain_same. }
  pose proof (p73_grows u r' u u G1 G2 G5 Hu Hu) as Hg. apply (f_equal length) in G3. rewrite !map_length in G3. lia.
Qed.
(*P C73_formatting_twice_refuted *)
(** Formatting the formatted text can give another text. *)
Lemma p73_refuted : ∃ s u v, formats_to s u ∧ formats_to u v ∧ u ≠ v.
Proof.
  set (s := chars "val a" ++ [lf] ++ chars "val b" ++ [lf]). set (u := chars "val a" ++ [lf; lf] ++ chars "val b" ++ [lf]).
  set (v := chars "val a" ++ [lf; lf; lf; lf; lf] ++ chars "val b" ++ [lf]). exists s, u, v.
  assert (∀ s u, match parse s with Ok (Some r) => match format r with Ok u' => bool_decide (u' = u) | _ => false end | _ => false end = true → formats_to s u) as H.
  { intros s0 u0 H. destruct (parse s0) as [[r|]| |] eqn:E; try done. destruct (format r) eqn:F; try done. apply bool_decide_eq_true in H as ->. by exists r. }
  split_and!; [apply H; vm_compute; reflexivity..|done].
Qed.
(*P C74_final_newline_refuted *)
(** A text can be a file, and the same text with a newline at the end no file: the newline
    makes the end of a shift to the left the start of a heredoc. *)
Lemma p74_refuted : ∃ s r, parse s = Ok (Some r) ∧ Forall plain (declarations r) ∧ parse (s ++ [lf]) = Ok None.
Proof.
  set (s := chars "val x = a <<b"). exists s.
  assert (match parse s with Ok (Some r) => forallb (λ d, forallb (λ m, bool_decide (kind_of m ∉ [KValue; KStringFragment]) &&
    forallb (λ f, is_nil (ptr_of f m)) [FIf; FSwitch; FSubExpression; FPost]) (nodes d)) (declarations r) | _ => false end = true) as H by (vm_compute; reflexivity).
  destruct (parse s) as [[r|]| |]; try done. exists r. split_and!; [done| |vm_compute; reflexivity].
  apply Forall_forall. intros d Hd m Hm. rewrite forallb_forall in H. apply elem_of_list_In in Hd. specialize (H d Hd). rewrite forallb_forall in H.
  apply elem_of_list_In in Hm. specialize (H m Hm). apply andb_true_iff in H as [H1%bool_decide_eq_true H2]. rewrite forallb_forall in H2.
  assert (∀ f, f ∈ [FIf; FSwitch; FSubExpression; FPost] → ptr_of f m = None) as Hno.
  { intros f Hf. apply elem_of_list_In in Hf. specialize (H2 f Hf). by destruct (ptr_of f m). }
  unfold plain_node. destruct (kind_of m); try done.
  - destruct H1. lit_in.
  - destruct H1. lit_in.
  - split; apply Hno; lit_in.
  - rewrite (Hno FPost) by lit_in. done.
  - rewrite (Hno FPost), (Hno FSubExpression) by lit_in. done.
Qed.
