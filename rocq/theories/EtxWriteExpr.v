(** * Writing trees down: expressions *)
From stdpp Require Import base list option strings.
From Coq Require Import Ascii Lia.
From Verif Require Import GoBase EtxAst EtxHeap EtxHeapSpec EtxText EtxLex EtxLexSpec EtxLexFacts EtxLexOps EtxLexIdent EtxLexString EtxUtil EtxNumProofs EtxGram EtxParse EtxParseBase
  EtxParseSpec EtxParseParts EtxParseStore EtxParseTyped EtxParseFirst EtxParseClean EtxSettledSpec EtxSettled EtxSettledExample
  EtxFormat EtxFormatSpec EtxFormatTotal EtxReprintSpec EtxReprint EtxOrder EtxClone EtxWriteSpec EtxCode EtxSays EtxWriteBase EtxWriteLeaf.

(** ** Operands *)
Definition index_text (oi : option ast) : res text := match oi with Some e => s ← format e; Ok (chars "[" ++ s ++ chars "]") | None => Ok [] end.
Definition post_text (op : option ast) : res text := match op with Some e => s ← format e; Ok (chars "." ++ s) | None => Ok [] end.
Lemma index_part oi :
  match oi with Some c => fine KExpr c | None => True end →
  ∃ u W l, index_text oi = Ok u ∧ (∀ z, legible z u W) ∧
    (∀ o, avoids [ALit "["] o → says (GOpt (GSeq [GLit "["; GSub FIndex KExpr; GLit "]"])) W o
      (match oi with Some e => [(FIndex, Struct (gist e))] | None => [] end) l) ∧
    if oi then (∃ V, u = "["%char :: V) ∧ ∃ V, W = (TOpLBracket, chars "[") :: V else u = [] ∧ W = [].
Proof.
  intros Hi. destruct oi as [e|].
  - pose proof (fine_kind _ _ Hi) as Hke. apply fine_told in Hi as (ue & We & ge & He); [|done].
    eexists (chars "[" ++ ue ++ chars "]"), ((TOpLBracket, chars "[") :: We ++ [(TOpRBracket, chars "]")]), _.
    unfold index_text. rewrite (told_format _ _ _ _ He). split; [done|]. split; [|split; [|by split; eexists]].
    + intros z. leg_o. leg_c He Hke. leg_o.
    + intros o Ho. apply y_opt, y_seq; [|done]. apply y_lit_then.
      apply (y_cons _ _ We _ _ [_] []); [eapply told_says; [done|done|quiet|quiet]|]. apply y_lit_then, y_nil.
  - exists [], [], []. split; [done|]. split; [constructor|]. split; [|done]. intros o Ho. apply y_none. shuts.
Qed.
Lemma post_part op :
  match op with Some c => fine KExprPostfix c ∧ numeric c = false | None => True end →
  ∃ u W l, post_text op = Ok u ∧ (∀ z, upto soft z → legible z u W) ∧
    (∀ o, avoids (if op then member else [ALit "."]) o → says (GOpt (GSeq [GLit "."; GSub FPost KExprPostfix])) W o
      (match op with Some e => [(FPost, Struct (gist e))] | None => [] end) l) ∧
    if op then (∃ V, u = "."%char :: V) ∧ ∃ V, W = (TDot, chars ".") :: V else u = [] ∧ W = [].
Proof.
  intros Hi. destruct op as [e|].
  - destruct Hi as [Hi Hnum]. pose proof (fine_kind _ _ Hi) as Hke. apply fine_told in Hi as (ue & We & ge & He); [|done].
    pose proof (told_front _ _ _ _ He) as Hf. unfold front in Hf. rewrite Hke, Hnum in Hf.
    eexists (chars "." ++ ue), ((TDot, chars ".") :: We), _.
    unfold post_text. rewrite (told_format _ _ _ _ He). split; [done|]. split; [|split; [|by split; eexists]].
    + intros z Hz. leg_o. leg_c He Hke.
    + intros o Ho. apply y_opt, y_seq; [|done]. apply y_lit_then, y_one. by eapply told_last.
  - exists [], [], []. split; [done|]. split; [constructor|]. split; [|done]. intros o Ho. apply y_none. shuts.
Qed.
Lemma w_postfix t : kind_of t = KExprPostfix → writable t → (∀ c, size c < size t → writable c → good c) → claim t.
Proof.
  intros Hk Hw IH. shape t Hk Hw IH. intros (x & -> & Hx) (oi & -> & Hi) (op & -> & Hp).
  pose proof (fine_kind _ _ Hx) as Hkx. apply fine_told in Hx as (ux & Wx & g & Hx); [|done].
  cbn [writable_node kind_of] in Hn. destruct Hn as [Hn1 Hn2].
  set (t := T p KExprPostfix _) in *.
  assert (ptr_of FIndex t = oi) as E1 by (unfold t; by acc). assert (ptr_of FPost t = op) as E2 by (unfold t; by acc).
  assert (emb_of FValue t = Some x) as E3 by (unfold t; by acc). unfold has, named in Hn1, Hn2. rewrite ?E1, ?E2, ?E3 in Hn1, Hn2.
  assert (numeric t = numeric x) as Hnt by (unfold numeric; rewrite Hkx; cbn [kind_of t]; by rewrite E3).
  rewrite Hnt in Hn1.
  assert (front t = front x) as Hf by (unfold front; rewrite Hkx, Hnt; done).
  assert (begins (kind_of t) = begins (kind_of x)) as Hb by (by rewrite Hkx).
  pose proof (told_front _ _ _ _ Hx) as Hxf. pose proof (told_opens _ _ _ _ Hx) as Hxo.
  destruct (index_part oi Hi) as (ui & Wi & li & Fi & Li & Yi & Ni).
  destruct (post_part op) as (up & Wp & lp & Fp & Lp & Yp & Np).
  { destruct op as [c|]; [|done]. split; [done|]. by apply (Hn1 c). }
  exists (ux ++ ui ++ up), (Wx ++ Wi ++ Wp), false. split; [|split; [|split; [|split; [|split]]]].
  - rewrite format_unfold. cbn [format_node kind_of t]. fold t. rewrite E1, E2, E3. cbn [fmt_of].
    change (match oi with Some e => s ← format e; Ok (chars "[" ++ s ++ chars "]") | None => Ok [] end) with (index_text oi).
    change (match op with Some e => s ← format e; Ok (chars "." ++ s) | None => Ok [] end) with (post_text op).
    by rewrite (told_format _ _ _ _ Hx), Fi, Fp.
  - intros z Hz. cbn in Hz. apply leg_app; [|apply leg_app; [apply Li|by apply Lp]]. apply (told_leg _ _ _ _ _ Hx). unfold after. rewrite Hkx.
    destruct oi as [i|]; [destruct Ni as [[V ->] _]; by destruct (numeric x || _)|destruct Ni as [-> ->]].
    destruct op as [c|].
    + destruct Np as [[V ->] _]. destruct (Hn1 c E2) as [_ H]. by destruct (H eq_refl) as [-> ->].
    + destruct Np as [-> ->]. cbn. destruct (numeric x || _); edge.
  - rewrite Hf. by apply starts_app.
  - rewrite Hb. by apply opens_app.
  - done.
  - intros n o [-> Ho]. change (tails t) with member in Ho. cbn [replicate]. rewrite app_nil_r. eapply y_node_of; [|done|].
    + cbn [grammar kind_of t]. apply y_seq; [|intros [? _]%app_nil; by apply (opens_nonempty _ _ Hxo)].
      eapply (y_cons _ _ Wx (Wi ++ Wp)).
      { eapply told_last_at; [done|done|done|].
        unfold tails. rewrite Hkx. destruct oi as [i|].
        - destruct Ni as [_ [V ->]]. unfold has. rewrite (Hn2 eq_refl x eq_refl). destruct (named_primary x); quiet.
        - destruct Ni as [-> ->]. destruct op as [c|].
          + destruct Np as [_ [V ->]]. destruct (Hn1 c E2) as [_ H]. destruct (H eq_refl) as [_ ->]. quiet.
          + destruct Np as [-> ->]. destruct (named_primary x); [destruct (has FPost x)|]; quiet.  }
      eapply (y_cons _ _ Wi Wp); [apply Yi; destruct op; [destruct Np as [_ [V ->]]|destruct Np as [-> ->]]; quiet|].
      apply y_one, Yp; destruct op; quiet.
    + unfold t. fill_in. destruct oi, op; caps; cbn -[gist]; rewrite ?gist_gist; done.
Qed.

(** ** Lists of things with commas *)
(** Each thing is followed by a comma or by what follows the list. *)
Definition comma : lexeme := (TOpComma, chars ",").
Fixpoint commas (l : list (list lexeme)) : list lexeme := match l with [] => [] | [W] => W | W :: l => W ++ comma :: commas l end.
Inductive tell_all (k : kind) : list ast → list text → list (list lexeme) → Prop :=
| tell_nil : tell_all k [] [] []
| tell_cons c cs u us W Ws g : kind_of c = k → told c u W g → tell_all k cs us Ws → tell_all k (c :: cs) (u :: us) (W :: Ws).
Lemma tell_fine k cs : claim_kind k = true → Forall (fine k) cs → ∃ us Ws, tell_all k cs us Ws.
Proof.
  intros Hk. induction 1 as [|c cs Hc _ (us & Ws & IH)]; [eexists [], []; constructor|].
  pose proof (fine_kind _ _ Hc) as E. apply fine_told in Hc as (u & W & g & Hc); [|done]. exists (u :: us), (W :: Ws). by econstructor.
Qed.
Lemma tell_format k cs us Ws : tell_all k cs us Ws → fmt_all format (map Some cs) = Ok us.
Proof.
  induction 1 as [|c cs u us W Ws g E Hc _ IH]; [done|]. cbn [map fmt_all fmt_of]. by rewrite (told_format _ _ _ _ Hc), IH.
Qed.
Definition soft_kind (k : kind) : bool :=
  match k with KExpr | KParameterType | KFuncParameter | KExprLogicalOr => true | _ => false end.
Lemma soft_after k c : soft_kind k = true → kind_of c = k → after c = soft ∧ front c = lead.
Proof. intros Hk <-. unfold after, front. by destruct (kind_of c). Qed.
Lemma tell_leg k cs us Ws z : soft_kind k = true → tell_all k cs us Ws → upto soft z → legible z (join (chars ", ") us) (commas Ws).
Proof.
  intros Hk H Hz. induction H as [|c cs u us W Ws g E Hc H IH]; [constructor|].
  destruct (soft_after k c Hk E) as [Ea Ef]. 
  assert (∀ z, upto soft z → legible z u W) as HL' by (intros z' ?; apply (told_leg _ _ _ _ _ Hc); by rewrite Ea).
  destruct H as [|c' cs u' us W' Ws g' E' Hc' H].
  - by apply HL'.
  - change (join (chars ", ") (u :: u' :: us)) with (u ++ chars "," ++ chars " " ++ join (chars ", ") (u' :: us)).
    change (commas (W :: W' :: Ws)) with (W ++ comma :: commas (W' :: Ws)). apply leg_app; [by apply HL'|].
    leg_o. apply leg_space; [|done]. destruct (soft_after k c' Hk E') as [_ Ef'].
    pose proof (told_front _ _ _ _ Hc') as Hf. rewrite Ef' in Hf.
    destruct us as [|? us]; cbn [join]; [edge|]. rewrite <- !app_assoc. edge.
Qed.
Lemma tell_starts k cs us Ws z P :
  soft_kind k = true → tell_all k cs us Ws → forallb (λ c, implb (lead c) (P c)) all_ascii = true → upto P z → upto P (join (chars ", ") us ++ z).
Proof.
  intros Hk H HP Hz. destruct H as [|c cs u us W Ws g E Hc H]; [done|]. destruct (soft_after k c Hk E) as [_ Ef].
  pose proof (told_front _ _ _ _ Hc) as Hf. rewrite Ef in Hf. destruct us as [|? us]; cbn [join]; rewrite <- ?app_assoc; by eapply starts_upto.
Qed.
Lemma say_commas f k c cs us Ws o :
  tell_all k (c :: cs) us Ws → avoids (tail k) (Some comma) → avoids (ALit "," :: tail k) o → avoids rows_end o →
  ∃ m, says_all (g_list f k) (commas Ws) o (map (λ t, (f, Struct t)) (map gist (c :: cs))) m.
Proof.
  intros H Hc Ho Hr. assert (∃ W V m l, commas Ws = W ++ V ∧ says (GSub f k) W (follow V o) [(f, Struct (gist c))] l ∧ W ≠ [] ∧
    says_many (GSeq [GLit ","; GSub f k]) V o (map (λ t, (f, Struct t)) (map gist cs)) m) as (W & V & m & l & -> & H1 & _ & H2).
  2:{ eexists. unfold g_list. eapply (y_cons _ _ W V _ [_]); [exact H1|]. by apply y_one, y_many. }
  remember (c :: cs) as l eqn:El. revert c cs El. induction H as [|c cs u us W Ws g E Hcl H IH]; intros ?? [= <- <-].
  assert (W ≠ []) as Hne by (by eapply opens_nonempty, told_opens).
  destruct H as [|c' cs u' us W' Ws g' E' Hc' H].
  - exists W, [], [], [[]]. cbn [commas]. rewrite app_nil_r. split; [done|]. split; [|split; [done|]].
    + eapply told_says; [done|done| |done]. eapply avoids_mono; [apply within_cons|exact Ho].
    + apply y_end. eapply avoids_shut; [|exact Ho]. by vm_compute.
  - destruct (IH c' cs eq_refl) as (W1 & V1 & m & l & E1 & H1 & Hn & H2).
    eexists W, (comma :: commas (W' :: Ws)), _, [[]]. split; [done|]. split; [|split; [done|]].
    + cbn [follow]. eapply told_says; [done|done|done|quiet].
    + rewrite E1. eapply (y_more _ (comma :: W1) V1 _ [_] _ _ m); [|done|exact H2]. apply y_seq; [|done]. apply y_lit_then. by apply y_one.
Qed.

Lemma w_params t :
  kind_of t = KExprInvocationParams → writable t → (∀ c, size c < size t → writable c → good c) → params_claim t.
Proof.
  intros Hk Hw IH. shape t Hk Hw IH. intros (o' & cs & -> & Ho & Hcs). destruct (tell_fine KExpr cs) as (us & Ws & H); [done|done|].
  exists (join (chars ", ") us), (commas Ws). split; [|split].
  - rewrite format_unfold. cbn [format_node kind_of]. acc. by rewrite Ho, (tell_format _ _ _ _ H).
  - intros z. eapply tell_leg; [|exact H|]; done.
  - assert (∃ m, says (GOpt (GSeq (g_list FValues KExpr))) (commas Ws) (Some rparen) (map (λ t, (FValues, Struct t)) (map gist cs)) m) as (m & Hm).
    { destruct cs as [|c cs].
      - inversion H; subst. eexists. apply y_none. shuts.
      - destruct (say_commas FValues KExpr c cs us Ws (Some rparen)) as (m & Hm); [done|quiet|quiet|quiet|]. exists m.
        apply y_opt, y_seq; [done|]. inversion H; subst. intros E. destruct Ws0; cbn in E; [|by destruct (app_nil W (comma :: commas (l :: Ws0))) as [[_ ?] _]].
        subst W. by apply (opens_nonempty _ _ (told_opens _ _ _ _ H3)). }
    eapply y_node_of; [exact Hm|done|]. fill_in. by rewrite list_is, keep_gist, gist_list_of, Ho.
Qed.

(** ** Primary expressions *)
Definition calls (us : list text) : text := concat (map (λ a, chars "(" ++ a ++ chars ")") us).
Definition call_lexemes (Ws : list (list lexeme)) : list lexeme := flat_map (λ W, (TOpLParen, chars "(") :: W ++ [rparen]) Ws.
Lemma monads_part cs :
  Forall (fine KExprInvocationParams) cs →
  ∃ us Ws l, fmt_all format (map Some cs) = Ok us ∧ (∀ z, legible z (calls us) (call_lexemes Ws)) ∧
    (∀ o, avoids [ALit "("] o → says (GOpt (GSome (GSeq [GLit "("; GSub FMonads KExprInvocationParams; GLit ")"]))) (call_lexemes Ws) o
      (map (λ t, (FMonads, Struct t)) (map gist cs)) l) ∧
    match cs with [] => us = [] ∧ Ws = [] | _ => (∃ V, calls us = "("%char :: V) ∧ ∃ V, call_lexemes Ws = (TOpLParen, chars "(") :: V end.
Proof.
  intros H. assert (∃ us Ws l, fmt_all format (map Some cs) = Ok us ∧ (∀ z, legible z (calls us) (call_lexemes Ws)) ∧
    (∀ o, avoids [ALit "("] o → says_many (GSeq [GLit "("; GSub FMonads KExprInvocationParams; GLit ")"]) (call_lexemes Ws) o
      (map (λ t, (FMonads, Struct t)) (map gist cs)) l) ∧ length us = length cs ∧ length Ws = length cs) as (us & Ws & l & H1 & H2 & H3 & H4 & H5).
  { induction H as [|c cs Hc _ (us & Ws & l & H1 & H2 & H3 & H4 & H5)].
    - exists [], [], []. split; [done|]. split; [constructor|]. split; [|done]. intros o Ho. apply y_end. shuts.
    - destruct Hc as (E & _ & Hg). unfold good in Hg. rewrite E in Hg. destruct Hg as (u & W & F & L & Y). 
      eexists (u :: us), (W :: Ws), _. split; [cbn [map fmt_all fmt_of]; by rewrite F, H1|]. split; [|split; [|by cbn; rewrite H4, H5]].
      + intros z. change (calls (u :: us)) with ((chars "(" ++ u ++ chars ")") ++ calls us). rewrite <- !app_assoc.
        change (call_lexemes (W :: Ws)) with ((TOpLParen, chars "(") :: (W ++ [rparen]) ++ call_lexemes Ws). rewrite <- app_assoc.
        leg_o. apply leg_app; [rewrite <- app_assoc; apply L|]. leg_o. apply H2.
      + intros o Ho. change (call_lexemes (W :: Ws)) with (((TOpLParen, chars "(") :: W ++ [rparen]) ++ call_lexemes Ws).
        eapply (y_more _ _ _ _ [_]); [|done|by apply H3]. apply y_seq; [|done]. apply y_lit_then.
        eapply (y_cons _ _ W [rparen] _ [_] []); [by apply y_sub|]. apply y_lit_then, y_nil. }
  destruct cs as [|c cs].
  - destruct us; [|done]. destruct Ws; [|done]. exists [], [], []. split; [done|]. split; [done|]. split; [|done].
    intros o Ho. apply y_none. shuts.
  - destruct us as [|u us]; [done|]. destruct Ws as [|W Ws]; [done|]. exists (u :: us), (W :: Ws), l. split; [done|]. split; [done|].
    split; [|by split; eexists]. intros o Ho. apply y_opt, y_some_many; [by apply H3|done].
Qed.
Lemma w_primary t : kind_of t = KExprPrimary → writable t → (∀ c, size c < size t → writable c → good c) → claim t.
Proof.
  intros Hk Hw IH. shape t Hk Hw IH.
  intros (o1 & -> & _) (ov & -> & Hv) (oi & -> & Hi) (om & cs & -> & Hom & Hcs) (op & -> & Hp).
  cbn [writable_node kind_of] in Hn. destruct Hn as (Hn1 & Hn2 & Hn3 & Hn4). unfold just_one in Hn1. rewrite !set_in_cons in Hn1.
  rewrite none_one in Hn2. unfold has in Hn3. acc_in Hn1. acc_in Hn2. acc_in Hn3. destruct Hn2 as [-> _]. rewrite Hom in Hn3.
  assert (∀ c, op = Some c → numeric c = false ∧ cs ≠ []) as Hn4'.
  { intros c Hc. specialize (Hn4 c). acc_in Hn4. destruct (Hn4 Hc) as [? H]. split; [done|]. rewrite Hom in H. by destruct cs. }
  clear Hn4. unfold claim, told, after, front, tails. cbn [kind_of]. unfold numeric, number_primary, named_primary, has. cbn [kind_of]. acc.
  destruct ov as [v|].
  - destruct oi; [done|]. cbn [is_nil negb andb]. rewrite ?orb_false_r. destruct (Hn3 eq_refl) as [Hm Hpo]. destruct op; [done|]. apply map_eq_nil in Hm as ->.
    pose proof (fine_kind _ _ Hv) as Ev. apply fine_told in Hv as (u & W & g & Hc); [|done].
    pose proof (told_front _ _ _ _ Hc) as Hf. pose proof (told_opens _ _ _ _ Hc) as Ho. unfold front, numeric in Hf. rewrite Ev in Hf, Ho.
    exists u, W, false. split; [|split; [|split; [done|split; [|split; [done|]]]]].
    + rewrite format_unfold. cbn [format_node kind_of]. acc. apply (told_format _ _ _ _ Hc).
    + intros z Hz. apply (told_leg _ _ _ _ _ Hc). unfold after, numeric. rewrite Ev. exact Hz.
    + widen.
    + intros n o [-> _]. cbn [replicate app]. rewrite app_nil_r. eapply y_node_of; [|done|].
      * cbn [grammar kind_of]. apply y_alt_next; [shuts|]. apply y_alt_here. eapply told_last; [done|done|done|quiet].
      * fill_in. rewrite (gist_list_of om), Hom. cbn -[gist]. by rewrite gist_gist.
  - destruct oi as [i|]; [|done]. clear Hn3. pose proof (fine_kind _ _ Hi) as Ei. apply fine_told in Hi as (u & W & g & Hc); [|done].
    pose proof (told_front _ _ _ _ Hc) as Hf. pose proof (told_opens _ _ _ _ Hc) as Ho. unfold front in Hf. rewrite Ei in Hf, Ho.
    destruct (monads_part cs Hcs) as (us & Ws & lm & Fm & Lm & Ym & Nm).
    destruct (post_part op) as (up & Wp & lp & Fp & Lp & Yp & Np).
    { destruct op as [c|]; [|done]. split; [done|]. by apply (Hn4' c). }
    exists (u ++ calls us ++ up), (W ++ call_lexemes Ws ++ Wp), false. cbn [is_nil negb]. split; [|split; [|split; [edge|split; [|split; [done|]]]]].
    + rewrite format_unfold. cbn [format_node kind_of]. acc. rewrite (told_format _ _ _ _ Hc), Hom, Fm.
      change (match op with Some e => s ← format e; Ok (chars "." ++ s) | None => Ok [] end) with (post_text op). by rewrite Fp.
    + intros z Hz. apply leg_app; [|apply leg_app; [apply Lm|]].
      * apply (told_leg _ _ _ _ _ Hc). unfold after. rewrite Ei. destruct cs as [|c cs].
        -- destruct Nm as [-> ->]. destruct op as [c|]; [by destruct (Hn4' c eq_refl)|]. destruct Np as [-> ->]. edge.
        -- destruct Nm as [[V ->] _]. edge.
      * destruct op; [apply Lp; exact Hz|destruct Np as [-> ->]; constructor].
    + apply opens_app. widen.
    + intros n o [-> Ho']. cbn [replicate app]. rewrite app_nil_r. eapply y_node_of; [|done|].
      * cbn [grammar kind_of]. do 2 (apply y_alt_next; [shuts|]). apply y_alt_here, y_seq; [|intros [? _]%app_nil; by apply (opens_nonempty _ _ Ho)].
        eapply (y_cons _ _ W).
        { eapply told_last; [done|done|done|]. destruct cs as [|c cs].
          - destruct Nm as [-> ->]. destruct op as [c|]; [by destruct (Hn4' c eq_refl)|]. destruct Np as [-> ->]. quiet.
          - destruct Nm as [_ [V ->]]. quiet. }
        eapply (y_cons _ _ (call_lexemes Ws)).
        { apply Ym. destruct op as [c|]; [destruct Np as [_ [V ->]]|destruct Np as [-> ->]]; quiet. }
        apply y_one, Yp. destruct op; quiet.
      * fill_in. rewrite (gist_list_of om), Hom. destruct op; caps; rewrite ?app_nil_r; rewrite list_is, keep_gist; cbn -[gist keep]; by rewrite ?gist_gist.
Qed.
