(** * Writing trees down: conditional expressions *)
From stdpp Require Import base list option strings.
From Coq Require Import Ascii Lia.
From Verif Require Import GoBase EtxAst EtxHeap EtxHeapSpec EtxText EtxLex EtxLexSpec EtxLexFacts EtxLexOps EtxLexIdent EtxLexString EtxUtil EtxNumProofs EtxGram EtxParse EtxParseBase
  EtxParseSpec EtxParseParts EtxParseStore EtxParseTyped EtxParseFirst EtxParseClean EtxSettledSpec EtxSettled EtxSettledExample
  EtxFormat EtxFormatSpec EtxFormatTotal EtxReprintSpec EtxReprint EtxOrder EtxClone EtxWriteSpec EtxCode EtxSays EtxWriteBase EtxWriteLeaf EtxWriteExpr EtxWriteOps.

Lemma open_mono g l l' n o : within l l' = true → open_end g l' n o → open_end g l n o.
Proof. intros Hl. unfold open_end. destruct g; [done|]. intros [-> H]. split; [done|]. by eapply avoids_mono. Qed.
Ltac part H E u W g Hf Ho :=
  pose proof (fine_kind _ _ H) as E; apply fine_told in H as (u & W & g & H); [|done];
  pose proof (told_front _ _ _ _ H) as Hf; pose proof (told_opens _ _ _ _ H) as Ho; unfold front in Hf; rewrite E in Hf, Ho.
Lemma w_cond t : kind_of t = KExprConditional → writable t → (∀ c, size c < size t → writable c → good c) → claim t.
Proof.
  intros Hk Hw IH. shape t Hk Hw IH. intros (x & -> & Hx) (b & ->) (oa & -> & Ha) (ob & -> & Hb).
  cbn [writable_node kind_of] in Hn. unfold has in Hn. acc_in Hn. destruct Hn as [Hn1 Hn2]. part Hx Ex u W g Hf Ho.
  destruct b.
  - destruct oa as [a|]; [|done]. destruct ob as [b|]; [|done]. part Ha Ea ua Wa ga Hfa Hoa. part Hb Eb ub Wb gb Hfb Hob.
    exists (u ++ chars " " ++ chars "?" ++ chars " " ++ ua ++ chars " " ++ chars ":" ++ chars " " ++ ub),
      (W ++ (TOpCondition, chars "?") :: Wa ++ (TOpColon, chars ":") :: Wb), gb.
    split; [|split; [|split; [edge|split; [|split; [done|]]]]].
    + rewrite format_unfold. cbn [format_node kind_of]. acc. cbn [fmt_of].
      by rewrite (told_format _ _ _ _ Hx), (told_format _ _ _ _ Ha), (told_format _ _ _ _ Hb).
    + intros z Hz. leg_c Hx Ex. leg_s. leg_o. leg_s. leg_c Ha Ea. leg_s. leg_o. leg_s. leg_c Hb Eb.
    + apply opens_app. widen.
    + intros n o Hq. rewrite <- app_assoc. cbn [app]. rewrite <- app_assoc. cbn [app]. eapply y_node_of; [|done|].
      * cbn [grammar kind_of]. apply y_seq; [|intros [? _]%app_nil; by apply (opens_nonempty _ _ Ho)].
        eapply (y_cons _ _ W); [eapply told_last; [done|done|done|quiet]|]. apply y_one, y_opt, y_seq; [|done].
        eapply (y_cons _ _ [_] _ _ [_]); [by apply (y_cap _ _ _ _ []), y_lit|].
        eapply (y_cons _ _ Wa); [eapply (told_says _ _ a); [done|done|quiet|quiet]|]. apply y_lit_then, y_one.
        eapply (told_over _ _ b); [done|done|]. exact Hq.
      * fill_in. cbn -[gist]. by rewrite !gist_gist.
  - destruct oa; [done|]. destruct ob; [done|]. exists u, W, false. split; [|split; [|split; [edge|split; [|split; [done|]]]]].
    + rewrite format_unfold. cbn [format_node kind_of]. acc. cbn [fmt_of]. by rewrite (told_format _ _ _ _ Hx).
    + intros z Hz. leg_c Hx Ex.
    + widen.
    + intros n o [-> Hq]. cbn [replicate app]. rewrite app_nil_r. eapply y_node_of; [|done|].
      * cbn [grammar kind_of]. apply y_seq; [|by apply (opens_nonempty _ _ Ho)]. rewrite <- (app_nil_r W).
        eapply (y_cons _ _ W); [eapply told_last; [done|done|done|quiet]|]. apply y_one, y_none. shuts.
      * fill_in. cbn -[gist]. by rewrite !gist_gist.
Qed.
Lemma w_expr t : kind_of t = KExpr → writable t → (∀ c, size c < size t → writable c → good c) → claim t.
Proof.
  intros Hk Hw IH. shape t Hk Hw IH. intros (o1 & -> & H1) (o2 & -> & H2) (o3 & -> & H3).
  cbn [writable_node kind_of] in Hn. unfold just_one in Hn. rewrite !set_in_cons in Hn. acc_in Hn.
  destruct o1 as [c|]; [|destruct o2 as [c|]; [|destruct o3 as [c|]; [|done]]].
  - destruct o2, o3; try done. part H1 E u W g Hf Ho. exists u, W, g. split; [|split; [|split; [edge|split; [|split; [done|]]]]].
    + rewrite format_unfold. cbn [format_node kind_of]. acc. apply (told_format _ _ _ _ H1).
    + intros z Hz. leg_c H1 E.
    + widen.
    + intros n o Hq. eapply y_node_of; [|done|].
      * cbn [grammar kind_of]. apply y_alt_here. eapply told_over; [done|done|]. eapply open_mono; [|exact Hq]. done.
      * fill_in. cbn -[gist]. by rewrite !gist_gist.
  - destruct o3; [done|]. part H2 E u W g Hf Ho. exists u, W, g. split; [|split; [|split; [edge|split; [|split; [done|]]]]].
    + rewrite format_unfold. cbn [format_node kind_of]. acc. apply (told_format _ _ _ _ H2).
    + intros z Hz. leg_c H2 E.
    + widen.
    + intros n o Hq. eapply y_node_of; [|done|].
      * cbn [grammar kind_of]. apply y_alt_next; [shuts|]. apply y_alt_here. eapply told_over; [done|done|]. eapply open_mono; [|exact Hq]. done.
      * fill_in. cbn -[gist]. by rewrite !gist_gist.
  - part H3 E u W g Hf Ho. exists u, W, g. split; [|split; [|split; [edge|split; [|split; [done|]]]]].
    + rewrite format_unfold. cbn [format_node kind_of]. acc. apply (told_format _ _ _ _ H3).
    + intros z Hz. leg_c H3 E.
    + widen.
    + intros n o Hq. eapply y_node_of; [|done|].
      * cbn [grammar kind_of]. do 2 (apply y_alt_next; [shuts|]). apply y_alt_here. eapply told_over; [done|done|]. eapply open_mono; [|exact Hq]. done.
      * fill_in. cbn -[gist]. by rewrite !gist_gist.
Qed.

(** ** Braces *)
Lemma y_feeds n o : avoids [ATok TLF] o → says_many (GTok TLF) (lfs n) o [] (replicate n [lf]).
Proof.
  intros Ho. induction n as [|n IH]; [apply y_end; shuts|]. cbn [replicate].
  apply (y_more _ [_] (lfs n) _ [] [] [_] (replicate n [lf])); [apply y_tok|done|done].
Qed.
Lemma y_lfs n o : avoids [ATok TLF] o → ∃ l, says g_lfs (lfs n) o [] l.
Proof.
  intros Ho. destruct n as [|n]; [exists []; apply y_none; shuts|]. eexists. unfold g_lfs. apply y_opt, y_some_many; [by apply y_feeds|done].
Qed.
(** An expression in braces; it may take the line feed that follows. *)
Lemma y_body f c u W g o (opt : bool) :
  kind_of c = KExpr → told c u W g → avoids rows_end o →
  ∃ l, says_all [if opt then GOpt (GSub f KExpr) else GSub f KExpr; g_lfs] (W ++ [LF]) o [(f, Struct (gist c))] l.
Proof.
  intros E Hc Ho. assert (∀ W o ds l, says (GSub f KExpr) W o ds l → says (if opt then GOpt (GSub f KExpr) else GSub f KExpr) W o ds l) as Hopt.
  { intros. destruct opt; [by apply y_opt|done]. }
  destruct g.
  - destruct (y_lfs 0 o) as [l Hl]; [quiet|]. eexists. rewrite <- (app_nil_r (W ++ [LF])). eapply (y_cons _ _ (W ++ [LF]) [] _ [_] []).
    + apply Hopt. eapply (told_over _ _ _ _ _ _ 1); [done|done|quiet].
    + apply y_one, Hl.
  - destruct (y_lfs 1 o) as [l Hl]; [quiet|]. eexists. eapply (y_cons _ _ W [LF] _ [_] []).
    + apply Hopt. eapply told_over in Hc; [|done|]. 2:{ split; [done|]. instantiate (1 := Some LF). quiet. }
      cbn [replicate] in Hc. rewrite app_nil_r in Hc. exact Hc.
    + apply y_one, Hl.
Qed.
Definition lbrace : lexeme := (TBlockStart, chars "{").
Lemma leg_lf_end z : legible z [lf] [LF].
Proof. constructor. constructor. Qed.
Lemma leg_braced z u W : (∀ z, upto soft z → legible z u W) → legible z (braced u) (lbrace :: LF :: W ++ [LF; rbrace]).
Proof.
  intros H. change (braced u) with (chars " " ++ chars "{" ++ lf :: tabbed u ++ lf :: chars "}").
  leg_s. leg_o. constructor. apply leg_app; [apply leg_tabbed, H; done|]. constructor. leg_o.
Qed.
Lemma y_take n gs V o ds m :
  avoids [ATok TLF] (follow V o) → says_all gs V o ds m → ∃ m', says_all (g_lfs :: gs) (lfs n ++ V) o ds m'.
Proof. intros Hf H. destruct (y_lfs n (follow V o) Hf) as [l Hl]. eexists. by apply (y_cons g_lfs gs (lfs n) V o [] ds). Qed.
Lemma y_pass gs V o ds m : avoids [ATok TLF] (follow V o) → says_all gs V o ds m → says_all (g_lfs :: gs) V o ds m.
Proof. intros Hf H. apply y_skip; [shuts|done]. Qed.
Lemma w_if t : kind_of t = KExprIf → writable t → (∀ c, size c < size t → writable c → good c) → claim t.
Proof.
  intros Hk Hw IH. shape t Hk Hw IH. intros (x & -> & Hx) (oa & -> & Ha) (ob & -> & Hb).
  cbn [writable_node kind_of] in Hn. unfold has in Hn. acc_in Hn. part Hx Ex u W g Hf Ho.
  destruct oa as [a|].
  2:{ destruct ob; [by specialize (Hn eq_refl)|].
    exists (chars "if" ++ chars " " ++ u ++ chars " " ++ chars "{" ++ chars " " ++ chars "}"), ((TIf, chars "if") :: W ++ [lbrace; rbrace]), true.
    split; [|split; [|split; [done|split; [|split; [done|]]]]].
    - rewrite format_unfold. cbn [format_node kind_of]. acc. cbn [fmt_of]. by rewrite (told_format _ _ _ _ Hx).
    - intros z Hz. leg_k. leg_s. leg_c Hx Ex. leg_s. leg_o. leg_s. leg_o.
    - eapply (opens_cons _ (CIs _)); [|exact eq_refl]. pick.
    - intros n o Hq. cbn [open_end] in Hq. destruct (y_take n [GOpt (GSeq [GTok TElse; GLit "{"; g_lfs; GSub FRight KExpr; g_lfs; GLit "}"])] [] o [] [])
        as [m Hm]; [quiet|apply y_one, y_none; shuts|]. eapply y_node_of; [|done|].
      + cbn [grammar kind_of app]. rewrite <- app_assoc. cbn [app]. apply y_seq; [|done]. apply y_tok_next.
        eapply (y_cons _ _ W); [eapply (told_last _ _ x); [done|done|done|quiet]|]. apply y_pass; [quiet|]. apply y_lit_then. apply y_pass; [quiet|].
        apply y_skip; [shuts|]. apply y_pass; [quiet|]. apply y_lit_then. rewrite app_nil_r in Hm. exact Hm.
      + fill_in. cbn -[gist]. by rewrite !gist_gist. }
  part Ha Ea ua Wa ga Hfa Hoa. destruct ob as [b|].
  - part Hb Eb ub Wb gb Hfb Hob.
    exists (chars "if" ++ chars " " ++ u ++ braced ua ++ chars " " ++ chars "else" ++ braced ub),
      ((TIf, chars "if") :: W ++ lbrace :: LF :: (Wa ++ [LF]) ++ rbrace :: (TElse, chars "else") :: lbrace :: LF :: (Wb ++ [LF]) ++ [rbrace]), false.
    split; [|split; [|split; [done|split; [|split; [done|]]]]].
    + rewrite format_unfold. cbn [format_node kind_of]. acc. cbn [fmt_of].
      by rewrite (told_format _ _ _ _ Hx), (told_format _ _ _ _ Ha), (told_format _ _ _ _ Hb).
    + intros z Hz. leg_k. leg_s. leg_c Hx Ex.
      change (legible z (braced ua ++ chars " " ++ chars "else" ++ braced ub)
        (lbrace :: LF :: (Wa ++ [LF]) ++ [rbrace] ++ (TElse, chars "else") :: lbrace :: LF :: (Wb ++ [LF]) ++ [rbrace])).
      rewrite (assoc_L (++) (Wa ++ [LF])), <- (assoc_L (++) Wa), <- (assoc_L (++) Wb).
      apply (leg_app z (braced ua) _ (lbrace :: LF :: Wa ++ [LF; rbrace])); [apply leg_braced; intros; leg_c Ha Ea|].
      leg_s. leg_k. apply leg_braced. intros. leg_c Hb Eb.
    + eapply (opens_cons _ (CIs _)); [|exact eq_refl]. pick.
    + intros n o [-> _]. cbn [replicate]. rewrite app_nil_r.
      destruct (y_body FLeft a ua Wa ga (Some rbrace) true) as [la Hla]; [done|done|quiet|].
      destruct (y_body FRight b ub Wb gb (Some rbrace) false) as [lb Hlb]; [done|done|quiet|].
      destruct (y_take 1 [GSub FRight KExpr; g_lfs; GLit "}"] ((Wb ++ [LF]) ++ [rbrace]) o [(FRight, Struct (gist b))] (lb ++ [chars "}"])) as [m1 H1].
      { rewrite <- app_assoc. quiet. }
      { apply (y_app [_; _] [_] _ _ _ [_] []); [exact Hlb|]. apply y_lit_then, y_nil. }
      destruct (y_take 1 ([GOpt (GSub FLeft KExpr); g_lfs] ++ [GLit "}"; g_lfs; GOpt (GSeq [GTok TElse; GLit "{"; g_lfs; GSub FRight KExpr; g_lfs; GLit "}"])])
        ((Wa ++ [LF]) ++ rbrace :: (TElse, chars "else") :: lbrace :: LF :: (Wb ++ [LF]) ++ [rbrace]) o
        [(FLeft, Struct (gist a)); (FRight, Struct (gist b))]
        (la ++ chars "}" :: (chars "else" :: chars "{" :: m1))) as [m2 H2].
      { rewrite <- app_assoc. quiet. }
      { apply (y_app _ _ _ _ _ [_] [_]); [exact Hla|]. apply y_lit_then. apply y_pass; [quiet|]. apply y_one, y_opt, y_seq; [|done].
        apply y_tok_next, y_lit_then. exact H1. }
      eapply y_node_of; [|done|].
      * cbn [grammar kind_of app]. apply y_seq; [|done]. apply y_tok_next.
        eapply (y_cons _ _ W); [eapply (told_last _ _ x); [done|done|done|quiet]|]. apply y_pass; [quiet|]. apply y_lit_then. exact H2.
      * fill_in. cbn -[gist]. by rewrite !gist_gist.
  - exists (chars "if" ++ chars " " ++ u ++ braced ua), ((TIf, chars "if") :: W ++ lbrace :: LF :: (Wa ++ [LF]) ++ [rbrace]), true.
    split; [|split; [|split; [done|split; [|split; [done|]]]]].
    + rewrite format_unfold. cbn [format_node kind_of]. acc. cbn [fmt_of]. by rewrite (told_format _ _ _ _ Hx), (told_format _ _ _ _ Ha).
    + intros z Hz. leg_k. leg_s. leg_c Hx Ex. rewrite <- (assoc_L (++) Wa). apply leg_braced. intros. leg_c Ha Ea.
    + eapply (opens_cons _ (CIs _)); [|exact eq_refl]. pick.
    + intros n o Hq. cbn [open_end] in Hq.
      destruct (y_take n [GOpt (GSeq [GTok TElse; GLit "{"; g_lfs; GSub FRight KExpr; g_lfs; GLit "}"])] [] o [] [])
        as [m Hm]; [quiet|apply y_one, y_none; shuts|]. rewrite app_nil_r in Hm.
      destruct (y_body FLeft a ua Wa ga (Some rbrace) true) as [la Hla]; [done|done|quiet|].
      destruct (y_take 1 ([GOpt (GSub FLeft KExpr); g_lfs] ++ [GLit "}"; g_lfs; GOpt (GSeq [GTok TElse; GLit "{"; g_lfs; GSub FRight KExpr; g_lfs; GLit "}"])])
        ((Wa ++ [LF]) ++ rbrace :: lfs n) o [(FLeft, Struct (gist a))] (la ++ chars "}" :: m)) as [m2 H2].
      { rewrite <- app_assoc. quiet. }
      { apply (y_app _ _ _ _ _ [_] []); [exact Hla|]. apply y_lit_then. exact Hm. }
      eapply y_node_of; [|done|].
      * cbn [grammar kind_of app]. rewrite <- (assoc_L (++) W). cbn [app]. rewrite <- (assoc_L (++) (Wa ++ _)). cbn [app]. apply y_seq; [|done]. apply y_tok_next.
        eapply (y_cons _ _ W); [eapply (told_last _ _ x); [done|done|done|quiet]|]. apply y_pass; [quiet|]. apply y_lit_then. exact H2.
      * fill_in. cbn -[gist]. by rewrite !gist_gist.
Qed.
Lemma y_braced f c u W g o :
  kind_of c = KExpr → told c u W g →
  ∃ m, says_all [g_lfs; GLit "{"; g_lfs; GSub f KExpr; g_lfs; GLit "}"] (lbrace :: LF :: W ++ [LF; rbrace]) o [(f, Struct (gist c))] m.
Proof.
  intros E Hc. pose proof (told_opens _ _ _ _ Hc) as Ho. rewrite E in Ho. destruct (y_body f c u W g (Some rbrace) false) as [l Hl]; [done|done|quiet|].
  destruct (y_take 1 [GSub f KExpr; g_lfs; GLit "}"] ((W ++ [LF]) ++ [rbrace]) o [(f, Struct (gist c))] (l ++ [chars "}"])) as [m H].
  { rewrite <- app_assoc. quiet. }
  { apply (y_app [_; _] [_] _ _ _ [_] []); [exact Hl|]. apply y_lit_then, y_nil. }
  eexists. apply y_pass; [quiet|]. apply y_lit_then. rewrite <- (assoc_L (++) W) in H. exact H.
Qed.
Lemma tell_lengths k cs us Ws : tell_all k cs us Ws → length us = length cs ∧ length Ws = length cs.
Proof. induction 1 as [|c cs u us W Ws g E Hc H [IH1 IH2]]; [done|]. cbn. by rewrite IH1, IH2. Qed.
Lemma commas_nonempty k c cs us Ws : tell_all k (c :: cs) us Ws → commas Ws ≠ [].
Proof.
  intros H. inversion H as [|? ? ? ? W V g ? Hc]; subst. pose proof (opens_nonempty _ _ (told_opens _ _ _ _ Hc)).
  destruct V; [done|]. intros [??]%app_nil. done.
Qed.
Lemma nil_items p k f o fs : nil_list f (T p k ((f, VList o) :: fs)) = match o with Some _ => false | None => true end.
Proof. unfold nil_list. rewrite get_hit. by destruct o as [[]|]. Qed.
Lemma w_case t : kind_of t = KExprCase → writable t → (∀ c, size c < size t → writable c → good c) → claim t.
Proof.
  intros Hk Hw IH. shape t Hk Hw IH. intros (oc & cs & -> & Hc & Hcs) (b & ->) (oe & -> & He).
  cbn [writable_node kind_of] in Hn. unfold has in Hn. rewrite nil_items in Hn. acc_in Hn. destruct Hn as [Hn1 Hn2]. destruct oe as [e|]; [|done].
  part He Ee u W g Hf Ho. destruct b.
  - destruct oc; [done|]. cbn in Hc. symmetry in Hc. apply map_eq_nil in Hc as ->.
    exists (chars "default" ++ chars ":" ++ braced u), ((TIdent, chars "default") :: (TOpColon, chars ":") :: lbrace :: LF :: W ++ [LF; rbrace]), false.
    split; [|split; [|split; [done|split; [|split; [done|]]]]].
    + rewrite format_unfold. cbn [format_node kind_of]. rewrite nil_items. acc. cbn [fmt_of negb]. by rewrite (told_format _ _ _ _ He).
    + intros z Hz. apply leg_name; [by apply name_word; vm_compute|edge|]. leg_o. apply leg_braced. intros. leg_c He Ee.
    + eapply (opens_cons _ (word_is "default")); [|exact eq_refl]. pick.
    + intros n o [-> _]. cbn [replicate app]. rewrite app_nil_r. destruct (y_braced FExpr e u W g o Ee He) as [m Hm].
      eapply y_node_of; [|done|].
      * cbn [grammar kind_of app]. apply y_seq; [|done]. eapply (y_cons _ _ [_; _] (lbrace :: _) _ [_] [_]); [|exact Hm].
        apply y_alt_next; [shuts|]. apply y_alt_here, y_seq; [|done].
        apply (y_cons _ _ [_] [_] _ [_] []); [by apply (y_cap _ _ _ _ []), y_lit|]. apply y_lit_then, y_nil.
      * fill_in. cbn -[gist]. by rewrite !gist_gist.
  - destruct oc as [[[] l]|]; [|done]. cbn [items] in Hn2, Hc. subst l. destruct cs as [|c cs]; [done|].
    destruct (tell_fine KExprLogicalOr (c :: cs)) as (us & Ws & H); [done|done|].
    exists (chars "case" ++ chars " " ++ join (chars ", ") us ++ chars ":" ++ braced u),
      ((TCase, chars "case") :: commas Ws ++ (TOpColon, chars ":") :: lbrace :: LF :: W ++ [LF; rbrace]), false.
    split; [|split; [|split; [done|split; [|split; [done|]]]]].
    + rewrite format_unfold. cbn [format_node kind_of]. rewrite nil_items. acc. cbn [fmt_of negb items].
      by rewrite (tell_format _ _ _ _ H), (told_format _ _ _ _ He).
    + intros z Hz. leg_k. apply leg_space.
      { rewrite <- app_assoc. eapply tell_starts; [|exact H| |]; by vm_compute. }
      apply leg_app; [eapply tell_leg; [|exact H|]; done|]. leg_o. apply leg_braced. intros. leg_c He Ee.
    + eapply (opens_cons _ (CIs _)); [|exact eq_refl]. pick.
    + intros n o [-> _]. cbn [replicate app]. rewrite app_nil_r. destruct (y_braced FExpr e u W g o Ee He) as [m Hm].
      destruct (say_commas FConditions KExprLogicalOr c cs us Ws (Some (TOpColon, chars ":"))) as [m' Hm']; [done|quiet|quiet|quiet|].
      eapply y_node_of; [|done|].
      * cbn [grammar kind_of]. apply y_seq; [|done].
        change ((TCase, chars "case") :: commas Ws ++ (TOpColon, chars ":") :: lbrace :: LF :: W ++ [LF; rbrace])
          with ((TCase, chars "case") :: commas Ws ++ [(TOpColon, chars ":")] ++ lbrace :: LF :: W ++ [LF; rbrace]).
        rewrite (assoc_L (++) (commas Ws)), app_comm_cons. eapply (y_cons _ _ _ (lbrace :: _) _ _ [_]); [|exact Hm].
        apply y_alt_here, y_seq; [|done]. cbn [app]. apply y_tok_next.
        eapply (y_app (g_list _ _) [_]); [exact Hm'|]. apply y_lit_then, y_nil.
      * fill_in. rewrite ?app_nil_r. change (Struct (gist c) :: map Struct (map gist cs)) with (map Struct (map gist (c :: cs))).
        rewrite list_is, keep_gist, gist_list. cbn -[gist keep map]. by rewrite !gist_gist.
Qed.
Ltac embed x := change (last (trees_of [Struct (gist x)])) with (Some (gist x)); cbn [fmap option_fmap option_map map fst snd].
Definition lines_of (Ws : list (list lexeme)) : list lexeme := flat_map (λ W, W ++ [LF]) Ws.
Fixpoint rows_of (Ws : list (list lexeme)) : list lexeme := match Ws with [] => [] | [W] => W | W :: Ws => W ++ LF :: rows_of Ws end.
Lemma rows_lines Ws : Ws ≠ [] → rows_of Ws ++ [LF] = lines_of Ws.
Proof.
  destruct Ws as [|W Ws]; [done|]. intros _. revert W. induction Ws as [|V Ws IH]; intros W; [unfold lines_of; cbn; by rewrite app_nil_r|].
  change (rows_of (W :: V :: Ws)) with (W ++ LF :: rows_of (V :: Ws)). change (lines_of (W :: V :: Ws)) with ((W ++ [LF]) ++ lines_of (V :: Ws)).
  rewrite <- IH, <- !app_assoc. done.
Qed.
Lemma tell_rows_leg k cs us Ws z :
  (∀ c, kind_of c = k → after c = soft) → tell_all k cs us Ws → upto soft z → legible z (join [lf] us) (rows_of Ws).
Proof.
  intros Hk H Hz. induction H as [|c cs u us W Ws g E Hc H IH]; [constructor|]. pose proof (Hk c E) as Ea.
  assert (∀ z, upto soft z → legible z u W) as HL' by (intros z' ?; apply (told_leg _ _ _ _ _ Hc); by rewrite Ea).
  destruct H as [|c' cs u' us W' Ws g' E' Hc' H]; [by apply HL'|].
  change (join [lf] (u :: u' :: us)) with (u ++ lf :: join [lf] (u' :: us)). change (rows_of (W :: W' :: Ws)) with (W ++ LF :: rows_of (W' :: Ws)).
  apply leg_app; [by apply HL'|]. constructor. exact IH.
Qed.
Lemma say_cases cs us Ws o :
  tell_all KExprCase cs us Ws → avoids [ATok TCase; ALit "default"; ATok TLF] o →
  ∃ m, says_many (GSeq [GSub FCases KExprCase; g_lfs]) (lines_of Ws) o (map (λ t, (FCases, Struct t)) (map gist cs)) m.
Proof.
  intros H Ho. induction H as [|c cs u us W Ws g E Hc H [m IH]]; [eexists; apply y_end; shuts|]. pose proof (told_opens _ _ _ _ Hc) as Hop. rewrite E in Hop.
  assert (avoids [ATok TLF] (follow (lines_of Ws) o)) as Hl.
  { destruct H as [|c' cs u' us W' Ws g' E' Hc' H]; [quiet|]. pose proof (told_opens _ _ _ _ Hc') as Hop'. rewrite E' in Hop'.
    change (lines_of (W' :: Ws)) with ((W' ++ [LF]) ++ lines_of Ws). rewrite <- app_assoc. quiet. }
  destruct (y_lfs 1 _ Hl) as [l Hl'].
  eexists. change (lines_of (W :: Ws)) with ((W ++ [LF]) ++ lines_of Ws). eapply (y_more _ (W ++ [LF]) _ _ [_]); [| |exact IH].
  - apply y_seq; [|by intros [??]%app_nil]. apply (y_cons _ _ W [LF] _ [_] [] [[]] l); [|apply y_one, Hl']. eapply (told_last _ _ c); [done|done|done|quiet].
  - by intros [??]%app_nil.
Qed.
Lemma w_switch t : kind_of t = KExprSwitch → writable t → (∀ c, size c < size t → writable c → good c) → claim t.
Proof.
  intros Hk Hw IH. shape t Hk Hw IH. intros (x & -> & Hx) (oc & cs & -> & Hc & Hcs). clear Hn. part Hx Ex u W g Hf Ho.
  destruct (tell_fine KExprCase cs) as (us & Ws & H); [done|done|].
  destruct (say_cases cs us Ws (Some rbrace) H) as [m Hm]; [quiet|].
  set (V := lines_of Ws) in *. set (B := if cs then [] else lf :: tabbed (join [lf] us) ++ [lf]).
  exists (chars "switch" ++ chars " " ++ u ++ chars " " ++ chars "{" ++ (if cs then chars " " else lf :: tabbed (join [lf] us) ++ [lf]) ++ chars "}"),
    ((TSwitch, chars "switch") :: W ++ lbrace :: (if cs then [] else [LF]) ++ V ++ [rbrace]), false.
  split; [|split; [|split; [done|split; [|split; [done|]]]]].
  - rewrite format_unfold. cbn [format_node kind_of]. acc. cbn [fmt_of]. rewrite (told_format _ _ _ _ Hx), Hc. destruct cs as [|c cs]; [done|].
    cbn -[fmt_all braced join map]. rewrite (tell_format _ _ _ _ H). unfold braced. cbn [app]. by rewrite <- !app_assoc.
  - intros z Hz. leg_k. leg_s. leg_c Hx Ex. leg_s. unfold V. destruct cs as [|c cs].
    + inversion H; subst. leg_o. leg_s. leg_o.
    + assert (Ws ≠ []) by (by inversion H). rewrite <- rows_lines by done. leg_o. cbn [app]. constructor. rewrite <- !app_assoc.
      apply leg_app; [|constructor; leg_o]. apply leg_tabbed. eapply tell_rows_leg; [|exact H|done]. intros c' Hc'. unfold after. by rewrite Hc'.
  - eapply (opens_cons _ (CIs _)); [|exact eq_refl]. pick.
  - intros n o [-> _]. cbn [replicate app]. rewrite app_nil_r.
    assert (avoids [ATok TLF] (follow (V ++ [rbrace]) o)) as Hav.
    { destruct H as [|c' cs u' us W' Ws g' E' Hc' H]; [unfold V, lines_of; cbn [flat_map app]; quiet|]. pose proof (told_opens _ _ _ _ Hc') as Hop'. rewrite E' in Hop'.
      unfold V. change (lines_of (W' :: Ws)) with ((W' ++ [LF]) ++ lines_of Ws). rewrite <- !app_assoc. quiet. }
    destruct (y_take (if cs then 0 else 1) [GMany (GSeq [GSub FCases KExprCase; g_lfs]); GLit "}"] (V ++ [rbrace]) o
      (map (λ t, (FCases, Struct t)) (map gist cs)) (m ++ [chars "}"])) as [m' Hm']; [done| |].
    { rewrite <- (app_nil_r (map _ _)). eapply (y_cons _ _ V [rbrace] _ _ []); [by apply y_many|]. apply y_lit_then, y_nil. }
    eapply y_node_of; [|done|].
    + cbn [grammar kind_of]. apply y_seq; [|done]. apply y_tok_next.
      eapply (y_cons _ _ W); [eapply (told_last _ _ x); [done|done|done|quiet]|]. apply y_pass; [quiet|]. apply y_lit_then.
      replace (if cs then [] else [LF]) with (lfs (if cs then 0 else 1)) by (by destruct cs). exact Hm'.
    + fill_in. cbn [app]. embed x. rewrite list_is, keep_gist, gist_list_of, Hc. cbn -[gist keep map]. by rewrite !gist_gist.
Qed.
