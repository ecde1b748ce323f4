(** * Writing trees down: types, declarations, comments *)
From stdpp Require Import base list option strings.
From Coq Require Import Ascii Lia.
From Verif Require Import GoBase EtxAst EtxHeap EtxHeapSpec EtxText EtxLex EtxLexSpec EtxLexFacts EtxLexOps EtxLexIdent EtxLexString EtxUtil EtxNumProofs EtxGram EtxParse EtxParseBase
  EtxParseSpec EtxParseParts EtxParseStore EtxParseTyped EtxParseFirst EtxParseClean EtxSettledSpec EtxSettled EtxSettledExample
  EtxFormat EtxFormatSpec EtxFormatTotal EtxReprintSpec EtxReprint EtxOrder EtxClone EtxWriteSpec EtxCode EtxSays EtxWriteBase EtxWriteLeaf EtxWriteExpr EtxWriteOps EtxWriteIf.

(** ** Types of parameters *)
Lemma opt_list f k cs us Ws :
  tell_all k cs us Ws → avoids (tail k) (Some comma) → avoids (ALit "," :: tail k) (Some rparen) →
  existsb (may (CIs rparen)) (firsts tbl (GSeq (g_list f k))) = false →
  ∃ m, says (GOpt (GSeq (g_list f k))) (commas Ws) (Some rparen) (map (λ t, (f, Struct t)) (map gist cs)) m.
Proof.
  intros H H1 H2 H3. destruct cs as [|c cs].
  - inversion H; subst. eexists. apply y_none. by eapply (shut_is (CIs _)); [exact eq_refl|].
  - destruct (say_commas f k c cs us Ws (Some rparen)) as (m & Hm); [done|done|done|quiet|]. exists m.
    apply y_opt, y_seq; [done|]. by eapply commas_nonempty.
Qed.
Lemma w_param_type t : kind_of t = KParameterType → writable t → (∀ c, size c < size t → writable c → good c) → claim t.
Proof.
  intros Hk Hw IH. shape t Hk Hw IH. intros (o1 & -> & H1) (o2 & -> & H2).
  cbn [writable_node kind_of] in Hn. unfold just_one in Hn. rewrite !set_in_cons in Hn. acc_in Hn.
  destruct o1 as [c|]; [|destruct o2 as [c|]; [|done]].
  - destruct o2; try done. part H1 E u W g Hf Ho. exists u, W, false. split; [|split; [|split; [edge|split; [|split; [done|]]]]].
    + rewrite format_unfold. cbn [format_node kind_of]. acc. apply (told_format _ _ _ _ H1).
    + intros z Hz. unfold after in Hz. cbn [kind_of] in Hz. leg_c H1 E.
    + widen.
    + intros n o [-> Hq]. cbn [replicate app]. rewrite app_nil_r. eapply y_node_of; [|done|].
      * cbn [grammar kind_of]. apply y_alt_here. eapply told_last; [done|done|done|quiet].
      * fill_in. cbn -[gist]. by rewrite !gist_gist.
  - part H2 E u W g Hf Ho. exists u, W, false. split; [|split; [|split; [edge|split; [|split; [done|]]]]].
    + rewrite format_unfold. cbn [format_node kind_of]. acc. apply (told_format _ _ _ _ H2).
    + intros z Hz. leg_c H2 E.
    + widen.
    + intros n o [-> Hq]. cbn [replicate app]. rewrite app_nil_r. eapply y_node_of; [|done|].
      * cbn [grammar kind_of]. apply y_alt_next; [shuts|]. apply y_alt_here. eapply told_last; [done|done|done|quiet].
      * fill_in. cbn -[gist]. by rewrite !gist_gist.
Qed.
Lemma w_signature t : kind_of t = KFuncSignature → writable t → (∀ c, size c < size t → writable c → good c) → claim t.
Proof.
  intros Hk Hw IH. shape t Hk Hw IH. intros (oc & cs & -> & Hc & Hcs) (x & -> & Hx). clear Hn. part Hx E u W g Hf Ho.
  destruct (tell_fine KParameterType cs) as (us & Ws & H); [done|done|].
  destruct (opt_list FParameters _ _ _ _ H) as [m Hm]; [quiet|quiet|by vm_compute|].
  exists (chars "(" ++ join (chars ", ") us ++ chars ")" ++ chars " " ++ chars "->" ++ chars " " ++ u),
    ((TOpLParen, chars "(") :: commas Ws ++ rparen :: (TOpLambdaDef, chars "->") :: W), false.
  split; [|split; [|split; [done|split; [|split; [done|]]]]].
  - rewrite format_unfold. cbn [format_node kind_of]. acc. rewrite Hc, (tell_format _ _ _ _ H). cbn [fmt_of]. by rewrite (told_format _ _ _ _ Hx).
  - intros z Hz. leg_o. apply leg_app; [eapply tell_leg; [|exact H|]; done|]. leg_o. leg_s. leg_o. leg_s. leg_c Hx E.
  - eapply (opens_cons _ (CIs _)); [|exact eq_refl]. pick.
  - intros n o [-> Hq]. cbn [replicate app]. rewrite app_nil_r. eapply y_node_of; [|done|].
    + cbn [grammar kind_of]. apply y_seq; [|done]. apply y_lit_then. eapply (y_cons _ _ (commas Ws)); [exact Hm|].
      apply y_lit_then, y_tok_next, y_one. eapply told_last; [done|done|done|quiet].
    + fill_in. cbn [app]. rewrite ?app_nil_r. embed x. rewrite list_is, keep_gist, gist_list_of, Hc. cbn -[gist keep map]. by rewrite !gist_gist.
Qed.

(** ** Declarations *)
Definition type_text (o : option ast) : res text := match o with None => Ok [] | Some c => s ← format c; Ok (chars ": " ++ s) end.
Lemma type_part oc :
  match oc with Some c => fine KParameterType c | None => True end →
  ∃ u W l, type_text oc = Ok u ∧ (∀ z, upto soft z → legible z u W) ∧
    (∀ o, avoids (if oc then [ALit "."] else [ALit ":"]) o → says (GOpt (GSeq [GLit ":"; GSub FType KParameterType])) W o
      (match oc with Some e => [(FType, Struct (gist e))] | None => [] end) l) ∧
    if oc then (∃ V, u = ":"%char :: V) ∧ ∃ V, W = (TOpColon, chars ":") :: V else u = [] ∧ W = [].
Proof.
  intros Hi. destruct oc as [c|].
  - part Hi E u W g Hf Ho. eexists (chars ":" ++ chars " " ++ u), ((TOpColon, chars ":") :: W), _.
    unfold type_text. rewrite (told_format _ _ _ _ Hi). split; [done|]. split; [|split; [|by split; eexists]].
    + intros z Hz. leg_o. leg_s. leg_c Hi E.
    + intros o Hq. apply y_opt, y_seq; [|done]. apply y_lit_then, y_one. eapply told_last; [done|done|done|quiet].
  - exists [], [], []. split; [done|]. split; [constructor|]. split; [|done]. intros o Ho. apply y_none. shuts.
Qed.
Lemma w_func_param t : kind_of t = KFuncParameter → writable t → (∀ c, size c < size t → writable c → good c) → claim t.
Proof.
  intros Hk Hw IH. shape t Hk Hw IH. intros (s & ->) (oc & -> & Hc). cbn [writable_node kind_of] in Hn. acc_in Hn.
  destruct (type_part oc Hc) as (u & W & l & F & L & Y & N). pose proof (name_head _ Hn) as Hh.
  exists (chars s ++ u), ((TIdent, chars s) :: W), false.
  split; [|split; [|split; [cbn [front kind_of]; edge|split; [|split; [done|]]]]].
  - rewrite format_unfold. cbn [format_node kind_of]. unfold format_parameter. acc. destruct oc as [c|].
    + unfold type_text in F. destruct (format c); [|done|done]. by injection F as <-.
    + destruct N as [-> _]. by rewrite app_nil_r.
  - intros z Hz. apply leg_name; [done| |by apply L]. destruct oc; [destruct N as [[V ->] _]|destruct N as [-> _]]; edge.
  - eapply (opens_cons _ CName); [pick|done].
  - intros n o [-> Hq]. cbn [replicate]. rewrite app_nil_r. eapply y_node_of; [|done|].
    + cbn [grammar kind_of]. apply y_seq; [|done]. eapply (y_cons _ _ [_] W _ [_]); [apply (y_cap _ _ _ _ []), y_tok|].
      apply y_one, Y. destruct oc; quiet.
    + fill_in. destruct oc; caps; cbn -[gist chars]; by rewrite ?gist_gist, ?app_nil_r, str_chars.
Qed.
Definition value_text (o : option ast) : res text := match o with None => Ok [] | Some c => s ← format c; Ok (chars " = " ++ s) end.
Lemma value_part oc :
  match oc with Some c => fine KExpr c | None => True end →
  ∃ u W l g, value_text oc = Ok u ∧ (∀ z, upto soft z → legible z u W) ∧
    (∀ n o, open_end g (if oc then tail KExpr else [ALit "="]) n o → says (GOpt (GSeq [GLit "="; GSub FValue KExpr])) (W ++ lfs n) o
      (match oc with Some e => [(FValue, Struct (gist e))] | None => [] end) l) ∧
    if oc then (∃ V, u = " "%char :: V) ∧ ∃ V, W = (TOpAssign, chars "=") :: V else u = [] ∧ W = [] ∧ g = false.
Proof.
  intros Hi. destruct oc as [c|].
  - part Hi E u W g Hf Ho. eexists (chars " " ++ chars "=" ++ chars " " ++ u), ((TOpAssign, chars "=") :: W), _, g.
    unfold value_text. rewrite (told_format _ _ _ _ Hi). split; [done|]. split; [|split; [|by split; eexists]].
    + intros z Hz. leg_s. leg_o. leg_s. leg_c Hi E.
    + intros n o Hq. cbn [app]. apply y_opt, y_seq; [|done]. apply y_lit_then, y_one. by eapply told_over.
  - exists [], [], [], false. split; [done|]. split; [constructor|]. split; [|done]. intros n o [-> Ho]. apply y_none. shuts.
Qed.
Lemma w_decl t : kind_of t = KDecl → writable t → (∀ c, size c < size t → writable c → good c) → claim t.
Proof.
  intros Hk Hw IH. shape t Hk Hw IH. intros (d & ->) (s & ->) (ot & -> & Ht) (ov & -> & Hv). cbn [writable_node kind_of] in Hn. acc_in Hn.
  destruct Hn as [Hd Hn]. pose proof (name_head _ Hn) as Hh.
  destruct (type_part ot Ht) as (u & W & l & F & L & Y & N). destruct (value_part ov Hv) as (u' & W' & l' & g & F' & L' & Y' & N').
  exists (chars d ++ chars " " ++ chars s ++ u ++ u'), ((TIdent, chars d) :: (TIdent, chars s) :: W ++ W'), g.
  assert (name (chars d) ∧ starts is_alpha (chars d)) as [Hdn Hdh].
  { cbn [map] in Hd. repeat (apply elem_of_cons in Hd as [Hd|Hd]; [rewrite Hd; split; [apply name_word; by vm_compute|done]|]). by apply elem_of_nil in Hd. }
  split; [|split; [|split; [cbn [front kind_of]; edge|split; [|split; [done|]]]]].
  - rewrite format_unfold. cbn [format_node kind_of]. unfold format_decl. acc. rewrite decide_False by (intros E; by rewrite E in Hh).
    change (match ot with None => Ok [] | Some c => s ← format c; Ok (chars ": " ++ s) end) with (type_text ot). rewrite F.
    change (match ov with None => Ok [] | Some c => s ← format c; Ok (chars " = " ++ s) end) with (value_text ov). by rewrite F'.
  - intros z Hz. apply leg_name; [done|edge|]. leg_s. apply leg_name; [done| |apply leg_app; [apply L|by apply L']].
    + destruct ot; [destruct N as [[V ->] _]; edge|destruct N as [-> _]]. destruct ov; [destruct N' as [[V ->] _]; edge|destruct N' as [-> _]]. edge.
    + destruct ov; [destruct N' as [[V ->] _]; edge|destruct N' as [-> _]]. edge.
  - eapply (opens_cons _ (CIs _)); [|exact eq_refl]. cbn [map] in Hd.
    repeat (apply elem_of_cons in Hd as [Hd|Hd]; [rewrite Hd; pick|]). by apply elem_of_nil in Hd.
  - intros n o Hq. eapply y_node_of; [|done|].
    + cbn [grammar kind_of app]. rewrite <- app_assoc. apply y_seq; [|done].
      eapply (y_cons _ _ [_] _ _ [_]).
      { apply (y_cap _ _ _ _ []). instantiate (1 := [chars d]). clear -Hd. cbn [map] in Hd |- *.
        repeat (apply elem_of_cons in Hd as [Hd|Hd]; [rewrite Hd; repeat first [by apply y_alt_here, y_lit|apply y_alt_next; [shuts|]]|]). by apply elem_of_nil in Hd. }
      eapply (y_cons _ _ [_] (W ++ W' ++ lfs n) _ [_]); [apply (y_cap _ _ _ _ []), y_tok|].
      eapply (y_cons _ _ W (W' ++ lfs n)).
      * apply Y. destruct ov; [destruct N' as [_ [V ->]]; destruct ot; quiet|]. destruct N' as (_ & -> & ->). destruct Hq as [-> Hq]. destruct ot; quiet.
      * apply y_one, Y'. eapply open_mono; [|exact Hq]. by destruct ov.
    + fill_in. destruct ot, ov; caps; cbn -[gist chars]; by rewrite ?gist_gist, ?app_nil_r, !str_chars.
Qed.
Lemma w_func_decl t : kind_of t = KFuncDecl → writable t → (∀ c, size c < size t → writable c → good c) → claim t.
Proof.
  intros Hk Hw IH. shape t Hk Hw IH. intros (d & ->) (s & ->) (ot & -> & Ht) (ov & -> & Hv). cbn [writable_node kind_of] in Hn. acc_in Hn.
  destruct Hn as [Hd Hn]. pose proof (name_head _ Hn) as Hh.
  destruct (type_part ot Ht) as (u & W & l & F & L & Y & N). destruct (value_part ov Hv) as (u' & W' & l' & g & F' & L' & Y' & N').
  exists (chars d ++ chars " " ++ chars s ++ u ++ u'), ((TIdent, chars d) :: (TIdent, chars s) :: W ++ W'), g.
  assert (name (chars d) ∧ starts is_alpha (chars d)) as [Hdn Hdh].
  { cbn [map] in Hd. repeat (apply elem_of_cons in Hd as [Hd|Hd]; [rewrite Hd; split; [apply name_word; by vm_compute|done]|]). by apply elem_of_nil in Hd. }
  split; [|split; [|split; [cbn [front kind_of]; edge|split; [|split; [done|]]]]].
  - rewrite format_unfold. cbn [format_node kind_of]. unfold format_decl. acc. rewrite decide_False by (intros E; by rewrite E in Hh).
    change (match ot with None => Ok [] | Some c => s ← format c; Ok (chars ": " ++ s) end) with (type_text ot). rewrite F.
    change (match ov with None => Ok [] | Some c => s ← format c; Ok (chars " = " ++ s) end) with (value_text ov). by rewrite F'.
  - intros z Hz. apply leg_name; [done|edge|]. leg_s. apply leg_name; [done| |apply leg_app; [apply L|by apply L']].
    + destruct ot; [destruct N as [[V ->] _]; edge|destruct N as [-> _]]. destruct ov; [destruct N' as [[V ->] _]; edge|destruct N' as [-> _]]. edge.
    + destruct ov; [destruct N' as [[V ->] _]; edge|destruct N' as [-> _]]. edge.
  - eapply (opens_cons _ (CIs _)); [|exact eq_refl]. cbn [map] in Hd.
    repeat (apply elem_of_cons in Hd as [Hd|Hd]; [rewrite Hd; pick|]). by apply elem_of_nil in Hd.
  - intros n o Hq. eapply y_node_of; [|done|].
    + cbn [grammar kind_of app]. rewrite <- app_assoc. apply y_seq; [|done].
      eapply (y_cons _ _ [_] _ _ [_]).
      { apply (y_cap _ _ _ _ []). instantiate (1 := [chars d]). clear -Hd. cbn [map] in Hd |- *.
        repeat (apply elem_of_cons in Hd as [Hd|Hd]; [rewrite Hd; repeat first [by apply y_alt_here, y_lit|apply y_alt_next; [shuts|]]|]). by apply elem_of_nil in Hd. }
      eapply (y_cons _ _ [_] (W ++ W' ++ lfs n) _ [_]); [apply (y_cap _ _ _ _ []), y_tok|].
      eapply (y_cons _ _ W (W' ++ lfs n)).
      * apply Y. destruct ov; [destruct N' as [_ [V ->]]; destruct ot; quiet|]. destruct N' as (_ & -> & ->). destruct Hq as [-> Hq]. destruct ot; quiet.
      * apply y_one, Y'. eapply open_mono; [|exact Hq]. by destruct ov.
    + fill_in. destruct ot, ov; caps; cbn -[gist chars]; by rewrite ?gist_gist, ?app_nil_r, !str_chars.
Qed.

(** ** Comments *)
Definition remarks (l : list text) : list lexeme := flat_map (λ v, [(TSingleLineComment, v); LF]) l.
Lemma leg_remarks l z : Forall remark l → legible z (concat (map (λ s, s ++ [lf]) l)) (remarks l).
Proof.
  induction 1 as [|v l Hv _ IH]; [constructor|]. cbn [map concat]. rewrite <- app_assoc. cbn [app].
  change (remarks (v :: l)) with ((TSingleLineComment, v) :: LF :: remarks l). by apply leg_remark.
Qed.
Lemma say_remarks l o :
  avoids [ATok TSingleLineComment] o →
  ∃ m, says_many (GSeq [GCap FSingleLine (GTok TSingleLineComment); g_lf]) (remarks l) o (map (λ v, (FSingleLine, Texts [v])) l) m.
Proof.
  intros Ho. induction l as [|v l [m IH]]; [eexists; apply y_end; shuts|].
  eexists. eapply (y_more _ [(TSingleLineComment, v); LF] (remarks l) _ [(FSingleLine, Texts [v])]); [|done|exact IH].
  apply y_seq; [|done]. apply (y_cons _ _ [_] [_] _ [_] []); [apply (y_cap _ _ _ _ []), y_tok|]. apply y_one. unfold g_lf. apply y_opt, y_tok.
Qed.
Lemma remarks_last l : l ≠ [] → Forall remark l → ∃ W, remarks l = W ++ lfs 1 ∧ opens_with [CRemark] W.
Proof.
  destruct l as [|v l]; [done|]. intros _. revert v. induction l as [|w l IH]; intros v [Hv Hl]%Forall_cons.
  - exists [(TSingleLineComment, v)]. split; [done|]. eapply (opens_cons _ CRemark); [by left|done].
  - destruct (IH w Hl) as (W & E & _). exists ((TSingleLineComment, v) :: LF :: W). split.
    + change (remarks (v :: w :: l)) with ((TSingleLineComment, v) :: LF :: remarks (w :: l)). by rewrite E.
    + eapply (opens_cons _ CRemark); [by left|done].
Qed.
Lemma captures_texts_ne f f' (l : list text) : f ≠ f' → captures_of f (map (λ v, (f', Texts [v])) l) = [].
Proof. intros Hf. induction l as [|v l IH]; [done|]. cbn [map]. by rewrite captures_miss. Qed.
Lemma w_comment t : kind_of t = KComment → writable t → (∀ c, size c < size t → writable c → good c) → comment_claim t.
Proof.
  intros Hk Hw IH. shape t Hk Hw IH. intros (ol & ->) (s & ->). cbn [writable_node kind_of] in Hn. acc_in Hn.
  destruct Hn as (->%chars_nil & Hne & Hl). destruct ol as [[[] l]|]; [|done]. cbn [texts] in *. set (l' := map chars l) in *.
  destruct (remarks_last l' Hne Hl) as (W & E & Ho). exists (concat (map (λ s, s ++ [lf]) l')), W.
  split; [|split; [|split; [done|]]].
  - rewrite format_unfold. cbn [format_node kind_of]. by acc.
  - intros z. rewrite <- E. by apply leg_remarks.
  - intros o Hq. rewrite <- E. destruct (say_remarks l' o Hq) as [m Hm]. eapply y_node_of; [|done|].
    + cbn [grammar kind_of]. apply y_alt_here, y_some_many; [exact Hm|]. rewrite E. by intros [??]%app_nil.
    + cbn [kind_of]. unfold gist_fields. cbn [schema fill field_value plain_value app]. rewrite captures_texts, texts_singles, captures_texts_ne by done. unfold l'. rewrite map_str_chars.
      destruct l; [done|]. rewrite gist_T. done.
Qed.
