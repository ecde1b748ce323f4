(** * Writing trees down: lines, types, functions, lists *)
From stdpp Require Import base list option strings.
From Coq Require Import Ascii Lia.
From Verif Require Import GoBase EtxAst EtxHeap EtxHeapSpec EtxText EtxLex EtxLexSpec EtxLexFacts EtxLexOps EtxLexIdent EtxLexString EtxUtil EtxNumProofs EtxGram EtxParse EtxParseBase
  EtxParseSpec EtxParseParts EtxParseStore EtxParseTyped EtxParseFirst EtxParseClean EtxSettledSpec EtxSettled EtxSettledExample
  EtxFormat EtxFormatSpec EtxFormatTotal EtxReprintSpec EtxReprint EtxOrder EtxClone EtxWriteSpec EtxCode EtxSays EtxWriteBase EtxWriteLeaf EtxWriteExpr EtxWriteOps EtxWriteIf EtxWriteDecl.

(** ** Things that end with a line feed *)
Lemma y_line f k c u W g n o :
  kind_of c = k → told c u W g → avoids (tail k) (Some LF) → avoids rows_end o → 1 <= n →
  ∃ l, says_all [GSub f k; g_lf] (W ++ lfs (if g then n else 1)) (follow (lfs (n - if g then n else 1)) o) [(f, Struct (gist c))] l.
Proof.
  intros E Hc Ht Ho Hn. destruct g.
  - rewrite Nat.sub_diag. cbn [replicate follow]. eexists. rewrite <- (app_nil_r (W ++ lfs n)). eapply (y_cons _ _ (W ++ lfs n) [] _ [_] []).
    + eapply told_over; [done|done|]. exact Ho.
    + apply y_one, y_none. shuts.
  - eexists. eapply (y_cons _ _ W [LF] _ [_] []).
    + eapply (told_over _ _ _ _ _ _ 0) in Hc; [|done|]. 2:{ split; [done|exact Ht]. } cbn [replicate] in Hc. rewrite app_nil_r in Hc. exact Hc.
    + apply y_one, y_opt, y_tok.
Qed.
Lemma y_line_one f k c u W g o :
  kind_of c = k → told c u W g → avoids (tail k) (Some LF) → avoids rows_end o →
  ∃ l, says_all [GSub f k; g_lf] (W ++ [LF]) o [(f, Struct (gist c))] l.
Proof.
  intros E Hc Ht Ho. destruct (y_line f k c u W g 1 o) as [l Hl]; [done|done|done|done|lia|]. exists l. by destruct g.
Qed.

(** ** Enums and objects *)
Lemma w_enum_item t : kind_of t = KTypeEnumItem → writable t → (∀ c, size c < size t → writable c → good c) → entry_claim FValue t.
Proof.
  intros Hk Hw IH. shape t Hk Hw IH. intros (s0 & ->) (oc & -> & _) (s & ->) (x & -> & Hx). cbn [writable_node kind_of] in Hn.
  rewrite none_one, none_nil in Hn. acc_in Hn. destruct Hn as (Hn & [-> _] & ->%chars_nil). part Hx E u W g Hf Ho.
  exists u, W. unfold kind_of. acc. cbn [fmt_of]. split; [by apply (told_format _ _ _ _ Hx)|]. split; [intros; leg_c Hx E|]. split; [done|]. split; [done|].
  intros o Hq. destruct (y_line_one FValue KExpr x u W g o) as [l Hl]; [done|done|quiet|done|]. eapply y_node_of; [|done|].
  - cbn [grammar kind_of]. do 2 (apply y_alt_next; [eapply (shut_is CName); [done|by vm_compute]|]). apply y_alt_here, y_seq; [|done].
    eapply (y_cons _ _ [_] _ _ [_]); [apply (y_cap _ _ _ _ []), y_tok|]. apply y_lit_then. exact Hl.
  - fill_in. cbn -[gist chars]. by rewrite ?gist_gist, ?app_nil_r, str_chars.
Qed.
Lemma w_object_item t : kind_of t = KTypeObjectItem → writable t → (∀ c, size c < size t → writable c → good c) → entry_claim FType t.
Proof.
  intros Hk Hw IH. shape t Hk Hw IH. intros (s0 & ->) (oc & -> & _) (s & ->) (x & -> & Hx). cbn [writable_node kind_of] in Hn.
  rewrite none_one, none_nil in Hn. acc_in Hn. destruct Hn as (Hn & [-> _] & ->%chars_nil). part Hx E u W g Hf Ho.
  exists u, W. unfold kind_of. acc. cbn [fmt_of]. split; [by apply (told_format _ _ _ _ Hx)|]. split; [intros; leg_c Hx E|]. split; [done|]. split; [done|].
  intros o Hq. destruct (y_line_one FType KParameterType x u W g o) as [l Hl]; [done|done|quiet|done|]. eapply y_node_of; [|done|].
  - cbn [grammar kind_of]. do 2 (apply y_alt_next; [eapply (shut_is CName); [done|by vm_compute]|]). apply y_alt_here, y_seq; [|done].
    eapply (y_cons _ _ [_] _ _ [_]); [apply (y_cap _ _ _ _ []), y_tok|]. apply y_lit_then. exact Hl.
  - fill_in. cbn -[gist chars]. by rewrite ?gist_gist, ?app_nil_r, str_chars.
Qed.
Lemma leg_spaces n z u W : upto not_blank (u ++ z) → legible z u W → legible z ((replicate n " "%char ++ chars " ") ++ u) W.
Proof.
  intros Hu H. apply leg_blank; [by intros [_ ?]%app_nil| |by apply upto_stops|done]. apply Forall_app. split; [|by repeat constructor].
  apply Forall_forall. intros c Hc. by apply elem_of_replicate in Hc as [-> _].
Qed.
Inductive entered (f : fld) (k : kind) : list ast → list (text * list lexeme) → Prop :=
| entered_nil : entered f k [] []
| entered_cons c cs u W l :
    kind_of c = k → fmt_of format (emb_of f c) = Ok u → (∀ z, upto soft z → legible z u W) → starts lead u → name (str_of FLabel c) →
    (∀ o, avoids rows_end o → says_node k ((TIdent, str_of FLabel c) :: (TOpColon, chars ":") :: W ++ lfs 1) o (gist c)) →
    entered f k cs l → entered f k (c :: cs) ((u, (TIdent, str_of FLabel c) :: (TOpColon, chars ":") :: W) :: l).
Lemma entered_fine f k cs :
  (k = KTypeEnumItem ∧ f = FValue) ∨ (k = KTypeObjectItem ∧ f = FType) → Forall (fine k) cs → ∃ l, entered f k cs l.
Proof.
  intros Hk. induction 1 as [|c cs (E & _ & Hc) _ [l IH]]; [eexists; constructor|].
  assert (entry_claim f c) as (u & W & H1 & H2 & H3 & H4 & H5).
  { unfold good in Hc. rewrite E in Hc. by destruct Hk as [[-> ->]|[-> ->]]. }
  rewrite E in H5. eexists. by econstructor.
Qed.
Lemma entered_longest f k cs l : entered f k cs l → ∃ n, longest (map Some cs) = Ok n.
Proof. induction 1 as [|????? ??????? [n IH]]; [by eexists|]. cbn [map longest]. rewrite IH. by eexists. Qed.
Lemma entered_text f k cs l n :
  entered f k cs l → ∃ u, format_entries format f n (map Some cs) = Ok u ∧
    (∀ z, upto is_lf z → legible z u (flat_map (λ p, LF :: p.2) l)) ∧ ∀ z, upto is_lf z → upto is_lf (u ++ z).
Proof.
  induction 1 as [|c cs u W l E F L S N Y H (v & IH1 & IH2 & IH3)]; [exists []; split; [done|]; split; [constructor|done]|].
  eexists. cbn [map format_entries]. rewrite F, IH1. split; [done|]. split; [|done]. intros z Hz. cbn [flat_map app snd].
  constructor. apply leg_name; [done|edge|]. leg_o. rewrite (assoc_L (++) (replicate _ _)). apply leg_spaces; [edge|].
  apply leg_app; [|by apply IH2]. apply L. apply (upto_impl is_lf); [by vm_compute|]. by apply IH3.
Qed.
Lemma entered_says f k cs l :
  (k = KTypeEnumItem ∨ k = KTypeObjectItem) → entered f k cs l →
  avoids rows_end (follow (flat_map (λ p, p.2 ++ [LF]) l) (Some rbrace)) ∧
  ∃ m, says_many (GSub FItems k) (flat_map (λ p, p.2 ++ [LF]) l) (Some rbrace) (map (λ t, (FItems, Struct t)) (map gist cs)) m.
Proof.
  intros Hk. induction 1 as [|c cs u W l E F L S N Y H (IH1 & m & IH2)].
  - split; [quiet|]. eexists. apply y_end. destruct Hk as [-> | ->]; shuts.
  - split.
    + cbn [flat_map app follow snd]. eapply (avoids_is CName); [done|by vm_compute].
    + eexists. eapply (y_more (GSub FItems k) (_ ++ [LF]) _ _ [_]); [apply y_sub, Y, IH1|done|exact IH2].
Qed.
Lemma entered_shift (l : list (text * list lexeme)) :
  flat_map (λ p, LF :: p.2) l ++ lfs 1 = LF :: flat_map (λ p, p.2 ++ [LF]) l.
Proof.
  induction l as [|[u W] l IH]; [done|]. cbn [flat_map snd app]. rewrite <- !app_assoc. cbn [app]. f_equal. f_equal. exact IH.
Qed.
Lemma w_enum t : kind_of t = KTypeEnum → writable t → (∀ c, size c < size t → writable c → good c) → entries_claim t.
Proof.
  intros Hk Hw IH. shape t Hk Hw IH. intros (oc & cs & -> & Hc & Hcs). clear Hn. destruct (entered_fine FValue KTypeEnumItem cs) as [l H]; [by left|done|].
  destruct (entered_longest _ _ _ _ H) as [n Hl]. destruct (entered_text _ _ _ _ n H) as (u & F & L & _).
  destruct (entered_says _ _ _ _ (or_introl eq_refl) H) as (A & m & Y).
  exists u, (flat_map (λ p, LF :: p.2) l), (flat_map (λ p, p.2 ++ [LF]) l). split; [|split; [done|split; [apply entered_shift|split; [quiet|]]]].
  - rewrite format_unfold. cbn [format_node kind_of]. unfold format_aligned. acc. by rewrite Hc, Hl.
  - eapply y_node_of; [|done|].
    + cbn [grammar kind_of]. apply y_many, Y.
    + fill_in. by rewrite list_is, keep_gist, gist_list_of, Hc.
Qed.
Lemma w_object t : kind_of t = KTypeObject → writable t → (∀ c, size c < size t → writable c → good c) → entries_claim t.
Proof.
  intros Hk Hw IH. shape t Hk Hw IH. intros (oc & cs & -> & Hc & Hcs). clear Hn. destruct (entered_fine FType KTypeObjectItem cs) as [l H]; [by right|done|].
  destruct (entered_longest _ _ _ _ H) as [n Hl]. destruct (entered_text _ _ _ _ n H) as (u & F & L & _).
  destruct (entered_says _ _ _ _ (or_intror eq_refl) H) as (A & m & Y).
  exists u, (flat_map (λ p, LF :: p.2) l), (flat_map (λ p, p.2 ++ [LF]) l). split; [|split; [done|split; [apply entered_shift|split; [quiet|]]]].
  - rewrite format_unfold. cbn [format_node kind_of]. unfold format_aligned. acc. by rewrite Hc, Hl.
  - eapply y_node_of; [|done|].
    + cbn [grammar kind_of]. apply y_many, Y.
    + fill_in. by rewrite list_is, keep_gist, gist_list_of, Hc.
Qed.
Lemma w_type t : kind_of t = KType → writable t → (∀ c, size c < size t → writable c → good c) → claim t.
Proof.
  intros Hk Hw IH. shape t Hk Hw IH. intros (s & ->) (o1 & -> & H1) (o2 & -> & H2). cbn [writable_node kind_of] in Hn.
  unfold just_one in Hn. rewrite !set_in_cons in Hn. acc_in Hn. destruct Hn as [Hs Hn]. pose proof (name_head _ Hs) as Hh.
  assert (∀ d c, (d = "enum" ∧ o1 = Some c ∧ o2 = None) ∨ (d = "object" ∧ o1 = None ∧ o2 = Some c) → kind_of c = (if o1 then KTypeEnum else KTypeObject) →
    entries_claim c → claim (T p KType [(FLabel, VStr s); (FEnum, VPtr o1); (FObject, VPtr o2)])) as Hgo.
  { intros d c Hd E (u & V & W & F & L & HV & HW & Y).
    exists (chars "type" ++ chars " " ++ chars s ++ chars " " ++ chars d ++ chars " " ++ chars "{" ++ tabbed u ++ lf :: chars "}"),
      ((TIdent, chars "type") :: (TIdent, chars s) :: (TIdent, chars d) :: lbrace :: (V ++ [LF]) ++ [rbrace]), false.
    split; [|split; [|split; [done|split; [|split; [done|]]]]].
    - rewrite format_unfold. cbn [format_node kind_of]. acc. destruct Hd as [(-> & -> & ->)|(-> & -> & ->)]; rewrite F; cbn -[tabbed]; by rewrite <- ?app_assoc.
    - intros z Hz. apply leg_name; [by apply name_word; vm_compute|edge|]. leg_s. apply leg_name; [done|edge|]. apply leg_space; [by destruct Hd as [[-> _]|[-> _]]|].
      apply leg_name; [by destruct Hd as [[-> _]|[-> _]]; apply name_word; vm_compute|edge|]. leg_s. apply leg_op_c; [by vm_compute|by apply upto_any; vm_compute|].
      rewrite <- app_assoc. apply leg_app; [apply leg_tabbed, L; done|]. constructor. leg_o.
    - eapply (opens_cons _ (CIs _)); [|exact eq_refl]. pick.
    - intros n o [-> _]. cbn [replicate app] in HV |- *. rewrite app_nil_r, HV. cbn [app].
      assert (∀ f, ∃ m, says_all [GLit "{"; g_lfs; GSub f (kind_of c)] (lbrace :: LF :: W) (Some rbrace) [(f, Struct (gist c))] m) as Hb.
      { intros f. destruct (y_take 1 [GSub f (kind_of c)] W (Some rbrace) [(f, Struct (gist c))] [[]]) as [m Hm]; [done|by apply y_one, y_sub|].
        eexists. apply y_lit_then. exact Hm. }
      destruct Hd as [(-> & -> & ->)|(-> & -> & ->)]; cbn in E; rewrite E in Hb.
      + destruct (Hb FEnum) as [m Hm]. eapply y_node_of; [|done|].
        * cbn [grammar kind_of]. apply y_seq; [|done]. apply y_lit_then. eapply (y_cons _ _ [_] _ _ [_]); [apply (y_cap _ _ _ _ []), y_tok|].
          change ((TIdent, chars "enum") :: lbrace :: LF :: W ++ [rbrace]) with (((TIdent, chars "enum") :: lbrace :: LF :: W) ++ [rbrace]).
          eapply (y_cons _ _ (_ :: _) [rbrace] _ [_] []); [|apply y_lit_then, y_nil]. apply y_alt_here, y_seq; [|done]. apply y_lit_then. exact Hm.
        * fill_in. cbn -[gist chars]. by rewrite ?gist_gist, ?app_nil_r, str_chars.
      + destruct (Hb FObject) as [m Hm]. eapply y_node_of; [|done|].
        * cbn [grammar kind_of]. apply y_seq; [|done]. apply y_lit_then. eapply (y_cons _ _ [_] _ _ [_]); [apply (y_cap _ _ _ _ []), y_tok|].
          change ((TIdent, chars "object") :: lbrace :: LF :: W ++ [rbrace]) with (((TIdent, chars "object") :: lbrace :: LF :: W) ++ [rbrace]).
          eapply (y_cons _ _ (_ :: _) [rbrace] _ [_] []); [|apply y_lit_then, y_nil]. apply y_alt_next; [shuts|].
          apply y_alt_here, y_seq; [|done]. apply y_lit_then. exact Hm.
        * fill_in. cbn -[gist chars]. by rewrite ?gist_gist, ?app_nil_r, str_chars. }
  destruct o1 as [c|].
  - destruct o2; [done|]. destruct H1 as (E & _ & Hg). unfold good in Hg. rewrite E in Hg. eapply (Hgo "enum" c); [by left|done|done].
  - destruct o2 as [c|]; [|done]. destruct H2 as (E & _ & Hg). unfold good in Hg. rewrite E in Hg. eapply (Hgo "object" c); [by right|done|done].
Qed.
