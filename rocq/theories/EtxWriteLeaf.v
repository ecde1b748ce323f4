(** * Writing trees down: words, strings and values *)
From stdpp Require Import base list option strings.
From Coq Require Import Ascii Lia.
From Verif Require Import GoBase EtxAst EtxHeap EtxHeapSpec EtxText EtxLex EtxLexSpec EtxLexFacts EtxLexOps EtxLexIdent EtxLexString EtxUtil EtxNumProofs EtxGram EtxParse EtxParseBase
  EtxParseSpec EtxParseStore EtxParseTyped EtxParseFirst EtxParseClean EtxSettledSpec EtxSettled EtxSettledExample
  EtxFormat EtxFormatSpec EtxFormatTotal EtxReprintSpec EtxReprint EtxOrder EtxClone EtxWriteSpec EtxCode EtxSays EtxWriteBase.

(** ** Words *)
Definition plain_word (u : text) : bool :=
  forallb is_word u && match u with c :: _ => is_alpha c | [] => false end && forallb (λ kw, negb (bool_decide (str u = fst kw))) keywords.
Lemma name_word u : plain_word u = true → name u.
Proof.
  unfold plain_word. rewrite !andb_true_iff. intros [[H1 H2] H3]. exists u, []. cbn [dashed map concat]. rewrite app_nil_r.
  split; [done|]. split.
  - destruct u as [|c u]; [done|]. split; [|split; [by exists c|constructor]]. split; [done|]. apply Forall_forall. intros d Hd.
    rewrite forallb_forall in H1. by apply H1, elem_of_list_In.
  - intros (kw & E & Hk)%elem_of_list_fmap. rewrite forallb_forall in H3. apply elem_of_list_In, H3, negb_true_iff, bool_decide_eq_false in Hk.
    done.
Qed.

(** ** Identifiers *)
Definition dotted (l : list text) : text := concat (map (λ v, chars "." ++ v) l).
Definition dots (l : list text) : list lexeme := flat_map (λ v, [(TDot, chars "."); (TIdent, v)]) l.
Lemma join_dot v l : join (chars ".") (v :: l) = v ++ dotted l.
Proof.
  revert v. induction l as [|w l IH]; intros v; [cbn; by rewrite app_nil_r|].
  change (join (chars ".") (v :: w :: l)) with (v ++ chars "." ++ join (chars ".") (w :: l)). rewrite IH. unfold dotted. cbn [map concat].
  by rewrite <- !app_assoc.
Qed.
Lemma dotted_upto P l z : P "."%char = true → upto P z → upto P (dotted l ++ z).
Proof. by destruct l. Qed.
Lemma leg_dotted l z : Forall name l → upto mild z → legible z (dotted l) (dots l).
Proof.
  intros Hl Hz. induction Hl as [|v l Hv _ IH]; [constructor|]. pose proof (name_head _ Hv) as Hh.
  change (dotted (v :: l)) with ((chars "." ++ v) ++ dotted l). rewrite <- app_assoc.
  change (dots (v :: l)) with ((TDot, chars ".") :: (TIdent, v) :: dots l).
  leg_o. apply leg_name; [done| |done]. apply dotted_upto; [done|]. edge.
Qed.
Lemma say_dots l o :
  avoids [ALit "."] o →
  ∃ m, says_many (GSeq [GLit "."; GCap FParts (GTok TIdent)]) (dots l) o (map (λ v, (FParts, Texts [v])) l) m.
Proof.
  intros Ho. induction l as [|v l [m IH]]; [eexists; apply y_end; shuts|].
  eexists. eapply (y_more _ [(TDot, chars "."); (TIdent, v)] (dots l) _ [(FParts, Texts [v])]); [|done|exact IH].
  apply y_seq; [|done]. apply y_lit_then, y_one. apply (y_cap _ _ _ _ []), y_tok.
Qed.
Lemma captures_texts f (l : list text) : captures_of f (map (λ v, (f, Texts [v])) l) = map (λ v, Texts [v]) l.
Proof.
  unfold captures_of. induction l as [|v l IH]; [done|]. cbn [map]. rewrite filter_cons, decide_True by done. cbn [map snd]. by f_equal.
Qed.
Lemma texts_singles l : texts_of (map (λ v, Texts [v]) l) = l.
Proof. unfold texts_of. induction l as [|v l IH]; [done|]. cbn in *. by f_equal. Qed.
Lemma map_str_chars l : map str (map chars l) = l.
Proof. induction l as [|s l IH]; [done|]. cbn [map]. by rewrite str_chars, IH. Qed.
Lemma w_ident t : kind_of t = KIdent → writable t → (∀ c, size c < size t → writable c → good c) → claim t.
Proof.
  intros Hk Hw IH. shape t Hk Hw IH. intros (op & ->). cbn [writable_node kind_of] in Hn. acc_in Hn.
  destruct Hn as (H1 & H2 & H3). destruct op as [[[] l]|]; [|done]. cbn [texts] in *. destruct l as [|s l]; [done|]. clear H1. cbn [map] in *.
  apply Forall_cons in H2 as [Hv Hl]. specialize (H3 _ eq_refl). pose proof (name_head _ Hv) as Hh.
  exists (chars s ++ dotted (map chars l)), ((TIdent, chars s) :: dots (map chars l)), false.
  split; [|split; [|split; [|split; [|split]]]].
  - rewrite format_unfold. cbn [format_node kind_of]. acc. cbn [texts map]. by rewrite join_dot.
  - intros z Hz. cbn in Hz. apply leg_name; [done| |by apply leg_dotted]. apply dotted_upto; [done|]. edge.
  - cbn [front kind_of]. edge.
  - eapply (opens_cons _ CPlain); [by left|done].
  - done.
  - intros n o [-> Ho]. change (tails _) with [ALit "."] in Ho. cbn [replicate]. rewrite app_nil_r.
    destruct (say_dots (map chars l) o Ho) as (m & Hm). eapply y_node_of; [|done|].
    + cbn [grammar kind_of]. apply y_seq; [|done]. eapply (y_cons _ _ [_] (dots _)); [apply (y_cap _ _ _ _ []), y_tok|].
      apply y_one, y_opt, y_many, Hm.
    + cbn [kind_of]. unfold gist_fields. cbn [schema fill field_value plain_value app]. rewrite captures_hit, captures_texts. cbn [texts_of flat_map app].
      change (flat_map _ _) with (texts_of (map (λ v, Texts [v]) (map chars l))). rewrite texts_singles. cbn.
      by rewrite str_chars, map_str_chars.
Qed.

(** ** Strings *)
Lemma chars_nil s : chars s = [] → s = "".
Proof. by destruct s. Qed.
Lemma set_in_cons f fs t : set_in (f :: fs) t = (if is_nil (ptr_of f t) then [] else [f]) ++ set_in fs t.
Proof. unfold set_in. rewrite filter_cons. destruct (is_nil (ptr_of f t)); [by rewrite decide_False|by rewrite decide_True]. Qed.
Lemma none_one f fs t : none_of (f :: fs) t ↔ ptr_of f t = None ∧ none_of fs t.
Proof.
  unfold none_of. rewrite set_in_cons. destruct (ptr_of f t) as [c|]; cbn [is_nil app]; [|tauto]. split; [done|]. by intros [? _].
Qed.
Lemma none_nil t : none_of [] t ↔ True.
Proof. done. Qed.
Lemma piece_kinds v : piece_kind v = TQuote ∨ piece_kind v = TNonExpr ∨ piece_kind v = TChar.
Proof. unfold piece_kind. repeat case_decide; tauto. Qed.
Lemma w_fragment t :
  kind_of t = KStringFragment → writable t → (∀ c, size c < size t → writable c → good c) →
  fragment_claim t.
Proof.
  intros Hk Hw IH. unfold fragment_claim. shape t Hk Hw IH. intros (s1 & ->) (s2 & ->) (o1 & -> & _) (o2 & -> & _) (s & ->).
  cbn [writable_node kind_of] in Hn. rewrite !none_one, none_nil in Hn. acc_in Hn. destruct Hn as (-> %chars_nil & -> %chars_nil & (-> & -> & _) & Hp).
  acc. split; [done|]. split; [|split; [unfold blank_line; unfold str_of, get; done|]].
  - rewrite format_unfold. cbn [format_node kind_of]. acc. done.
  - intros o. eapply y_node_of; [|done|].
    + cbn [grammar kind_of].
      destruct (piece_kinds (chars s)) as [-> |[-> | ->]].
      all: do 4 (apply y_alt_next; [shuts|]). all: apply y_alt_here, (y_cap _ _ _ _ []).
      * apply y_alt_next; [shuts|]. apply y_alt_here, y_tok.
      * do 2 (apply y_alt_next; [shuts|]). apply y_alt_here, y_tok.
      * apply y_alt_here, y_tok.
    + fill_in. cbn. by rewrite app_nil_r, str_chars.
Qed.
Lemma fmt_all_is (h : ast → text) cs : (∀ c, c ∈ cs → format c = Ok (h c)) → fmt_all format (map Some cs) = Ok (map h cs).
Proof.
  induction cs as [|c cs IH]; intros H; [done|]. cbn [map fmt_all fmt_of]. rewrite (H c) by (by left). rewrite IH by (intros; apply H; by right).
  done.
Qed.
Lemma keep_all (cs : list ast) : (∀ c, c ∈ cs → blank_line c = false) → keep (map Some cs) = map Some (map gist cs).
Proof.
  induction cs as [|c cs IH]; intros H; [done|]. cbn. rewrite (H c) by (by left). cbn [map]. f_equal. apply IH. intros; apply H; by right.
Qed.
Lemma gist_ptr c : gist_val (VPtr (Some c)) = VPtr (Some (gist c)).
Proof. done. Qed.
Lemma gist_emb c : gist_val (VEmb c) = VEmb (gist c).
Proof. done. Qed.
Lemma gist_map (cs : list ast) : map gist (map gist cs) = map gist cs.
Proof. rewrite map_map. apply map_ext. intros c. apply gist_gist. Qed.
Lemma say_subs f k cs (lx : ast → list lexeme) o :
  (∀ c, c ∈ cs → lx c ≠ [] ∧ ∀ o, says_node k (lx c) o (gist c)) → shut (GSub f k) o →
  ∃ m, says_many (GSub f k) (flat_map lx cs) o (map (λ t, (f, Struct t)) (map gist cs)) m.
Proof.
  intros H Ho. induction cs as [|c cs IH]; [eexists; by apply y_end|]. destruct IH as (m & IH); [intros; apply H; by right|].
  destruct (H c) as [H1 H2]; [by left|]. eexists. cbn [flat_map map]. eapply (y_more _ (lx c) _ _ [_]); [by apply y_sub|done|exact IH].
Qed.
Lemma w_string t : kind_of t = KValueString → writable t → (∀ c, size c < size t → writable c → good c) → claim t.
Proof.
  intros Hk Hw IH. shape t Hk Hw IH. intros (o' & cs & -> & Ho & Hcs). cbn [writable_node kind_of] in Hn. acc_in Hn. rewrite Ho in Hn.
  set (tx := λ c, str_of FText c).
  assert (∀ c, c ∈ cs → kind_of c = KStringFragment ∧ fragment_claim c) as Hf.
  { intros c Hc. rewrite Forall_forall in Hcs. destruct (Hcs c Hc) as (E & _ & Hg). split; [done|]. unfold good in Hg. by rewrite E in Hg. }
  rewrite map_map in Hn. change (map (λ x, _) cs) with (map tx cs) in Hn.
  assert (Forall piece (map tx cs)) as Hp.
  { apply Forall_forall. intros v (c & -> & Hc)%elem_of_list_fmap. by apply Hf in Hc as (_ & ? & _). }
  assert (∀ c, c ∈ cs → blank_line c = false) as Hb by (intros c Hc; by apply Hf in Hc as (_ & _ & _ & ? & _)).
  exists (quote :: concat (map tx cs) ++ [quote]), (string_lexemes (map tx cs)), false.
  split; [|split; [|split; [|split; [|split]]]].
  - rewrite format_unfold. cbn [format_node kind_of]. acc. rewrite Ho. rewrite (fmt_all_is tx); [done|].
    intros c Hc. by apply Hf in Hc as (_ & _ & ? & _).
  - intros z Hz. rewrite <- (app_nil_r (quote :: _)), <- (app_nil_r (string_lexemes _)). apply leg_string; [done|done|constructor].
  - done.
  - eapply (opens_cons _ (CIs _)); [by left|done].
  - done.
  - intros n o [-> _]. cbn [replicate]. rewrite app_nil_r.
    destruct (say_subs FFragment KStringFragment cs (λ c, [(piece_kind (tx c), tx c)]) (Some (TStringEnd, [quote]))) as (m & Hm).
    { intros c Hc. split; [done|]. by apply Hf in Hc as (_ & _ & _ & _ & ?). }
    { shuts. }
    replace (string_lexemes (map tx cs)) with
      ((TString, [quote]) :: flat_map (λ c, [(piece_kind (tx c), tx c)]) cs ++ [(TStringEnd, [quote])]).
    2:{ unfold string_lexemes. rewrite map_map. done. }
    eapply y_node_of; [|done|].
    + cbn [grammar kind_of]. apply y_seq; [|done]. apply y_tok_next. eapply y_cons; [apply y_many, Hm|]. apply y_tok_next, y_nil.
    + fill_in. by rewrite list_is, keep_gist, gist_list_of, Ho.
Qed.

(** ** Values *)
Lemma w_bool t : kind_of t = KValueBool → writable t → (∀ c, size c < size t → writable c → good c) → bool_claim t.
Proof.
  intros Hk Hw IH. shape t Hk Hw IH. intros (b & ->). exists b. split; [|done]. rewrite format_unfold. cbn [format_node kind_of]. by acc.
Qed.
Lemma number_nonempty v : number_text v → v ≠ [].
Proof. intros H. destruct H; try done; by destruct ds. Qed.
Lemma w_number t : kind_of t = KValueNumber → writable t → (∀ c, size c < size t → writable c → good c) → number_claim t.
Proof.
  intros Hk Hw IH. shape t Hk Hw IH. intros (v & ->) (s & ->). cbn [writable_node kind_of] in Hn. acc_in Hn.
  destruct Hn as [[H1 [n H2]] H3]. rewrite get_hit, str_chars in H3. injection H3 as ->. exists (chars s), n.
  split; [done|]. split; [done|]. rewrite str_chars. split; [|done]. rewrite format_unfold. cbn [format_node kind_of]. acc.
  rewrite decide_False by (by apply number_nonempty). done.
Qed.
Lemma number_front v : number_text v → starts clear v.
Proof. intros H%number_starts. revert H. by apply starts_impl; vm_compute. Qed.
Lemma w_value t : kind_of t = KValue → writable t → (∀ c, size c < size t → writable c → good c) → claim t.
Proof.
  intros Hk Hw IH. shape t Hk Hw IH.
  intros (b & ->) (o1 & -> & H1) (o2 & -> & H2) (o3 & -> & H3) (o4 & -> & _) (o5 & -> & H5) (o6 & -> & _).
  cbn [writable_node kind_of] in Hn. destruct Hn as [Hn0 Hn]. rewrite !none_one in Hn0. acc_in Hn0. destruct Hn0 as (-> & -> & _).
  acc_in Hn. unfold just_one in Hn. unfold told, claim. unfold after, front, tails. cbn [kind_of]. unfold numeric, number_value. cbn [kind_of]. acc.
  destruct b.
  { rewrite !none_one in Hn. acc_in Hn. destruct Hn as (-> & -> & -> & -> & _). exists (chars "null"), [(TIdent, chars "null")], false.
    split; [|split; [|split; [|split; [|split]]]]; [| |done| |done|].
    - rewrite format_unfold. cbn [format_node kind_of]. by acc.
    - intros z Hz. cbn in Hz. apply leg_name_end; [by apply name_word; vm_compute|edge].
    - eapply (opens_cons _ (word_is "null")); [by left|done].
    - intros n o [-> _]. cbn [replicate app]. eapply y_node_of; [|done|].
      + cbn [grammar kind_of]. apply y_alt_here, (y_cap _ _ _ _ []). by apply y_lit.
      + fill_in. by cbn. }
  rewrite !set_in_cons in Hn. acc_in Hn. destruct o1 as [c|].
  { destruct o2, o3, o5; try done. destruct H1 as (E & _ & Hg). unfold good in Hg. rewrite E in Hg. destruct Hg as (b & F & G).
    exists (format_bool b), [(TIdent, format_bool b)], false. split; [|split; [|split; [|split; [|split]]]]; [| | | |done|].
    - rewrite format_unfold. cbn [format_node kind_of]. by acc.
    - intros z Hz. cbn in Hz. apply leg_name_end; [apply name_word; by destruct b|edge].
    - by destruct b.
    - destruct b; [eapply (opens_cons _ (word_is "true"))|eapply (opens_cons _ (word_is "false"))]; try done; pick.
    - intros n o [-> _]. cbn [replicate app]. eapply y_node_of; [|done|].
      + cbn [grammar kind_of]. destruct b; (apply y_alt_next; [shuts|]); apply y_alt_here, (y_cap _ _ _ _ []).
        * apply y_alt_here. by apply y_lit.
        * apply y_alt_next; [shuts|]. apply y_alt_here. by apply y_lit.
      + fill_in.  rewrite (gist_ptr c), G. by destruct b. }
  destruct o2 as [c|].
  { destruct o3, o5; try done. destruct H2 as (E & _ & Hg). unfold good in Hg. rewrite E in Hg. destruct Hg as (v & n & Hv & Hc & F & G).
    exists v, [(TNumber, v)], false. split; [|split; [|split; [|split; [|split]]]]; [| | | |done|].
    - rewrite format_unfold. cbn [format_node kind_of]. by acc.
    - intros z Hz. cbn in Hz. rewrite <- (app_nil_r v) at 1. apply leg_number; [done|edge|constructor].
    - by apply number_front.
    - eapply (opens_cons _ CNumber); [pick|done].
    - intros n' o [-> _]. cbn [replicate app]. eapply y_node_of; [|done|].
      + cbn [grammar kind_of]. do 2 (apply y_alt_next; [eapply (shut_is CNumber); [done|by vm_compute]|]).
        apply y_alt_here, (y_cap _ _ _ _ []), y_tok.
      + fill_in. rewrite (gist_ptr c), G, Hc. by cbn. }
  destruct o3 as [c|].
  { destruct o5; [done|]. pose proof (fine_kind _ _ H3) as E. apply fine_told in H3 as (u & W & g & Hc); [|done].
    exists u, W, false. pose proof (told_front _ _ _ _ Hc) as Hf. pose proof (told_opens _ _ _ _ Hc) as Ho.
    unfold front in Hf. rewrite E in Hf, Ho. split; [|split; [|split; [|split; [|split]]]]; [| |done| |done|].
    - rewrite format_unfold. cbn [format_node kind_of]. acc. apply (told_format _ _ _ _ Hc).
    - intros z Hz. leg_c Hc E.
    - widen.
    - intros n' o [-> _]. cbn [replicate app]. rewrite app_nil_r. eapply y_node_of; [|done|].
      + cbn [grammar kind_of]. do 3 (apply y_alt_next; [shuts|]). apply y_alt_here. eapply told_last; [done|done|done|quiet].
      + fill_in.  cbn -[gist]. by rewrite gist_gist. }
  destruct o5 as [c|]; [|done].
  { pose proof (fine_kind _ _ H5) as E. apply fine_told in H5 as (u & W & g & Hc); [|done].
    exists u, W, false. pose proof (told_front _ _ _ _ Hc) as Hf. pose proof (told_opens _ _ _ _ Hc) as Ho.
    unfold front in Hf. rewrite E in Hf, Ho. split; [|split; [|split; [|split; [|split]]]]; [| |done| |done|].
    - rewrite format_unfold. cbn [format_node kind_of]. acc. apply (told_format _ _ _ _ Hc).
    - intros z Hz. leg_c Hc E.
    - widen.
    - intros n' o [-> _]. cbn [replicate app]. rewrite app_nil_r. eapply y_node_of; [|done|].
      + cbn [grammar kind_of]. do 5 (apply y_alt_next; [shuts|]). apply y_alt_here. eapply told_last; [done|done|done|quiet].
      + fill_in.  cbn -[gist]. by rewrite gist_gist. }
Qed.
