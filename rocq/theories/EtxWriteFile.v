(** * Writing trees down: files, functions, lists *)
From stdpp Require Import base list option strings.
From Coq Require Import Ascii Lia.
From Verif Require Import GoBase EtxAst EtxHeap EtxHeapSpec EtxText EtxLex EtxLexSpec EtxLexFacts EtxLexOps EtxLexIdent EtxLexString EtxUtil EtxNumProofs EtxGram EtxParse EtxParseBase
  EtxParseSpec EtxParseParts EtxParseStore EtxParseTyped EtxParseFirst EtxParseClean EtxSettledSpec EtxSettled EtxSettledExample
  EtxFormat EtxFormatSpec EtxFormatTotal EtxReprintSpec EtxReprint EtxOrder EtxClone EtxWriteSpec EtxCode EtxSays EtxWriteBase EtxWriteLeaf EtxWriteExpr EtxWriteOps EtxWriteIf EtxWriteDecl EtxWriteRows.
From Verif Require EtxShape.

(** ** Empty lines *)
Lemma say_empty j o : avoids [ATok TLF] o → ∃ m, says_many (GCap FEmptyLine (GTok TLF)) (lfs j) o (map (λ v, (FEmptyLine, Texts [v])) (replicate j [lf])) m.
Proof.
  intros Ho. induction j as [|j [m IH]]; [eexists; apply y_end; shuts|]. cbn [replicate map].
  eexists. eapply (y_more _ [LF] (lfs j) _ [_]); [apply (y_cap _ _ _ _ []), y_tok|done|exact IH].
Qed.
Lemma y_blank k j o : row_kind k = true → avoids [ATok TLF] o → ∃ t, says_node k (lfs (S j)) o t ∧ blank_line t = true.
Proof.
  intros Hk Ho. destruct (say_empty (S j) o Ho) as [m Hm].
  assert (says g_empty_line (lfs (S j)) o (map (λ v, (FEmptyLine, Texts [v])) (replicate (S j) [lf])) m) as Hs by (by apply y_some_many).
  assert (concat (replicate (S j) [lf]) = replicate (S j) lf) as Hc.
  { generalize (S j). intros i. induction i as [|i IH]; [done|]. cbn. by f_equal. }
  destruct k; try done; eexists; (split; [eapply y_node; [cbn [grammar]; apply y_alt_here, Hs|]|]).
  1, 3, 5: unfold gist_fields; cbn [schema fill field_value plain_value];
    rewrite captures_texts, !captures_texts_ne, texts_singles, Hc by done; reflexivity.
  all: unfold blank_line, str_of; cbn [map fst snd kind_of row_kind andb]; rewrite get_hit; cbn [gist_val]; apply bool_decide_eq_true; by rewrite EtxShape.chars_str.
Qed.

(** ** Items *)
Lemma blank_is p k s fs : row_kind k = true → blank_line (T p k ((FEmptyLine, VStr s) :: fs)) = negb (bool_decide (chars s = [])).
Proof. intros Hk. unfold blank_line. rewrite str_hit. cbn [kind_of]. rewrite Hk. by destruct (chars s). Qed.
Lemma blank_not p k fs : blank_line (T p k ((FEmptyLine, VStr "") :: fs)) = false.
Proof. unfold blank_line. rewrite str_hit. by apply andb_false_r. Qed.
Lemma feeds_not v : feeds v → v ≠ [].
Proof. by intros [? _]. Qed.
Lemma row_of p k s fs e c f j u W g :
  (* an item that is one struct, then a line feed *)
  s = "" → kind_of c = j → told c u W g →
  avoids (tail j) (Some LF) → (∀ z, upto is_lf z → upto (after c) z) →
  format (T p k ((FEmptyLine, VStr s) :: fs)) = Ok (u ++ e) → opens_with (begins k) W →
  (∀ V o l, says_all [GSub f j; g_lf] V o [(f, Struct (gist c))] l → opens_with (begins j) V → says (grammar k) V o [(f, Struct (gist c))] l) →
  gist_fields k [(f, Struct (gist c))] = Some (fields (gist (T p k ((FEmptyLine, VStr s) :: fs)))) →
  row_claim e (T p k ((FEmptyLine, VStr s) :: fs)).
Proof.
  intros -> E Hc Ht Ha F Ho Y Hg. unfold row_claim. rewrite blank_not. cbn [kind_of].
  exists u, W, 0, g. cbn [replicate]. rewrite app_nil_r. split; [done|]. split; [|split; [done|]].
  - intros z Hz. apply (told_leg _ _ _ _ _ Hc). by apply Ha, Hz.
  - intros n o Hn Hq. destruct (y_line f j c u W g n o) as [l Hl]; [done|done|done|done|lia|].
    eapply y_node_of; [|done|exact Hg]. apply Y; [exact Hl|]. rewrite <- E. by eapply opens_app, told_opens.
Qed.
Lemma row_comment p k fs c u W :
  format c = Ok u → (∀ z, legible z u (W ++ lfs 1)) → opens_with [CRemark] W →
  (∀ o, avoids [ATok TSingleLineComment] o → says_node KComment (W ++ lfs 1) o (gist c)) →
  CRemark ∈ begins k →
  format (T p k ((FEmptyLine, VStr "") :: fs)) = Ok u →
  (∀ V o l, says (GSub FComment KComment) V o [(FComment, Struct (gist c))] l → opens_with [CRemark] V → says (grammar k) V o [(FComment, Struct (gist c))] l) →
  gist_fields k [(FComment, Struct (gist c))] = Some (fields (gist (T p k ((FEmptyLine, VStr "") :: fs)))) →
  row_claim [] (T p k ((FEmptyLine, VStr "") :: fs)).
Proof.
  intros F L Ho Yc Hb F' Y Hg. unfold row_claim. rewrite blank_not. cbn [kind_of]. exists u, W, 1, false. rewrite app_nil_r. split; [done|]. split; [by intros; apply L|].
  split; [|].
  - eapply opens_sub; [|exact Ho]. intros x. rewrite elem_of_list_singleton. by intros ->.
  - intros n o Hn Hq. destruct n as [|[|n]]; [lia|lia|]. cbn [Nat.sub replicate follow]. eapply y_node_of; [|done|exact Hg].
    eapply Y; [|by apply opens_app]. apply y_sub, Yc. quiet.
Qed.
Ltac lf_soft := let z := fresh in intros z; apply upto_impl; by vm_compute.
Lemma w_root_item t : kind_of t = KRootItem → writable t → (∀ c, size c < size t → writable c → good c) → row_claim [] t.
Proof.
  intros Hk Hw IH. shape t Hk Hw IH. intros (s & ->) (o1 & -> & H1) (o2 & -> & H2) (o3 & -> & H3) (o4 & -> & _) (o5 & -> & _) (o6 & -> & H6).
  cbn [writable_node kind_of] in Hn. unfold item_of, just_one in Hn. rewrite !set_in_cons, !none_one in Hn. acc_in Hn. destruct Hn as [Hn (-> & -> & _)].
  destruct Hn as [[->%chars_nil Hn]|[Hs (-> & -> & -> & -> & _)]].
  2:{ unfold row_claim. rewrite blank_is by done. rewrite bool_decide_eq_false_2 by (by apply feeds_not). cbn [negb]. exists (chars s). split; [|done].
      rewrite format_unfold. cbn [format_node kind_of]. acc. cbn [first_set]. by rewrite decide_True by (by apply feeds_not). }
  destruct o1 as [c|]; [|destruct o2 as [c|]; [|destruct o3 as [c|]; [|destruct o6 as [c|]; [|done]]]].
  - destruct o2, o3, o6; try done. part H1 E u W g Hf Ho.
    eapply row_of; [done|exact E|exact H1|quiet|unfold after; rewrite E; lf_soft| |widen| |].
    + rewrite format_unfold. cbn [format_node kind_of]. acc. cbn [first_set]. rewrite app_nil_r. apply (told_format _ _ _ _ H1).
    + intros V o l Hl HV. cbn [grammar]. apply y_alt_next; [shuts|]. apply y_alt_here, y_seq; [exact Hl|by apply (opens_nonempty _ _ HV)].
    + fill_in. cbn -[gist]. by rewrite !gist_gist.
  - destruct o3, o6; try done. part H2 E u W g Hf Ho.
    eapply row_of; [done|exact E|exact H2|quiet|unfold after; rewrite E; lf_soft| |widen| |].
    + rewrite format_unfold. cbn [format_node kind_of]. acc. cbn [first_set]. rewrite app_nil_r. apply (told_format _ _ _ _ H2).
    + intros V o l Hl HV. cbn [grammar]. do 2 (apply y_alt_next; [shuts|]). apply y_alt_here, y_seq; [exact Hl|by apply (opens_nonempty _ _ HV)].
    + fill_in. cbn -[gist]. by rewrite !gist_gist.
  - destruct o6; try done. part H3 E u W g Hf Ho.
    eapply row_of; [done|exact E|exact H3|quiet|unfold after; rewrite E; lf_soft| |widen| |].
    + rewrite format_unfold. cbn [format_node kind_of]. acc. cbn [first_set]. rewrite app_nil_r. apply (told_format _ _ _ _ H3).
    + intros V o l Hl HV. cbn [grammar]. do 3 (apply y_alt_next; [shuts|]). apply y_alt_here, y_seq; [exact Hl|by apply (opens_nonempty _ _ HV)].
    + fill_in. cbn -[gist]. by rewrite !gist_gist.
  - destruct H6 as (E & _ & Hg). unfold good in Hg. rewrite E in Hg. destruct Hg as (u & W & F & L & Ho & Y).
    eapply row_comment; [exact F|exact L|exact Ho|exact Y|pick| | |].
    + rewrite format_unfold. cbn [format_node kind_of]. acc. cbn [first_set]. exact F.
    + intros V o l Hl HV. cbn [grammar]. do 6 (apply y_alt_next; [shuts|]). apply y_alt_here. exact Hl.
    + fill_in. cbn -[gist]. by rewrite !gist_gist.
Qed.
Lemma w_statement t : kind_of t = KFuncStatement → writable t → (∀ c, size c < size t → writable c → good c) → row_claim [] t.
Proof.
  intros Hk Hw IH. shape t Hk Hw IH. intros (s & ->) (o1 & -> & H1) (o2 & -> & H2) (o3 & -> & H3).
  cbn [writable_node kind_of] in Hn. unfold item_of, just_one in Hn. rewrite !set_in_cons, !none_one in Hn. acc_in Hn.
  destruct Hn as [[->%chars_nil Hn]|[Hs (-> & -> & -> & _)]].
  2:{ unfold row_claim. rewrite blank_is by done. rewrite bool_decide_eq_false_2 by (by apply feeds_not). cbn [negb]. exists (chars s). split; [|done].
      rewrite format_unfold. cbn [format_node kind_of]. by acc. }
  destruct o1 as [c|]; [|destruct o2 as [c|]; [|destruct o3 as [c|]; [|done]]].
  - destruct o2, o3; try done. destruct H1 as (E & _ & Hg). unfold good in Hg. rewrite E in Hg. destruct Hg as (u & W & F & L & Ho & Y).
    eapply row_comment; [exact F|exact L|exact Ho|exact Y|pick| | |].
    + rewrite format_unfold. cbn [format_node kind_of]. acc. cbn [first_set]. exact F.
    + intros V o l Hl HV. cbn [grammar]. do 1 (apply y_alt_next; [shuts|]). apply y_alt_here. exact Hl.
    + fill_in. cbn -[gist]. by rewrite !gist_gist.
  - destruct o3; try done. part H2 E u W g Hf Ho.
    eapply row_of; [done|exact E|exact H2|quiet|unfold after; rewrite E; lf_soft| |widen| |].
    + rewrite format_unfold. cbn [format_node kind_of]. acc. cbn [first_set]. rewrite app_nil_r. apply (told_format _ _ _ _ H2).
    + intros V o l Hl HV. cbn [grammar]. do 2 (apply y_alt_next; [shuts|]). apply y_alt_here, y_seq; [exact Hl|by apply (opens_nonempty _ _ HV)].
    + fill_in. cbn -[gist]. by rewrite !gist_gist.
  - part H3 E u W g Hf Ho.
    eapply row_of; [done|exact E|exact H3|quiet|unfold after; rewrite E; lf_soft| |widen| |].
    + rewrite format_unfold. cbn [format_node kind_of]. acc. cbn [first_set]. rewrite app_nil_r. apply (told_format _ _ _ _ H3).
    + intros V o l Hl HV. cbn [grammar]. do 3 (apply y_alt_next; [shuts|]). apply y_alt_here, y_seq; [exact Hl|by apply (opens_nonempty _ _ HV)].
    + fill_in. cbn -[gist]. by rewrite !gist_gist.
Qed.
Lemma w_list_item t : kind_of t = KListItem → writable t → (∀ c, size c < size t → writable c → good c) → row_claim [lf] t.
Proof.
  intros Hk Hw IH. shape t Hk Hw IH. intros (s & ->) (o1 & -> & H1) (o2 & -> & _).
  cbn [writable_node kind_of] in Hn. unfold item_of, just_one in Hn. rewrite !set_in_cons, !none_one in Hn. acc_in Hn.
  destruct Hn as [Hn [-> _]]. destruct Hn as [[->%chars_nil Hn]|[Hs (-> & _)]].
  2:{ unfold row_claim. rewrite blank_is by done. rewrite bool_decide_eq_false_2 by (by apply feeds_not). cbn [negb]. exists (chars s). split; [|done].
      rewrite format_unfold. cbn [format_node kind_of]. acc. by rewrite decide_True by (by apply feeds_not). }
  destruct o1 as [c|]; [|done]. part H1 E u W g Hf Ho. unfold row_claim. rewrite blank_is by done. cbn [kind_of].
  exists (u ++ chars ","), (W ++ [comma]), 0, false. cbn [replicate]. rewrite app_nil_r. split; [|split; [|split; [apply opens_app; widen|]]].
  - rewrite format_unfold. cbn [format_node kind_of]. acc. rewrite decide_False by (intros ?; done). rewrite (told_format _ _ _ _ H1).
    rewrite <- app_assoc. done.
  - intros z Hz. leg_c H1 E. leg_o.
  - intros n o Hn' Hq. rewrite <- app_assoc. eapply y_node_of; [|done|].
    + cbn [grammar]. apply y_alt_next; [shuts|]. apply y_alt_here, y_seq; [|by intros [? _]%app_nil; apply (opens_nonempty _ _ Ho)].
      eapply (y_cons _ _ W _ _ [_] []); [eapply (told_says _ _ c); [done|done|quiet|quiet]|].
      eapply (y_cons _ _ [_] [_] _ [] []); [by apply y_opt, y_lit|]. apply y_one, y_opt, y_tok.
    + fill_in. cbn -[gist]. by rewrite !gist_gist.
Qed.

(** ** Rows of items *)
(** [u] is the text of the items; it is read as [n] line feeds, then rows. *)
Record row := Row { words : list lexeme; breaks : nat; tree : ast }.
Definition row_words (r : row) : list lexeme := words r ++ lfs (breaks r).
Inductive laid (k : kind) : list ast → text → nat → list row → Prop :=
| laid_nil : laid k [] [] 0 []
| laid_blank c cs v u n rs :
    blank_line c = true → Forall (λ x, x = lf) v → laid k cs u n rs → laid k (c :: cs) (v ++ u) (length v + n) rs
| laid_row c cs v W i g s u n rs :
    blank_line c = false → (∀ z, (i = 0 → upto is_lf z) → legible z v (W ++ lfs i)) → opens_with (begins k) W →
    (∀ n o, S i <= n → avoids rows_end o → says_node k (W ++ lfs (if g : bool then n else 1)) (follow (lfs (n - if g then n else 1)) o) (gist c)) →
    laid k cs u n rs → laid k (c :: cs) (v ++ replicate (S s) lf ++ u) 0 (Row W (i + (S s + n)) (gist c) :: rs).
Lemma leg_lfs n z u W : legible z u W → legible z (replicate n lf ++ u) (lfs n ++ W).
Proof. intros H. induction n as [|n IH]; [done|]. cbn [replicate app]. by constructor. Qed.
Lemma all_lf v : Forall (λ x, x = lf) v → v = replicate (length v) lf.
Proof. induction 1 as [|x v -> _ IH]; [done|]. cbn. by f_equal. Qed.
Lemma laid_leg k cs u n rs z : laid k cs u n rs → legible z u (lfs n ++ flat_map row_words rs).
Proof.
  induction 1 as [|c cs v u n rs Hb Hv H IH|c cs v W i g s u n rs Hb HL Ho Y H IH]; [constructor| |].
  - rewrite (all_lf v Hv), replicate_length, replicate_add, <- app_assoc. by apply leg_lfs.
  - cbn [replicate app flat_map]. unfold row_words at 1. cbn [words breaks]. rewrite replicate_add, (assoc_L (++) W), <- (assoc_L (++) _ (lfs (S s + n))).
    apply leg_app; [apply HL; intros; done|]. rewrite replicate_add, <- (assoc_L (++) (lfs (S s))). change (lf :: replicate s lf ++ u) with (replicate (S s) lf ++ u).
    by apply leg_lfs.
Qed.
Lemma keep_blank t l : blank_line t = true → keep (Some t :: l) = keep l.
Proof. intros H. unfold keep. cbn. by rewrite H. Qed.
Lemma keep_row t l : blank_line t = false → keep (Some t :: l) = Some (gist t) :: keep l.
Proof. intros H. unfold keep. cbn. by rewrite H. Qed.
Lemma laid_keep k cs u n rs : laid k cs u n rs → keep (map Some (map tree rs)) = keep (map Some cs).
Proof.
  induction 1 as [|c cs v u n rs Hb Hv H IH|c cs v W i g s u n rs Hb HL Ho Y H IH]; [done| |].
  - cbn [map]. by rewrite (keep_blank c).
  - cbn [map tree]. rewrite (keep_row c), keep_row, gist_gist, IH by (by rewrite ?blank_gist). done.
Qed.
(** What follows the items, and what the items start with. *)
Definition apart (k : kind) : bool := row_kind k && forallb (λ c, negb (existsb (may c) rows_end)) (begins k).
Lemma follow_app W V o : follow (W ++ V) o = follow W (follow V o).
Proof. by destruct W. Qed.
Lemma laid_avoids k cs u n rs o : apart k = true → avoids rows_end o → laid k cs u n rs → avoids rows_end (follow (flat_map row_words rs) o).
Proof.
  intros [_ Hk]%andb_true_iff Ho. induction 1 as [|c cs v u n rs Hb Hv H IH|c cs v W i g s u n rs Hb HL Hop Y H IH]; [done|done|].
  cbn [flat_map]. unfold row_words at 1. cbn [words]. rewrite <- app_assoc. eapply (avoids_open (begins k)); [by apply opens_app|done].
Qed.
Lemma say_rows f k cs u n rs o :
  apart k = true → avoids rows_end o → shut (GSub f k) o → laid k cs u n rs → ∀ n0,
  ∃ ts m, says_many (GSub f k) (lfs n0 ++ flat_map row_words rs) o (map (λ t, (f, Struct t)) ts) m ∧
    keep (map Some ts) = keep (map Some (map tree rs)).
Proof.
  intros Ha Hr Hs H. pose proof Ha as [Hk _]%andb_true_iff.
  induction H as [|c cs v u n rs _ Hv H IH|c cs v W i g s u n rs Hbl HL Ho Y H IH]; intros n0.
  - cbn [flat_map map]. rewrite app_nil_r. destruct n0 as [|n0]; [exists [], []; split; [apply y_end, Hs|done]|].
    destruct (y_blank k n0 o Hk) as (t & Ht & Hbt); [quiet|]. exists [t], ([[]] ++ []). split; [|by apply keep_blank].
    rewrite <- (app_nil_r (lfs (S n0))). apply (y_more _ _ [] _ [_] []); [by apply y_sub|done|by apply y_end].
  - apply IH.
  - cbn [flat_map map tree]. unfold row_words at 1. cbn [words breaks]. set (N := i + (S s + n)) in *. set (X := flat_map row_words rs) in *.
    pose proof (laid_avoids k cs u n rs o Ha Hr H) as Hr'. set (d := if g then N else 1). assert (d <= N) by (unfold d, N; destruct g; lia).
    destruct (IH (N - d)) as (ts & m & Hm & Ek).
    assert (says_many (GSub f k) ((W ++ lfs d) ++ lfs (N - d) ++ X) o (map (λ t, (f, Struct t)) (gist c :: ts)) ([[]] ++ m)) as Hcore.
    { cbn [map]. apply (y_more _ _ _ _ [_]); [|by intros [? _]%app_nil; apply (opens_nonempty _ _ Ho)|exact Hm]. apply y_sub.
      rewrite follow_app. apply (Y N); [unfold N; lia|exact Hr']. }
    assert ((W ++ lfs d) ++ lfs (N - d) ++ X = (W ++ lfs N) ++ X) as Eq.
    { rewrite <- !(assoc_L (++)). f_equal. rewrite (assoc_L (++)), <- replicate_add. do 2 f_equal. lia. }
    rewrite Eq in Hcore. assert (blank_line (gist c) = false) as Hbg by (by rewrite blank_gist).
    destruct n0 as [|n0].
    + exists (gist c :: ts), ([[]] ++ m). split; [exact Hcore|]. cbn [map]. rewrite (keep_row _ _ Hbg), (keep_row _ _ Hbg). by rewrite Ek.
    + assert (avoids [ATok TLF] (follow ((W ++ lfs N) ++ X) o)) as Hlf.
      { apply (avoids_mono _ rows_end); [done|]. apply andb_true_iff in Ha as [_ Ha]. rewrite <- (assoc_L (++)).
        eapply (avoids_open (begins k)); [by apply opens_app|done]. }
      destruct (y_blank k n0 _ Hk Hlf) as (t & Ht & Hbt). exists (t :: gist c :: ts), ([[]] ++ ([[]] ++ m)). split.
      * cbn [map]. apply (y_more _ (lfs (S n0)) _ _ [_]); [by apply y_sub|done|exact Hcore].
      * cbn [map]. rewrite (keep_blank _ _ Hbt), (keep_row _ _ Hbg), (keep_row _ _ Hbg). by rewrite Ek.
Qed.

(** *** In files *)
Lemma fmt_cons c cs l : fmt_all format (map Some (c :: cs)) = Ok l → ∃ u us, l = u :: us ∧ format c = Ok u ∧ fmt_all format (map Some cs) = Ok us.
Proof.
  cbn [map fmt_all fmt_of]. destruct (format c) as [u| |]; [|done|done]. destruct (fmt_all format (map Some cs)) as [us| |]; [|done|done].
  intros [= <-]. by exists u, us.
Qed.
Lemma laid_file c cs :
  Forall (fine KRootItem) (c :: cs) →
  ∃ us n rs, fmt_all format (map Some (c :: cs)) = Ok us ∧ laid KRootItem (c :: cs) (join [lf; lf] us ++ [lf]) n rs.
Proof.
  revert c. induction cs as [|c' cs IH]; intros c [(E & _ & Hc) Hcs]%Forall_cons; unfold good in Hc; rewrite E in Hc; unfold row_claim in Hc.
  - destruct (blank_line c) eqn:Eb.
    + destruct Hc as (v & F & Hv). eexists [v], _, _. split; [cbn [map fmt_all fmt_of]; by rewrite F|]. cbn [join].
      rewrite <- (app_nil_r (v ++ [lf])). apply laid_blank; [done| |constructor]. apply Forall_app. split; [by apply Hv|by repeat constructor].
    + destruct Hc as (u & W & i & g & F & L & Ho & Y). rewrite app_nil_r in F. rewrite E in Ho, Y. eexists [u], _, _. split; [cbn [map fmt_all fmt_of]; by rewrite F|].
      cbn [join]. rewrite <- (app_nil_r [lf]). by eapply (laid_row _ _ _ _ _ _ g 0); [..|constructor].
  - destruct (IH c' Hcs) as (us & n & rs & F' & H). destruct (fmt_cons _ _ _ F') as (u' & us' & -> & _ & _). destruct (blank_line c) eqn:Eb.
    + destruct Hc as (v & F & Hv). eexists (v :: u' :: us'), _, _. split; [cbn [map fmt_all fmt_of] in *; by rewrite F, F'|].
      change (join [lf; lf] (v :: u' :: us') ++ [lf]) with ((v ++ [lf; lf] ++ join [lf; lf] (u' :: us')) ++ [lf]).
      rewrite (assoc_L (++) v), <- (assoc_L (++) (v ++ _)). apply laid_blank; [done| |exact H]. apply Forall_app. split; [by apply Hv|by repeat constructor].
    + destruct Hc as (u & W & i & g & F & L & Ho & Y). rewrite app_nil_r in F. rewrite E in Ho, Y.
      eexists (u :: u' :: us'), _, _. split; [cbn [map fmt_all fmt_of] in *; by rewrite F, F'|].
      change (join [lf; lf] (u :: u' :: us') ++ [lf]) with ((u ++ [lf; lf] ++ join [lf; lf] (u' :: us')) ++ [lf]).
      rewrite <- (assoc_L (++) u), <- (assoc_L (++) [lf; lf]). by eapply (laid_row _ _ _ _ _ _ g 1).
Qed.
(** *** In functions and lists *)
Lemma tabbed_lf b p u : indent_from b p (u ++ [lf]) = indent_from b p u ++ [lf].
Proof.
  revert b. induction u as [|c u IH]; intros b; [by destruct b|]. cbn [app indent_from]. rewrite IH. by rewrite <- app_assoc.
Qed.
Lemma tabbed_feeds v : Forall (λ x, x = lf) v → tabbed v = v.
Proof.
  unfold tabbed, indent. generalize true. intros b H. revert b. induction H as [|x v -> _ IH]; intros b; [done|]. cbn [indent_from]. rewrite andb_false_r. cbn [app]. by rewrite IH.
Qed.
Lemma laid_body cs :
  Forall (fine KFuncStatement) cs →
  ∃ us n rs, fmt_all format (map Some cs) = Ok us ∧ length us = length cs ∧ laid KFuncStatement cs (concat (map (λ s, tabbed s ++ [lf]) us)) n rs.
Proof.
  induction cs as [|c cs IH]; [eexists [], _, _; split; [done|]; split; [done|]; constructor|].
  intros [(E & _ & Hc) Hcs]%Forall_cons; unfold good in Hc; rewrite E in Hc; unfold row_claim in Hc. destruct (IH Hcs) as (us & n & rs & F' & Hl & H).
  destruct (blank_line c) eqn:Eb.
  - destruct Hc as (v & F & Hv). eexists (v :: us), _, _. split; [cbn [map fmt_all fmt_of] in *; by rewrite F, F'|]. split; [by cbn; rewrite Hl|].
    cbn [map concat]. apply laid_blank; [done| |exact H]. rewrite tabbed_feeds by apply Hv. apply Forall_app. split; [by apply Hv|by repeat constructor].
  - destruct Hc as (u & W & i & g & F & L & Ho & Y). rewrite app_nil_r in F. rewrite E in Ho, Y.
    eexists (u :: us), _, _. split; [cbn [map fmt_all fmt_of] in *; by rewrite F, F'|]. split; [by cbn; rewrite Hl|].
    cbn [map concat]. rewrite <- (assoc_L (++)). eapply (laid_row _ _ _ _ _ _ g 0); [done| |done|done|exact H]. intros z Hz. by apply leg_tabbed, L.
Qed.
Lemma laid_list cs :
  Forall (fine KListItem) cs →
  ∃ us n rs, fmt_all format (map Some cs) = Ok us ∧ laid KListItem cs (concat (map tabbed us)) n rs.
Proof.
  induction cs as [|c cs IH]; [eexists [], _, _; split; [done|]; constructor|].
  intros [(E & _ & Hc) Hcs]%Forall_cons; unfold good in Hc; rewrite E in Hc; unfold row_claim in Hc. destruct (IH Hcs) as (us & n & rs & F' & H).
  destruct (blank_line c) eqn:Eb.
  - destruct Hc as (v & F & Hv). eexists (v :: us), _, _. split; [cbn [map fmt_all fmt_of] in *; by rewrite F, F'|].
    cbn [map concat]. apply laid_blank; [done| |exact H]. rewrite tabbed_feeds by apply Hv. by apply Hv.
  - destruct Hc as (u & W & i & g & F & L & Ho & Y). rewrite E in Ho, Y.
    eexists ((u ++ [lf]) :: us), _, _. split; [cbn [map fmt_all fmt_of] in *; by rewrite F, F'|].
    cbn [map concat]. unfold tabbed at 1, indent. rewrite tabbed_lf, <- (assoc_L (++)). eapply (laid_row _ _ _ _ _ _ g 0); [done| |done|done|exact H].
    intros z Hz. by apply leg_tabbed, L.
Qed.
Lemma w_list t : kind_of t = KValueList → writable t → (∀ c, size c < size t → writable c → good c) → claim t.
Proof.
  intros Hk Hw IH. shape t Hk Hw IH. intros (oc & cs & -> & Hc & Hcs). clear Hn.
  destruct (laid_list cs Hcs) as (us & n & rs & F & H). set (r := (TOpRBracket, chars "]") : lexeme).
  destruct (say_rows FItems KListItem cs _ _ _ (Some r) ltac:(by vm_compute) ltac:(quiet) ltac:(shuts) H 0) as (ts & m & Hm & Ek).
  pose proof (laid_avoids KListItem _ _ _ _ (Some r) ltac:(by vm_compute) ltac:(quiet) H) as Hav.
  cbn [replicate app] in Hm. set (X := flat_map row_words rs) in *. set (d := if cs then 0 else 1).
  exists (chars "[" ++ replicate d lf ++ concat (map tabbed us) ++ chars "]"), ((TOpLBracket, chars "[") :: lfs (d + n) ++ X ++ [r]), false.
  split; [|split; [|split; [done|split; [|split; [done|]]]]].
  - rewrite format_unfold. cbn [format_node kind_of]. acc. rewrite Hc. destruct cs as [|c cs].
    + by injection F as <-.
    + cbn -[fmt_all join map]. by rewrite F.
  - intros z _. leg_o. rewrite replicate_add, <- (assoc_L (++)). apply leg_lfs. rewrite (assoc_L (++)). apply leg_app; [by eapply laid_leg|]. leg_o.
  - eapply (opens_cons _ (CIs _)); [|exact eq_refl]. pick.
  - intros n' o [-> _]. cbn [replicate]. rewrite app_nil_r.
    destruct (y_take (d + n) [GMany (GSub FItems KListItem); GLit "]"] (X ++ [r]) o (map (λ t, (FItems, Struct t)) ts) (m ++ [chars "]"])) as [m' Hm'].
    { rewrite follow_app. apply (avoids_mono _ rows_end); [done|exact Hav]. }
    { rewrite <- (app_nil_r (map _ ts)). eapply (y_cons _ _ X [r] _ _ []); [by apply y_many|]. apply y_lit_then, y_nil. }
    eapply y_node_of; [|done|].
    + cbn [grammar kind_of]. apply y_seq; [|done]. apply y_lit_then. exact Hm'.
    + fill_in. by rewrite list_is, gist_list_of, Hc, Ek, (laid_keep _ _ _ _ _ H).
Qed.

(** ** Functions *)
Lemma assoc_held {X} f (v : X) fs : assoc f fs = Some v → (f, v) ∈ fs.
Proof.
  induction fs as [|[g w] fs IH]; [done|]. cbn. case_decide as E; [intros [= ->]; rewrite <- E; by left|]. intros H. right. by apply IH.
Qed.
Lemma named_result t :
  kind_of t = KParameterType → writable t → (∀ c, size c < size t → writable c → good c) → has FIdent t = true →
  ∃ u W g, told t u W g ∧ opens_with (begins KIdent) W.
Proof.
  intros Hk Hw IH. shape t Hk Hw IH. intros (o1 & -> & H1) (o2 & -> & H2) Hh.
  cbn [writable_node kind_of] in Hn. unfold just_one in Hn. rewrite !set_in_cons in Hn. acc_in Hn. unfold has in Hh. acc_in Hh.
  destruct o1 as [c|]; [|done]. destruct o2; try done. part H1 E u W g Hf Ho. exists u, W, false. split; [|exact Ho].
  split; [|split; [|split; [edge|split; [|split; [done|]]]]].
  - rewrite format_unfold. cbn [format_node kind_of]. acc. apply (told_format _ _ _ _ H1).
  - intros z Hz. unfold after in Hz. cbn [kind_of] in Hz. leg_c H1 E.
  - widen.
  - intros n o [-> Hq]. cbn [replicate app]. rewrite app_nil_r. eapply y_node_of; [|done|].
    + cbn [grammar kind_of]. apply y_alt_here. eapply told_last; [done|done|done|quiet].
    + fill_in. cbn -[gist]. by rewrite !gist_gist.
Qed.
Definition result_text (rs : list text) : text :=
  match rs with
  | [] => []
  | [r] => chars " " ++ r
  | _ => chars " (" ++ join (chars ", ") rs ++ chars ")"
  end.
Lemma result_part cs :
  Forall (fine KParameterType) cs → (∀ c, cs = [c] → ∃ u W g, told c u W g ∧ opens_with (begins KIdent) W) →
  ∃ us W m, fmt_all format (map Some cs) = Ok us ∧ (∀ z, upto soft z → legible z (result_text us) W) ∧
    says (GOpt (GAlt [GSeq [GLit "("; GOpt (GSeq (g_list FReturn KParameterType)); GLit ")"]; GSub FReturn KParameterType]))
      W (Some lbrace) (map (λ t, (FReturn, Struct t)) (map gist cs)) m.
Proof.
  intros Hcs H1. destruct cs as [|c [|c' cs]].
  - exists [], [], []. split; [done|]. split; [constructor|]. apply y_none. shuts.
  - destruct (H1 c eq_refl) as (u & W & g & Hc & Ho). apply Forall_cons in Hcs as [[E _] _]. exists [u], W, [[]].
    split; [cbn [map fmt_all fmt_of]; by rewrite (told_format _ _ _ _ Hc)|]. split.
    + intros z Hz. change (result_text [u]) with (chars " " ++ u). pose proof (told_front _ _ _ _ Hc) as Hf. unfold front in Hf. rewrite E in Hf. leg_s. leg_c Hc E.
    + apply y_opt, y_alt_next; [shuts|]. apply y_alt_here. eapply told_last; [done|done|done|quiet].
  - destruct (tell_fine KParameterType (c :: c' :: cs)) as (us & Ws & H); [done|done|].
    destruct (opt_list FReturn _ _ _ _ H) as [m Hm]; [quiet|quiet|by vm_compute|].
    exists us, ((TOpLParen, chars "(") :: commas Ws ++ [rparen]), (chars "(" :: m ++ [chars ")"]). split; [by apply tell_format in H|]. split.
    + intros z Hz. assert (result_text us = chars " " ++ chars "(" ++ join (chars ", ") us ++ chars ")") as ->.
      { destruct (tell_lengths _ _ _ _ H) as [E _]. by destruct us as [|? [|? us]]. }
      leg_s. leg_o. apply leg_app; [eapply tell_leg; [|exact H|]; done|]. leg_o.
    + apply y_opt, y_alt_here, y_seq; [|done]. apply y_lit_then. rewrite <- (app_nil_r (map _ _)). eapply (y_cons _ _ (commas Ws) _ _ _ []); [exact Hm|].
      apply y_lit_then, y_nil.
Qed.
Lemma w_func t : kind_of t = KFunc → writable t → (∀ c, size c < size t → writable c → good c) → claim t.
Proof.
  intros Hk Hw IH.
  assert (∀ r, r ∈ omap id (list_of FReturn t) → kind_of r = KParameterType → writable r → has FIdent r = true → ∃ u W g, told r u W g ∧ opens_with (begins KIdent) W) as Hone.
  { intros r Hr Er Hwr Hh. apply named_result; [done|done| |done]. intros c Hc. apply IH. assert (size r < size t); [|lia].
    unfold list_of, get in Hr. destruct (assoc FReturn (fields t)) as [v|] eqn:Ev; [|by apply elem_of_nil in Hr]. apply assoc_held in Ev.
    destruct v as [| | | | | |[[[] l]|]]; try by apply elem_of_nil in Hr. by eapply size_sub. }
  shape t Hk Hw IH. intros (s & ->) (o1 & ps & -> & Eps & Hps) (o2 & rts & -> & Ers & Hrs) (o3 & bs & -> & Ebs & Hbs).
  cbn [writable_node kind_of] in Hn. acc_in Hn. acc_in Hone. destruct Hn as [Hs Hn]. pose proof (name_head _ Hs) as Hh.
  rewrite Ers in Hn. rewrite Ers in Hone.
  destruct (tell_fine KFuncParameter ps) as (us & Ws & H); [done|done|].
  destruct (opt_list FParameters _ _ _ _ H) as [m1 Hm1]; [quiet|quiet|by vm_compute|].
  destruct (result_part rts Hrs) as (vs & V & m2 & F2 & L2 & Hm2).
  { intros c ->. apply Forall_cons in Hrs as [(E & Hwc & _) _]. apply Hone; [by left|done|done|]. by apply Hn. }
  destruct (laid_body bs Hbs) as (bus & n & rs & F & Hl & Hb).
  destruct (say_rows FBody KFuncStatement bs _ _ _ (Some rbrace) ltac:(by vm_compute) ltac:(quiet) ltac:(shuts) Hb 0) as (ts & m3 & Hm3 & Ek).
  pose proof (laid_avoids KFuncStatement _ _ _ _ (Some rbrace) ltac:(by vm_compute) ltac:(quiet) Hb) as Hav.
  cbn [replicate app] in Hm3. set (X := flat_map row_words rs) in *. set (d := if bs then 0 else 1).
  exists (chars "def" ++ chars " " ++ chars s ++ chars "(" ++ join (chars ", ") us ++ chars ")" ++ result_text vs ++ chars " " ++ chars "{" ++
      replicate d lf ++ concat (map (λ s, tabbed s ++ [lf]) bus) ++ chars "}"),
    ((TIdent, chars "def") :: (TIdent, chars s) :: (TOpLParen, chars "(") :: commas Ws ++ rparen :: V ++ lbrace :: lfs (d + n) ++ X ++ [rbrace]), false.
  split; [|split; [|split; [done|split; [|split; [done|]]]]].
  - rewrite format_unfold. cbn [format_node kind_of]. acc. rewrite Eps, Ers, Ebs, (tell_format _ _ _ _ H), F2, F. destruct bs as [|b bs], bus as [|bu bus]; done.
  - intros z _. apply leg_name; [by apply name_word; vm_compute|edge|]. leg_s. apply leg_name; [done|edge|]. apply leg_op_c; [by vm_compute|by apply upto_any; vm_compute|].
    apply leg_app; [eapply tell_leg; [|exact H|]; done|]. apply leg_op_c; [by vm_compute|by apply upto_any; vm_compute|].
    apply leg_app; [by apply L2|]. leg_s. apply leg_op_c; [by vm_compute|by apply upto_any; vm_compute|].
    rewrite replicate_add, <- (assoc_L (++)). apply leg_lfs. rewrite (assoc_L (++)). apply leg_app; [by eapply laid_leg|]. leg_o.
  - eapply (opens_cons _ (CIs _)); [|exact eq_refl]. pick.
  - intros n' o [-> _]. cbn [replicate]. rewrite app_nil_r.
    destruct (y_take (d + n) [GMany (GSub FBody KFuncStatement); GLit "}"] (X ++ [rbrace]) o (map (λ t, (FBody, Struct t)) ts) (m3 ++ [chars "}"])) as [m' Hm'].
    { rewrite follow_app. apply (avoids_mono _ rows_end); [done|exact Hav]. }
    { rewrite <- (app_nil_r (map _ ts)). eapply (y_cons _ _ X [rbrace] _ _ []); [by apply y_many|]. apply y_lit_then, y_nil. }
    eapply y_node_of; [|done|].
    + cbn [grammar kind_of]. apply y_seq; [|done]. apply y_lit_then. eapply (y_cons _ _ [_] _ _ [_]); [apply (y_cap _ _ _ _ []), y_tok|]. apply y_lit_then.
      eapply (y_cons _ _ (commas Ws)); [exact Hm1|]. apply y_lit_then. eapply (y_cons _ _ V); [exact Hm2|]. apply y_pass; [quiet|]. apply y_lit_then. exact Hm'.
    + fill_in. cbn [app]. rewrite ?app_nil_r, !list_is, !keep_gist, !gist_list_of, Eps, Ers, Ebs, Ek, (laid_keep _ _ _ _ _ Hb). cbn -[gist keep map chars]. by rewrite ?app_nil_r, str_chars.
Qed.

(** ** All nodes *)
Lemma all_good t : writable t → good t.
Proof.
  remember (size t) as n eqn:En. revert t En. induction (lt_wf n) as [n _ IH]. intros t -> Hw.
  assert (∀ c, size c < size t → writable c → good c) as Hc by (intros c Hlt Hwc; by apply (IH (size c))).
  clear IH. unfold good. destruct (kind_of t) eqn:Hk.
  all: try exact I.
  all: try (by apply w_root_item). all: try (by apply w_statement). all: try (by apply w_list_item).
  all: try (by apply w_ident). all: try (by apply w_fragment). all: try (by apply w_string). all: try (by apply w_bool). all: try (by apply w_number).
  all: try (by apply w_value). all: try (by apply w_postfix). all: try (by apply w_params). all: try (by apply w_primary).
  all: try (by apply w_unary). all: try (by apply w_mul). all: try (by apply w_add). all: try (by apply w_shift). all: try (by apply w_rel).
  all: try (by apply w_eq). all: try (by apply w_band). all: try (by apply w_bxor). all: try (by apply w_bor). all: try (by apply w_and). all: try (by apply w_or).
  all: try (by apply w_cond). all: try (by apply w_expr). all: try (by apply w_if). all: try (by apply w_case). all: try (by apply w_switch).
  all: try (by apply w_param_type). all: try (by apply w_signature). all: try (by apply w_func_param). all: try (by apply w_decl). all: try (by apply w_func_decl).
  all: try (by apply w_comment). all: try (by apply w_enum_item). all: try (by apply w_object_item). all: try (by apply w_enum). all: try (by apply w_object).
  all: try (by apply w_type). all: try (by apply w_list). all: try (by apply w_func).
  all: destruct (proj2 Hw t ltac:(destruct t; by left)) as [_ Hn]; rewrite Hk in Hn; done.
Qed.

(** ** Files *)
Lemma file_says r :
  writable r → kind_of r = KAST → ∃ u W, format r = Ok u ∧ legible [] u W ∧ says_node KAST W None (gist r).
Proof.
  intros Hw Hk. assert (∀ c, size c < size r → writable c → good c) as IH by (intros c _; apply all_good).
  shape r Hk Hw IH. intros (oc & cs & -> & Hc & Hcs). clear Hn. destruct cs as [|c cs].
  - exists [], []. split; [rewrite format_unfold; cbn [format_node kind_of]; acc; by rewrite Hc|]. split; [constructor|].
    eapply y_node_of; [|done|].
    + cbn [grammar]. apply y_many, y_end. shuts.
    + fill_in. by rewrite (gist_list_of oc), Hc.
  - destruct (laid_file c cs Hcs) as (us & n & rs & F & H).
    destruct (say_rows FItems KRootItem _ _ _ _ None ltac:(by vm_compute) I I H n) as (ts & m & Hm & Ek).
    exists (join [lf; lf] us ++ [lf]), (lfs n ++ flat_map row_words rs). split; [|split].
    + rewrite format_unfold. cbn [format_node kind_of]. acc. rewrite Hc. cbn -[fmt_all join map]. by rewrite F.
    + by eapply laid_leg.
    + eapply y_node_of; [|done|].
      * cbn [grammar]. apply y_many. exact Hm.
      * fill_in. by rewrite list_is, gist_list_of, Hc, Ek, (laid_keep _ _ _ _ _ H).
Qed.
(** A tree that can be written down survives being formatted and parsed again, up to
    positions and blank lines. *)
(*P C75_writable_survives *)
Lemma writable_survives r :
  writable r → kind_of r = KAST → ∃ u r', format r = Ok u ∧ parse u = Ok (Some r') ∧ gist r' = gist r.
Proof.
  intros Hw Hk. destruct (file_says r Hw Hk) as (u & W & F & L & Y). destruct (legible_lex u W L) as (ts & Hl & E).
  destruct (Y (advance (start_pos "") u) (elide ts) [] E eq_refl) as (r' & S & G). exists u, r'. split; [done|]. split; [|done].
  by eapply settled_file_parsed.
Qed.
(** So the text of a tree says everything about it. *)
(*P C75_text_determines_tree *)
Lemma text_determines_tree r1 r2 u :
  writable r1 → kind_of r1 = KAST → format r1 = Ok u → writable r2 → kind_of r2 = KAST → format r2 = Ok u → gist r1 = gist r2.
Proof.
  intros Hw1 Hk1 F1 Hw2 Hk2 F2. destruct (writable_survives r1 Hw1 Hk1) as (u1 & r1' & E1 & P1 & G1).
  destruct (writable_survives r2 Hw2 Hk2) as (u2 & r2' & E2 & P2 & G2). rewrite F1 in E1. rewrite F2 in E2. injection E1 as <-. injection E2 as <-.
  rewrite P1 in P2. injection P2 as <-. by rewrite <- G1, <- G2.
Qed.
