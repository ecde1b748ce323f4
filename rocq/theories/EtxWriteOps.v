(** * Writing trees down: operators *)
From stdpp Require Import base list option strings.
From Coq Require Import Ascii Lia.
From Verif Require Import GoBase EtxAst EtxHeap EtxHeapSpec EtxText EtxLex EtxLexSpec EtxLexFacts EtxLexOps EtxLexIdent EtxLexString EtxUtil EtxNumProofs EtxGram EtxParse EtxParseBase
  EtxParseSpec EtxParseParts EtxParseStore EtxParseTyped EtxParseFirst EtxParseClean EtxSettledSpec EtxSettled EtxSettledExample
  EtxFormat EtxFormatSpec EtxFormatTotal EtxReprintSpec EtxReprint EtxOrder EtxClone EtxWriteSpec EtxCode EtxSays EtxWriteBase EtxWriteLeaf EtxWriteExpr.

(** ** Operators *)
Definition op_name (s : string) : tname := match List.find (λ ok, String.eqb ok.1 s) operators with Some ok => ok.2 | None => TLF end.
Lemma w_unary t : kind_of t = KExprUnary → writable t → (∀ c, size c < size t → writable c → good c) → claim t.
Proof.
  intros Hk Hw IH. shape t Hk Hw IH. intros (s & ->) (x & -> & Hx). cbn [writable_node kind_of] in Hn. acc_in Hn.
  pose proof (fine_kind _ _ Hx) as Ex. apply fine_told in Hx as (u & W & g & Hx); [|done].
  pose proof (told_front _ _ _ _ Hx) as Hf. pose proof (told_opens _ _ _ _ Hx) as Ho. unfold front in Hf. rewrite Ex in Hf, Ho.
  assert (starts clear u) as Hf' by (destruct (numeric x); edge). clear Hf.
  apply elem_of_cons in Hn as [Hs|Hs].
  - apply chars_nil in Hs as ->. exists u, W, false. split; [|split; [|split; [edge|split; [|split; [done|]]]]].
    + rewrite format_unfold. cbn [format_node kind_of]. acc. cbn [fmt_of]. by rewrite (told_format _ _ _ _ Hx).
    + intros z Hz. leg_c Hx Ex.
    + widen.
    + intros n o [-> Ho']. cbn [replicate app]. rewrite app_nil_r. eapply y_node_of; [|done|].
      * cbn [grammar kind_of]. apply y_seq; [|by apply (opens_nonempty _ _ Ho)]. apply y_skip; [shuts|].
        apply y_one. eapply told_last; [done|done|done|quiet].
      * fill_in. cbn -[gist]. by rewrite gist_gist.
  - cbn [operators_of map] in Hs. repeat (apply elem_of_cons in Hs as [Hs|Hs]; [apply chars_inj in Hs; subst s|]); [..|by apply elem_of_nil in Hs].
    all: match goal with |- context [VStr ?s] => let q := eval vm_compute in (op_name s) in
      exists (chars s ++ u), ((q, chars s) :: W), false end.
    all: split; [|split; [|split; [done|split; [|split; [done|]]]]].
    all: try (rewrite format_unfold; cbn [format_node kind_of]; acc; cbn [fmt_of]; by rewrite (told_format _ _ _ _ Hx)).
    all: try (intros z Hz; leg_o; leg_c Hx Ex).
    all: try (eapply (opens_cons _ (CIs _)); [|exact eq_refl]; pick).
    all: intros n o [-> Ho']; cbn [replicate app]; rewrite app_nil_r; eapply y_node_of; [|done|];
      [ cbn [grammar kind_of]; apply y_seq; [|done];
        eapply (y_cons _ _ [_] W _ [_] [_]);
        [apply y_opt, (y_cap _ _ _ _ []); repeat (first [apply y_alt_here, y_tok|apply y_alt_next; [shuts|]])|];
        apply y_one; eapply told_last; [done|done|done|quiet]
      | fill_in; cbn -[gist]; by rewrite gist_gist ].
Qed.
Ltac two_operands Hn :=
  let Hx := fresh "Hx" in let Hy := fresh "Hy" in let Ex := fresh "Ex" in let Ey := fresh "Ey" in
  intros (x & -> & Hx) (s & ->) (oy & -> & Hy); cbn [writable_node kind_of] in Hn; unfold has in Hn; acc_in Hn;
  pose proof (fine_kind _ _ Hx) as Ex; apply fine_told in Hx as (u & W & g & Hx); [|done];
  pose proof (told_front _ _ _ _ Hx) as Hf; pose proof (told_opens _ _ _ _ Hx) as Ho; unfold front in Hf; rewrite Ex in Hf, Ho;
  destruct oy as [y|]; cbn [is_nil negb] in Hn;
  [ pose proof (fine_kind _ _ Hy) as Ey; apply fine_told in Hy as (v & V & g' & Hy); [|done];
    pose proof (told_front _ _ _ _ Hy) as Hf'; pose proof (told_opens _ _ _ _ Hy) as Ho'; unfold front in Hf'; rewrite Ey in Hf', Ho';
    cbn [operators_of map] in Hn; repeat (apply elem_of_cons in Hn as [Hn|Hn]; [apply chars_inj in Hn; subst s|]); [..|by apply elem_of_nil in Hn];
    (match goal with |- context [VStr ?s] => let q := eval vm_compute in (op_name s) in
      exists (u ++ chars " " ++ chars s ++ chars " " ++ v), (W ++ (q, chars s) :: V), false end;
    split; [|split; [|split; [edge|split; [|split; [done|]]]]];
    [ rewrite format_unfold; cbn [format_node kind_of]; unfold format_binary; acc; rewrite decide_False by done; cbn [fmt_of is_nil];
      by rewrite (told_format _ _ _ _ Hx), (told_format _ _ _ _ Hy)
    | intros z Hz; leg_c Hx Ex; leg_s; leg_o; leg_s; leg_c Hy Ey
    | apply opens_app; widen
    | intros n o [-> Hq]; cbn [replicate app]; rewrite app_nil_r; eapply y_node_of; [|done|];
      [ cbn [grammar kind_of]; unfold g_binary; apply y_seq; [|intros [? _]%app_nil; by apply (opens_nonempty _ _ Ho)];
        eapply (y_cons _ _ W); [eapply told_last; [done|done|done|quiet]|];
        apply y_one, y_opt, y_seq; [|done]; eapply (y_cons _ _ [_] V _ [_] [_]);
        [apply (y_cap _ _ _ _ []); repeat (first [apply y_alt_here, y_tok|apply y_tok|apply y_alt_next; [shuts|]])|];
        apply y_one; eapply told_last; [done|done|done|quiet]
      | fill_in; cbn -[gist]; by rewrite !gist_gist ] ])
  | apply chars_nil in Hn as ->; exists u, W, false; split; [|split; [|split; [edge|split; [|split; [done|]]]]];
    [ rewrite format_unfold; cbn [format_node kind_of]; unfold format_binary; acc; rewrite decide_True by done; cbn [fmt_of];
      by rewrite (told_format _ _ _ _ Hx)
    | intros z Hz; leg_c Hx Ex
    | widen
    | intros n o [-> Hq]; cbn [replicate app]; rewrite app_nil_r; eapply y_node_of; [|done|];
      [ cbn [grammar kind_of]; unfold g_binary; apply y_seq; [|by apply (opens_nonempty _ _ Ho)];
        rewrite <- (app_nil_r W);
        eapply (y_cons _ _ W); [eapply told_last; [done|done|done|quiet]|]; apply y_one, y_none; shuts
      | fill_in; cbn -[gist]; by rewrite !gist_gist ] ] ].
Lemma w_mul t : kind_of t = KExprMultiplicative → writable t → (∀ c, size c < size t → writable c → good c) → claim t.
Proof. intros Hk Hw IH. shape t Hk Hw IH. two_operands Hn. Qed.
Lemma w_add t : kind_of t = KExprAdditive → writable t → (∀ c, size c < size t → writable c → good c) → claim t.
Proof. intros Hk Hw IH. shape t Hk Hw IH. two_operands Hn. Qed.
Lemma w_shift t : kind_of t = KExprShift → writable t → (∀ c, size c < size t → writable c → good c) → claim t.
Proof. intros Hk Hw IH. shape t Hk Hw IH. two_operands Hn. Qed.
Lemma w_rel t : kind_of t = KExprRelational → writable t → (∀ c, size c < size t → writable c → good c) → claim t.
Proof. intros Hk Hw IH. shape t Hk Hw IH. two_operands Hn. Qed.
Lemma w_eq t : kind_of t = KExprEquality → writable t → (∀ c, size c < size t → writable c → good c) → claim t.
Proof. intros Hk Hw IH. shape t Hk Hw IH. two_operands Hn. Qed.
Lemma w_band t : kind_of t = KExprBitwiseAnd → writable t → (∀ c, size c < size t → writable c → good c) → claim t.
Proof. intros Hk Hw IH. shape t Hk Hw IH. two_operands Hn. Qed.
Lemma w_bxor t : kind_of t = KExprBitwiseXor → writable t → (∀ c, size c < size t → writable c → good c) → claim t.
Proof. intros Hk Hw IH. shape t Hk Hw IH. two_operands Hn. Qed.
Lemma w_bor t : kind_of t = KExprBitwiseOr → writable t → (∀ c, size c < size t → writable c → good c) → claim t.
Proof. intros Hk Hw IH. shape t Hk Hw IH. two_operands Hn. Qed.
Lemma w_and t : kind_of t = KExprLogicalAnd → writable t → (∀ c, size c < size t → writable c → good c) → claim t.
Proof. intros Hk Hw IH. shape t Hk Hw IH. two_operands Hn. Qed.
Lemma w_or t : kind_of t = KExprLogicalOr → writable t → (∀ c, size c < size t → writable c → good c) → claim t.
Proof. intros Hk Hw IH. shape t Hk Hw IH. two_operands Hn. Qed.
