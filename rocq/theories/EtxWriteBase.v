(** * Writing trees down: what is shown of each node *)
From stdpp Require Import base list option strings.
From Coq Require Import Ascii Lia.
From Verif Require Import GoBase EtxAst EtxHeap EtxHeapSpec EtxText EtxLex EtxLexSpec EtxLexFacts EtxLexOps EtxLexIdent EtxLexString EtxUtil EtxNumProofs EtxGram EtxParse EtxParseBase
  EtxParseSpec EtxParseStore EtxParseTyped EtxParseFirst EtxParseClean EtxSettledSpec EtxSettled EtxSettledExample
  EtxFormat EtxFormatSpec EtxFormatTotal EtxReprintSpec EtxReprint EtxOrder EtxClone EtxWriteSpec EtxCode EtxSays.

(** ** What must not follow *)
Definition avoids (l : list atom) (o : option lexeme) : Prop :=
  match o with Some x => ∀ u, lex_of u = x → existsb (atom_is u) l = false | None => True end.
Definition within (l l' : list atom) : bool := forallb (λ a, existsb (λ a', bool_decide (a = a')) l') l.
Lemma avoids_mono l l' o : within l l' = true → avoids l' o → avoids l o.
Proof.
  destruct o as [x|]; [|done]. intros Hw H u Hu. specialize (H u Hu). destruct (existsb (atom_is u) l) eqn:E; [|done].
  apply existsb_exists in E as (a & Ha & E). rewrite <- H. symmetry. apply existsb_exists. exists a. split; [|done].
  unfold within in Hw. rewrite forallb_forall in Hw. specialize (Hw a Ha). apply existsb_exists in Hw as (a' & Ha' & E').
  by apply bool_decide_eq_true in E' as ->.
Qed.
Lemma avoids_nil o : avoids [] o.
Proof. by destruct o. Qed.
Lemma within_cons a l : within l (a :: l) = true.
Proof.
  unfold within. apply forallb_forall. intros x Hx. cbn. apply orb_true_iff. right. apply existsb_exists. exists x. split; [done|].
  by apply bool_decide_eq_true.
Qed.
Lemma avoids_shut g l o : within (firsts tbl g) l = true → avoids l o → shut g o.
Proof.
  intros Hw H%(avoids_mono _ _ _ Hw). destruct o as [x|]; [|done]. intros u Hu.
  enough (closed_at g [u]) as Hc by done. apply closed_token. by apply H.
Qed.
Lemma avoids_is c x l : is_a c x → existsb (may c) l = false → avoids l (Some x).
Proof.
  intros Hx Hc u Hu. destruct (existsb (atom_is u) l) eqn:E; [|done]. apply existsb_exists in E as (a & Ha & E).
  rewrite <- Hc. symmetry. apply existsb_exists. exists a. split; [done|]. by eapply may_is.
Qed.
Lemma avoids_open cs W o l : opens_with cs W → forallb (λ c, negb (existsb (may c) l)) cs = true → avoids l (follow W o).
Proof.
  intros (x & V & c & -> & Hc & Hx) H. cbn [follow]. rewrite forallb_forall in H. apply elem_of_list_In in Hc.
  specialize (H c Hc). apply negb_true_iff in H. by eapply avoids_is.
Qed.

(** The tokens that would continue a struct that is complete. *)
Definition ops_of (k : kind) : list atom :=
  match k with
  | KExprLogicalOr => [ATok TOpLogicalOr] | KExprLogicalAnd => [ATok TOpLogicalAnd] | KExprBitwiseOr => [ATok TOpBitwiseOr]
  | KExprBitwiseXor => [ATok TOpBitwiseXOr] | KExprBitwiseAnd => [ATok TOpBitwiseAnd]
  | KExprEquality => [ATok TOpNotEqual; ATok TOpEqual]
  | KExprRelational => [ATok TOpMore; ATok TOpMoreOrEqual; ATok TOpLess; ATok TOpLessOrEqual]
  | KExprShift => [ATok TOpBitwiseShiftLeft; ATok TOpBitwiseShiftRight] | KExprAdditive => [ATok TOpMinus; ATok TOpPlus]
  | KExprMultiplicative => [ATok TOpDivision; ATok TOpMultiplication; ATok TOpModulo]
  | _ => []
  end.
Definition levels : list kind :=
  [KExprLogicalOr; KExprLogicalAnd; KExprBitwiseOr; KExprBitwiseXor; KExprBitwiseAnd; KExprEquality; KExprRelational; KExprShift;
   KExprAdditive; KExprMultiplicative].
Fixpoint from_level (k : kind) (l : list kind) : list kind :=
  match l with [] => [] | k' :: l' => if decide (k = k') then l else from_level k l' end.
Definition member : list atom := [ALit "."; ALit "("; ALit "["].
Definition tail (k : kind) : list atom :=
  match k with
  | KIdent | KParameterType | KFuncSignature => [ALit "."]
  | KExprPrimary | KExprPostfix | KExprUnary => member
  | KExprConditional | KExpr => ALit "?" :: member ++ flat_map ops_of levels
  | KFuncParameter => [ALit ":"; ALit "."]
  | KDecl | KFuncDecl => [ALit ":"; ALit "="; ALit "?"] ++ member ++ flat_map ops_of levels
  | KExprIf | KExprSwitch | KExprCase | KValue | KValueString | KValueList | KFunc | KType => []
  | k => if decide (k ∈ levels) then member ++ flat_map ops_of (from_level k levels) else []
  end.
Definition tails (t : ast) : list atom :=
  match kind_of t with
  | KExprPrimary => if named_primary t then if has FPost t then member else [ALit "."; ALit "("] else []
  | k => tail k
  end.
Lemma tails_tail t : within (tails t) (tail (kind_of t)) = true.
Proof.
  unfold tails. destruct (kind_of t) eqn:E; try by vm_compute. destruct (named_primary t); [|done]. by destruct (has FPost t).
Qed.
(** The kinds at whose end there may be an if without else, which takes the line feeds
    that follow. *)
Definition greedy_kind (k : kind) : bool :=
  match k with KExpr | KExprConditional | KExprIf | KDecl | KFuncDecl => true | _ => false end.
Definition rows_end : list atom := [ATok TLF; ATok TElse].

(** ** What comes first *)
Definition word_is (s : string) : class := CIs (TIdent, chars s).
Definition op_is (s : string) (k : tname) : class := CIs (k, chars s).
Definition b_value : list class := [word_is "null"; word_is "true"; word_is "false"; CNumber; CIs (TString, [quote]); op_is "[" TOpLBracket].
Definition b_primary : list class := b_value ++ [CPlain].
Definition b_unary : list class :=
  b_primary ++ [op_is "~" TOpBitwiseNot; op_is "!" TOpLogicalNot; op_is "-" TOpMinus; op_is "+" TOpPlus].
Definition b_expr : list class := b_unary ++ [CIs (TIf, chars "if"); CIs (TSwitch, chars "switch")].
Definition begins (k : kind) : list class :=
  match k with
  | KIdent => [CPlain]
  | KParameterType => [CPlain; op_is "(" TOpLParen]
  | KFuncSignature => [op_is "(" TOpLParen]
  | KFuncParameter => [CName]
  | KValue => b_value
  | KValueString => [CIs (TString, [quote])]
  | KValueList => [op_is "[" TOpLBracket]
  | KExprPrimary | KExprPostfix => b_primary
  | KExprIf => [CIs (TIf, chars "if")]
  | KExprSwitch => [CIs (TSwitch, chars "switch")]
  | KExprCase => [CIs (TCase, chars "case"); word_is "default"]
  | KExpr => b_expr
  | KDecl => map word_is ["input"; "output"; "const"; "val"]
  | KFuncDecl => map word_is ["const"; "val"]
  | KFunc => [word_is "def"]
  | KType => [word_is "type"]
  | KComment => [CRemark]
  | KRootItem => map word_is ["input"; "output"; "const"; "val"; "def"; "type"] ++ [CRemark]
  | KFuncStatement => CRemark :: map word_is ["const"; "val"] ++ b_expr
  | KListItem => b_expr
  | KTypeEnumItem | KTypeObjectItem => [CName]
  | _ => b_unary
  end.
Definition front (t : ast) : ascii → bool :=
  match kind_of t with
  | KExprPrimary | KExprPostfix | KValue => if numeric t then clear else gentle
  | KIdent | KValueString | KValueList => gentle
  | KComment => λ _, true
  | _ => lead
  end.
Definition after (t : ast) : ascii → bool :=
  match kind_of t with
  | KExprPrimary => if numeric t || named_primary t && has FPost t then soft else mild
  | KValue => if numeric t then soft else mild
  | KIdent => mild
  | KValueString | KValueList | KComment => λ _, true
  | _ => soft
  end.
Notation LF := ((TLF, [lf]) : lexeme).
Notation lfs n := (replicate n LF).
Definition open_end (g : bool) (l : list atom) (n : nat) (o : option lexeme) : Prop :=
  if g then avoids rows_end o else n = 0 ∧ avoids l o.
Definition told (t : ast) (u : text) (W : list lexeme) (g : bool) : Prop :=
  format t = Ok u ∧ (∀ z, upto (after t) z → legible z u W) ∧ starts (front t) u ∧ opens_with (begins (kind_of t)) W ∧
  (greedy_kind (kind_of t) = false → g = false) ∧
  ∀ n o, open_end g (tails t) n o → says_node (kind_of t) (W ++ lfs n) o (gist t).
Definition claim (t : ast) : Prop := ∃ u W g, told t u W g.
Definition rbrace : lexeme := (TBlockEnd, chars "}").
Definition rparen : lexeme := (TOpRParen, chars ")").
Definition is_lf (c : ascii) : bool := Ascii.eqb c lf.
(** Comments: the line feed of the last one is not counted. *)
Definition comment_claim (t : ast) : Prop :=
  ∃ u W, format t = Ok u ∧ (∀ z, legible z u (W ++ lfs 1)) ∧ opens_with [CRemark] W ∧
    ∀ o, avoids [ATok TSingleLineComment] o → says_node KComment (W ++ lfs 1) o (gist t).
(** Items of files, functions and lists; [e] ends their text.  [n] line feeds follow, of
    which the item takes one, or all. *)
Definition row_claim (e : text) (t : ast) : Prop :=
  if blank_line t then ∃ v, format t = Ok v ∧ feeds v else
  ∃ u W c (g : bool), format t = Ok (u ++ e) ∧ (∀ z, (c = 0 → upto is_lf z) → legible z u (W ++ lfs c)) ∧
    opens_with (begins (kind_of t)) W ∧
    ∀ n o, S c <= n → avoids rows_end o →
      says_node (kind_of t) (W ++ lfs (if g then n else 1)) (follow (lfs (n - if g then n else 1)) o) (gist t).
(** Entries of enums and objects. *)
Definition entry_claim (f : fld) (t : ast) : Prop :=
  ∃ u W, fmt_of format (emb_of f t) = Ok u ∧ (∀ z, upto soft z → legible z u W) ∧ starts lead u ∧ name (str_of FLabel t) ∧
    ∀ o, avoids rows_end o →
      says_node (kind_of t) ((TIdent, str_of FLabel t) :: (TOpColon, chars ":") :: W ++ lfs 1) o (gist t).
Definition entries_claim (t : ast) : Prop :=
  ∃ u V W, format t = Ok u ∧ (∀ z, upto is_lf z → legible z u V) ∧ V ++ lfs 1 = LF :: W ∧
    avoids [ATok TLF] (follow W (Some rbrace)) ∧ says_node (kind_of t) W (Some rbrace) (gist t).
Definition params_claim (t : ast) : Prop :=
  ∃ u W, format t = Ok u ∧ (∀ z, legible (chars ")" ++ z) u W) ∧ says_node KExprInvocationParams W (Some rparen) (gist t).
Definition bool_claim (t : ast) : Prop := ∃ b, format t = Ok (format_bool b) ∧ gist t = T no_pos KValueBool [(FValue, VBool b)].
Definition number_claim (t : ast) : Prop :=
  ∃ v n, number_text v ∧ capture_number v = Some (v, n) ∧ format t = Ok v ∧
    gist t = T no_pos KValueNumber [(FValue, VFloat (Some (tt, str v))); (FSource, VStr (str v))].
Definition fragment_claim (t : ast) : Prop :=
  piece (str_of FText t) ∧ format t = Ok (str_of FText t) ∧ blank_line t = false ∧
  ∀ o, says_node KStringFragment [(piece_kind (str_of FText t), str_of FText t)] o (gist t).
Definition good (t : ast) : Prop :=
  match kind_of t with
  | KAST => True
  | KValueBool => bool_claim t
  | KValueNumber => number_claim t
  | KStringFragment => fragment_claim t
  | KComment => comment_claim t
  | KRootItem | KFuncStatement => row_claim [] t
  | KListItem => row_claim [lf] t
  | KTypeEnumItem => entry_claim FValue t
  | KTypeObjectItem => entry_claim FType t
  | KTypeEnum | KTypeObject => entries_claim t
  | KExprInvocationParams => params_claim t
  | _ => claim t
  end.

(** ** The fields of a node *)
Definition fine (k : kind) (c : ast) : Prop := kind_of c = k ∧ writable c ∧ good c.
Definition items (o : option (unit * list (option ast))) : list (option ast) := match o with Some (_, l) => l | None => [] end.
Definition texts (o : option (unit * list string)) : list text := match o with Some (_, l) => map chars l | None => [] end.
Definition sound_val (ty : ftype) (v : aval) : Prop :=
  match ty with
  | TStr => ∃ s, v = VStr s
  | TBool => ∃ b, v = VBool b
  | TStrs => ∃ o, v = VStrs o
  | TFloat => ∃ o, v = VFloat o
  | TPtr k => ∃ o, v = VPtr o ∧ match o with Some c => fine k c | None => True end
  | TEmb k => ∃ c, v = VEmb c ∧ fine k c
  | TList k => ∃ o cs, v = VList o ∧ items o = map Some cs ∧ Forall (fine k) cs
  end.
Lemma sub_writable t c f v : writable t → (f, v) ∈ fields t → c ∈ val_subs v → typed c = true → writable c.
Proof.
  intros [_ H] Hf Hc Hty. split; [done|]. intros m Hm. apply H. eapply nodes_trans; [|done]. by eapply sub_node.
Qed.
Lemma Forall2_impl_in {X Y} (P Q : X → Y → Prop) l k :
  Forall2 P l k → (∀ x y, x ∈ l → y ∈ k → P x y → Q x y) → Forall2 Q l k.
Proof.
  induction 1 as [|x y l k Hx _ IH]; intros H; constructor; [apply H; [by left|by left|done]|].
  apply IH. intros ????. apply H; by right.
Qed.
Lemma sound_fields t :
  writable t → (∀ c, size c < size t → writable c → good c) →
  Forall2 (λ p q, p.1 = q.1 ∧ sound_val p.2 q.2) (schema (kind_of t)) (fields t).
Proof.
  intros Hw IH. assert (∀ k c f v, (f, v) ∈ fields t → c ∈ val_subs v → kind_of c = k ∧ typed c = true → fine k c) as Hc.
  { intros k c f v Hf Hc [Hk Hty]. assert (writable c) by (by eapply sub_writable). split; [done|]. split; [done|].
    apply IH; [by eapply size_sub|done]. }
  assert (∀ f b l, (f, VList (Some (b, l))) ∈ fields t → None ∉ l) as Hl.
  { intros f b l Hf. destruct Hw as [Hty Hw]. destruct t as [p k fs]. pose proof (typed_nodup _ _ _ Hty) as Hnd.
    destruct (Hw (T p k fs)) as [Hn _]; [by left|]. specialize (Hn f). unfold list_of, get in Hn. cbn [fields] in *.
    rewrite (EtxClone.assoc_elem _ _ _ Hnd Hf) in Hn. by destruct b. }
  destruct Hw as [Hty _]. destruct t as [p k fs]. cbn [kind_of fields] in *. apply typed_unfold in Hty.
  eapply Forall2_impl_in; [exact Hty|]. intros [f ty] [f' v] _ Hv [E H]. cbn [fst snd] in *. subst f'. split; [done|].
  destruct ty as [| | | |k'|k'|k'], v as [| | | |o|c|[[b l]|]]; try done; cbn [sound_val]; try by eexists.
  - exists o. split; [done|]. destruct o as [c|]; [|done]. eapply Hc; [done|by left|]. by apply typed_ptr in H.
  - exists c. split; [done|]. eapply Hc; [done|by left|]. by apply typed_emb in H.
  - apply typed_list_unfold in H. specialize (Hl f b l Hv). exists (Some (b, l)), (omap id l). split; [done|].
    assert (∀ c, c ∈ omap id l → fine k' c) as Hf.
    { intros c Hcl. eapply Hc; [exact Hv|done|]. apply elem_of_list_omap in Hcl as (o & Ho & E). unfold id in E. subst o.
      rewrite Forall_forall in H. by apply (H (Some c)). }
    split; [|by apply Forall_forall]. cbn. clear -Hl. induction l as [|[c|] l IH]; [done| |].
    + cbn. f_equal. apply IH. intros ?. apply Hl. by right.
    + exfalso. apply Hl. by left.
  - exists None, []. done.
Qed.

(** ** Using claims *)
Lemma told_at f k c u W g o :
  kind_of c = k → told c u W g → avoids (tails c) o → avoids rows_end o → says (GSub f k) W o [(f, Struct (gist c))] [[]].
Proof.
  intros <- (_ & _ & _ & _ & _ & H) Ht Hr. apply y_sub. specialize (H 0 o). cbn [replicate] in H. rewrite app_nil_r in H. apply H.
  by destruct g.
Qed.
Lemma told_says f k c u W g o :
  kind_of c = k → told c u W g → avoids (tail k) o → avoids rows_end o → says (GSub f k) W o [(f, Struct (gist c))] [[]].
Proof. intros <- Hc Ht Hr. eapply told_at; [done|done| |done]. eapply avoids_mono; [apply tails_tail|done]. Qed.
Lemma told_over f k c u W g n o :
  kind_of c = k → told c u W g → open_end g (tail k) n o → says (GSub f k) (W ++ lfs n) o [(f, Struct (gist c))] [[]].
Proof.
  intros <- (_ & _ & _ & _ & _ & H) Ho. apply y_sub, H. destruct g; [done|]. destruct Ho as [-> Ho]. split; [done|].
  eapply avoids_mono; [apply tails_tail|done].
Qed.
Lemma told_last_at f k c u W g o :
  kind_of c = k → told c u W g → greedy_kind k = false → avoids (tails c) o → says (GSub f k) W o [(f, Struct (gist c))] [[]].
Proof.
  intros <- (_ & _ & _ & _ & Hg & H) Hk Ht. apply y_sub. specialize (H 0 o). cbn [replicate] in H. rewrite app_nil_r in H. apply H.
  by rewrite (Hg Hk).
Qed.
Lemma told_last f k c u W g o :
  kind_of c = k → told c u W g → greedy_kind k = false → avoids (tail k) o → says (GSub f k) W o [(f, Struct (gist c))] [[]].
Proof.
  intros <- (_ & _ & _ & _ & Hg & H) Hk Ht. apply y_sub. specialize (H 0 o). cbn [replicate] in H. rewrite app_nil_r in H. apply H.
  rewrite (Hg Hk). split; [done|]. eapply avoids_mono; [apply tails_tail|done].
Qed.
Definition claim_kind (k : kind) : bool :=
  match k with
  | KAST | KValueBool | KValueNumber | KStringFragment | KComment | KRootItem | KFuncStatement | KListItem | KTypeEnumItem
  | KTypeObjectItem | KTypeEnum | KTypeObject | KExprInvocationParams => false
  | _ => true
  end.
Lemma fine_told k c : claim_kind k = true → fine k c → ∃ u W g, told c u W g.
Proof. intros Hk (<- & _ & Hc). unfold good in Hc. by destruct (kind_of c). Qed.
Lemma fine_kind k c : fine k c → kind_of c = k.
Proof. by intros [H _]. Qed.
Lemma told_leg c u W g z : told c u W g → upto (after c) z → legible z u W.
Proof. intros (_ & H & _). apply H. Qed.
Lemma told_front c u W g : told c u W g → starts (front c) u.
Proof. by intros (_ & _ & H & _). Qed.
Lemma told_format c u W g : told c u W g → format c = Ok u.
Proof. by intros (H & _). Qed.
Lemma told_opens c u W g : told c u W g → opens_with (begins (kind_of c)) W.
Proof. by intros (_ & _ & _ & H & _). Qed.

(** ** Accessors *)
Lemma get_hit p k f v fs : get f (T p k ((f, v) :: fs) : ast) = Some v.
Proof. unfold get. cbn. by rewrite decide_True. Qed.
Lemma get_miss p k f f' v fs : f ≠ f' → get f (T p k ((f', v) :: fs) : ast) = get f (T p k fs).
Proof. intros Hf. unfold get. cbn. by rewrite decide_False. Qed.
Lemma ptr_hit p k f o fs : ptr_of f (T p k ((f, VPtr o) :: fs)) = o.
Proof. unfold ptr_of. by rewrite get_hit. Qed.
Lemma ptr_miss p k f f' v fs : f ≠ f' → ptr_of f (T p k ((f', v) :: fs)) = ptr_of f (T p k fs).
Proof. intros ?. unfold ptr_of. by rewrite get_miss. Qed.
Lemma emb_hit p k f c fs : emb_of f (T p k ((f, VEmb c) :: fs)) = Some c.
Proof. unfold emb_of. by rewrite get_hit. Qed.
Lemma emb_miss p k f f' v fs : f ≠ f' → emb_of f (T p k ((f', v) :: fs)) = emb_of f (T p k fs).
Proof. intros ?. unfold emb_of. by rewrite get_miss. Qed.
Lemma list_hit p k f o fs : list_of f (T p k ((f, VList o) :: fs)) = items o.
Proof. unfold list_of. rewrite get_hit. by destruct o as [[[] l]|]. Qed.
Lemma list_miss p k f f' v fs : f ≠ f' → list_of f (T p k ((f', v) :: fs)) = list_of f (T p k fs).
Proof. intros ?. unfold list_of. by rewrite get_miss. Qed.
Lemma str_hit p k f s fs : str_of f (T p k ((f, VStr s) :: fs)) = chars s.
Proof. unfold str_of. by rewrite get_hit. Qed.
Lemma str_miss p k f f' v fs : f ≠ f' → str_of f (T p k ((f', v) :: fs)) = str_of f (T p k fs).
Proof. intros ?. unfold str_of. by rewrite get_miss. Qed.
Lemma strs_hit p k f o fs : strs_of f (T p k ((f, VStrs o) :: fs)) = texts o.
Proof. unfold strs_of. rewrite get_hit. by destruct o as [[[] l]|]. Qed.
Lemma strs_miss p k f f' v fs : f ≠ f' → strs_of f (T p k ((f', v) :: fs)) = strs_of f (T p k fs).
Proof. intros ?. unfold strs_of. by rewrite get_miss. Qed.
Lemma bool_hit p k f b fs : bool_of f (T p k ((f, VBool b) :: fs)) = b.
Proof. unfold bool_of. by rewrite get_hit. Qed.
Lemma bool_miss p k f f' v fs : f ≠ f' → bool_of f (T p k ((f', v) :: fs)) = bool_of f (T p k fs).
Proof. intros ?. unfold bool_of. by rewrite get_miss. Qed.
Ltac acc := repeat (rewrite ptr_hit || (rewrite ptr_miss by done) || rewrite emb_hit || (rewrite emb_miss by done) ||
  rewrite list_hit || (rewrite list_miss by done) || rewrite str_hit || (rewrite str_miss by done) ||
  rewrite strs_hit || (rewrite strs_miss by done) || rewrite bool_hit || (rewrite bool_miss by done)).
Ltac acc_in H := repeat (rewrite ptr_hit in H || (rewrite ptr_miss in H by done) || rewrite emb_hit in H || (rewrite emb_miss in H by done) ||
  rewrite list_hit in H || (rewrite list_miss in H by done) || rewrite str_hit in H || (rewrite str_miss in H by done) ||
  rewrite strs_hit in H || (rewrite strs_miss in H by done) || rewrite bool_hit in H || (rewrite bool_miss in H by done)).

Lemma settles_all_app e gs1 gs2 us vs rest cs ds l m :
  settles_all e gs1 us (vs ++ rest) cs l → settles_all e gs2 vs rest ds m →
  settles_all e (gs1 ++ gs2) (us ++ vs) rest (cs ++ ds) (l ++ m).
Proof.
  revert us cs l. induction gs1 as [|g gs1 IH]; intros us cs l H1 H2; inversion H1; subst; [done|]. cbn [app]. rewrite <- !app_assoc.
  econstructor; [by rewrite <- app_assoc|]. by apply IH.
Qed.
Lemma y_app gs1 gs2 W V o cs ds l m :
  says_all gs1 W (follow V o) cs l → says_all gs2 V o ds m → says_all (gs1 ++ gs2) (W ++ V) o (cs ++ ds) (l ++ m).
Proof.
  intros H1 H2 e ws rest Hw Ho. apply map_split in Hw as (ws1 & ws2 & -> & Hw1 & Hw2).
  destruct (H2 e ws2 rest Hw2 Ho) as (ds' & S2 & <-).
  destruct (H1 e ws1 (ws2 ++ rest) Hw1) as (cs' & S1 & <-); [by rewrite next_app, Hw2, Ho|].
  exists (cs' ++ ds'). split; [by apply settles_all_app|]. by rewrite map_app.
Qed.
Lemma y_some_many g W o ds l : says_many g W o ds l → W ≠ [] → says (GSome g) W o ds l.
Proof.
  intros H Hn e ws rest Hw Ho. destruct (H e ws rest Hw Ho) as (cs & S & <-). exists cs. split; [|done].
  inversion S; subst; [done|]. by apply s_some.
Qed.
Lemma y_one g W o cs l : says g W o cs l → says_all [g] W o cs l.
Proof.
  intros H. rewrite <- (app_nil_r W), <- (app_nil_r cs), <- (app_nil_r l). eapply y_cons; [exact H|apply y_nil].
Qed.
Lemma y_tok_then g gs x V o l ds m :
  says g [x] (follow V o) [] l → says_all gs V o ds m → says_all (g :: gs) (x :: V) o ds (l ++ m).
Proof. apply (y_cons g gs [x] V o [] ds). Qed.
Lemma y_lit_then s gs k V o ds m : says_all gs V o ds m → says_all (GLit s :: gs) ((k, chars s) :: V) o ds (chars s :: m).
Proof. intros H. apply (y_tok_then _ _ _ _ _ [_]); [by apply y_lit|done]. Qed.
Lemma y_tok_next k gs v V o ds m : says_all gs V o ds m → says_all (GTok k :: gs) ((k, v) :: V) o ds (v :: m).
Proof. intros H. apply (y_tok_then _ _ _ _ _ [_]); [by apply y_tok|done]. Qed.
Lemma y_skip g gs V o ds m : shut g (follow V o) → says_all gs V o ds m → says_all (GOpt g :: gs) V o ds m.
Proof. intros Hs H. apply (y_cons (GOpt g) gs [] V o [] ds []); [by apply y_none|done]. Qed.

(** ** Captures *)
Lemma captures_nil f : captures_of f [] = [].
Proof. done. Qed.
Lemma captures_hit f c cs : captures_of f ((f, c) :: cs) = c :: captures_of f cs.
Proof. unfold captures_of. by rewrite filter_cons, decide_True. Qed.
Lemma captures_miss f f' c cs : f ≠ f' → captures_of f ((f', c) :: cs) = captures_of f cs.
Proof. intros Hf. unfold captures_of. rewrite filter_cons, decide_False; [done|]. cbn. congruence. Qed.
Lemma gist_list_of (o : option (unit * list (option ast))) : gist_val (VList o) = slice (keep (items o)).
Proof. destruct o as [[b l]|]; [apply gist_list|done]. Qed.
Ltac caps := repeat (rewrite captures_hit || (rewrite captures_miss by done) || rewrite captures_of_app ||
  rewrite captures_of_map || (rewrite captures_of_map_ne by done) || rewrite captures_nil).
Lemma list_is ts :
  gist_val (VList (if decide (map Struct ts = []) then None else Some (tt, map Some (trees_of (map Struct ts))))) = slice (keep (map Some ts)).
Proof. rewrite trees_of_map. case_decide as E; [by apply map_eq_nil in E as ->|apply gist_list]. Qed.
Ltac fill_in := cbn [kind_of]; unfold gist_fields; cbn [schema fill field_value binary app]; rewrite ?app_nil_r; caps; cbn [plain_value];
  rewrite gist_T; cbn [fmap option_fmap option_map map fst snd fields].

Ltac shape t Hk Hw IH :=
  let H := fresh "Hsf" in
  pose proof (sound_fields t Hw IH) as H; pose proof (proj2 Hw t ltac:(destruct t; by left)) as [_ Hn];
  clear IH; destruct t as [p k fs]; cbn [kind_of fields] in H, Hk; subst k; unfold binary in H; cbn [kind_of schema] in H, Hn;
  repeat (let a := fresh "fld" in let b := fresh "val" in let r := fresh "rest" in let E := fresh "E" in let S := fresh "S" in
    apply Forall2_cons_inv_l in H as ([a b] & r & [E S] & H & ->); cbn [fst snd sound_val] in E, S; subst a);
  apply Forall2_nil_inv_l in H as ->;
  repeat match goal with S : ex _ |- _ => revert S end.
Lemma upto_any P z : forallb P all_ascii = true → upto P z.
Proof.
  intros H. destruct z as [|c z]; [done|]. by apply (for_all_ascii _ H).
Qed.
(** Side conditions: the next character, what the next token is not. *)
Ltac edge := rewrite <- ?app_assoc; cbn [app]; first
  [ exact eq_refl
  | eassumption
  | apply upto_any; vm_compute; exact eq_refl
  | match goal with H : starts ?P ?u |- upto ?Q (?u ++ _) => apply (starts_upto P Q); [vm_compute; exact eq_refl|exact H] end
  | match goal with H : upto ?P ?u |- upto ?Q ?u => apply (upto_impl P Q); [vm_compute; exact eq_refl|exact H] end
  | match goal with H : starts ?P ?u |- starts ?Q ?u => apply (starts_impl P Q); [vm_compute; exact eq_refl|exact H] end
  | match goal with H : starts ?P ?u |- starts ?Q (?u ++ _) =>
      apply starts_app, (starts_impl P Q); [vm_compute; exact eq_refl|exact H] end ].
Ltac quiet := cbn [follow app tails tail kind_of]; first
  [ exact I
  | apply avoids_nil
  | eassumption
  | eapply (avoids_is (CIs _)); [exact eq_refl|vm_compute; exact eq_refl]
  | match goal with H : opens_with ?cs ?W |- avoids _ (follow (?W ++ _) _) =>
      eapply (avoids_open cs); [apply opens_app; exact H|vm_compute; exact eq_refl] end
  | match goal with H : opens_with ?cs ?W |- avoids _ (follow ?W _) => eapply (avoids_open cs); [exact H|vm_compute; exact eq_refl] end
  | match goal with H : avoids ?l ?o |- avoids _ ?o => apply (avoids_mono _ l); [vm_compute; exact eq_refl|exact H] end ].
Ltac shuts := cbn [follow app]; first
  [ exact I
  | eapply (shut_is (CIs _)); [exact eq_refl|vm_compute; exact eq_refl]
  | match goal with H : opens_with ?cs ?W |- shut _ (follow (?W ++ _) _) =>
      eapply (shut_open cs); [apply opens_app; exact H|vm_compute; exact eq_refl] end
  | match goal with H : opens_with ?cs ?W |- shut _ (follow ?W _) => eapply (shut_open cs); [exact H|vm_compute; exact eq_refl] end
  | match goal with H : avoids ?l ?o |- shut _ ?o => apply (avoids_shut _ l); [vm_compute; exact eq_refl|exact H] end ].
Lemma leg_op_c o k z u W :
  bool_decide ((o, k) ∈ operators) = true → upto (λ c, negb (extends o c)) (u ++ z) → legible z u W →
  legible z (chars o ++ u) ((k, chars o) :: W).
Proof. intros H%bool_decide_eq_true. by apply leg_op. Qed.
Lemma leg_op_end o k z :
  bool_decide ((o, k) ∈ operators) = true → upto (λ c, negb (extends o c)) z → legible z (chars o) [(k, chars o)].
Proof. intros H Hz. rewrite <- (app_nil_r (chars o)) at 1. apply leg_op_c; [done|done|constructor]. Qed.
Lemma leg_word k n z u W :
  bool_decide ((k, n) ∈ keywords) = true → upto (λ c, negb (is_word c)) (u ++ z) → legible z u W →
  legible z (chars k ++ u) ((n, chars k) :: W).
Proof. intros H%bool_decide_eq_true. by apply leg_keyword. Qed.
Lemma leg_name_end v z : name v → upto after_word z → legible z v [(TIdent, v)].
Proof. intros H Hz. rewrite <- (app_nil_r v) at 1. apply leg_name; [done|done|constructor]. Qed.
Ltac leg_o := first [apply leg_op_c; [vm_compute; exact eq_refl|edge|] | apply leg_op_end; [vm_compute; exact eq_refl|edge]].
Ltac leg_s := apply leg_space; [edge|].
Ltac leg_k := apply leg_word; [vm_compute; exact eq_refl|edge|].
Ltac leg_n := first [apply leg_name; [eassumption|edge|] | apply leg_name_end; [eassumption|edge]].
(** A node that is told: what it starts with and what may follow are computed from its kind. *)
Ltac leg_c H Hk := first
  [ apply leg_app; [apply (told_leg _ _ _ _ _ H); unfold after; rewrite Hk; edge|]
  | apply (told_leg _ _ _ _ _ H); unfold after; rewrite Hk; edge ].
Ltac pick := apply elem_of_list_In; cbn; repeat (first [left; reflexivity|right]).
Ltac widen := eapply opens_sub; [|eassumption]; let c := fresh in intros c; rewrite !elem_of_list_In; cbn; clear; intros; tauto.
