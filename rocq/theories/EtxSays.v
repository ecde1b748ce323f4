(** * Settled descriptions of printed tokens *)
From stdpp Require Import base list option strings.
From Coq Require Import Ascii Lia.
From Verif Require Import GoBase EtxAst EtxHeap EtxHeapSpec EtxText EtxLex EtxUtil EtxGram EtxParse EtxParseBase
  EtxParseSpec EtxParseStore EtxParseTyped EtxParseFirst EtxParseClean EtxSettledSpec EtxSettled EtxSettledExample
  EtxFormat EtxWriteSpec EtxCode.

(** ** The gist of a tree *)
Definition keep (l : list (option ast)) : list (option ast) :=
  omap (λ o, match o with None => Some None | Some t => if blank_line t then None else Some (Some (gist t)) end) l.
Definition slice (l : list (option ast)) : aval := match l with [] => VList None | l => VList (Some (tt, l)) end.
Lemma gist_T p k fs : gist (T p k fs) = T no_pos k (map (λ x, (x.1, gist_val x.2)) fs).
Proof. cbn [gist]. f_equal. induction fs as [|[f v] fs IH]; [done|]. cbn [map fst snd]. by rewrite <- IH. Qed.
Lemma gist_list b l : gist_val (VList (Some (b, l))) = slice (keep l).
Proof.
  unfold slice. cbn [gist_val].
  assert ((fix go (l : list (option ast)) : list (option ast) :=
               match l with
               | [] => []
               | None :: l => None :: go l
               | Some t :: l => if blank_line t then go l else Some (gist t) :: go l
               end) l = keep l) as ->; [|by destruct (keep l)].
  induction l as [|[t|] l IH]; [done| |].
  - cbn. rewrite IH. by destruct (blank_line t).
  - cbn. by rewrite IH.
Qed.
Lemma keep_app l1 l2 : keep (l1 ++ l2) = keep l1 ++ keep l2.
Proof. apply omap_app. Qed.
Lemma assoc_map {X Y} (h : X → Y) f (fs : list (fld * X)) : assoc f (map (λ x, (x.1, h x.2)) fs) = h <$> assoc f fs.
Proof. induction fs as [|[g v] fs IH]; [done|]. cbn. by destruct (decide (f = g)). Qed.
Lemma get_gist f t : get f (gist t) = gist_val <$> get f t.
Proof. destruct t as [p k fs]. unfold get. rewrite gist_T. cbn [fields]. apply assoc_map. Qed.
Lemma blank_gist t : blank_line (gist t) = blank_line t.
Proof.
  assert (kind_of (gist t) = kind_of t) as E by (by destruct t). unfold blank_line, str_of. rewrite get_gist, E. destruct (get FEmptyLine t) as [[s|b|[[[] [|]]|]|o|[c|]|c|[[[] l]|]]|]; try done.
  cbn [fmap option_fmap option_map]. rewrite gist_list. by destruct (keep l).
Qed.
Lemma gist_slice l : Forall (opt_prop (λ t, gist (gist t) = gist t)) l → gist_val (slice (keep l)) = slice (keep l).
Proof.
  intros H. assert (keep (keep l) = keep l) as E.
  { induction H as [|[t|] l Ht _ IH]; [done| |]; cbn.
    - destruct (blank_line t) eqn:Eb; [done|]. cbn. rewrite blank_gist, Eb. rewrite Ht. by f_equal.
    - by f_equal. }
  destruct (keep l) as [|o l'] eqn:El; [done|]. rewrite <- El. unfold slice at 1. rewrite El. rewrite <- El.
  assert (VList (Some ((), keep l)) = VList (Some ((), keep l))) as _ by done.
  rewrite gist_list. by rewrite El, E.
Qed.
Lemma gist_twice : (∀ t, gist (gist t) = gist t) ∧ (∀ v, gist_val (gist_val v) = gist_val v).
Proof.
  apply tree_val_ind; try done.
  - intros p k fs H. rewrite !gist_T. f_equal. rewrite map_map. induction H as [|[f v] fs Hv _ IH]; [done|]. cbn in *. by rewrite Hv, IH.
  - intros [[[] [|]]|]; done.
  - intros t H. cbn. by rewrite H.
  - intros t H. cbn. by rewrite H.
  - intros b l H. rewrite gist_list. by apply gist_slice.
Qed.
Lemma gist_gist t : gist (gist t) = gist t.
Proof. apply gist_twice. Qed.

(** ** What a grammar expression says of lexemes *)
Definition follow (W : list lexeme) (o : option lexeme) : option lexeme := match W with x :: _ => Some x | [] => o end.
Definition next_of (ts : list token) : option lexeme := lex_of <$> head ts.
Definition gistc (c : capture) : capture := match c.2 with Struct t => (c.1, Struct (gist t)) | Texts l => (c.1, Texts l) end.
(** [g] cannot start with the lexeme. *)
Definition shut (g : gexp) (o : option lexeme) : Prop :=
  match o with Some x => ∀ u, lex_of u = x → ¬ opens g u | None => True end.
Definition says (g : gexp) (W : list lexeme) (o : option lexeme) (ds : list capture) (l : list text) : Prop :=
  ∀ e ws rest, map lex_of ws = W → next_of rest = o → ∃ cs, settles e g ws rest cs l ∧ map gistc cs = ds.
Definition says_all (gs : list gexp) (W : list lexeme) (o : option lexeme) (ds : list capture) (l : list text) : Prop :=
  ∀ e ws rest, map lex_of ws = W → next_of rest = o → ∃ cs, settles_all e gs ws rest cs l ∧ map gistc cs = ds.
Definition says_many (g : gexp) (W : list lexeme) (o : option lexeme) (ds : list capture) (l : list text) : Prop :=
  ∀ e ws rest, map lex_of ws = W → next_of rest = o → ∃ cs, settles_many e g ws rest cs l ∧ map gistc cs = ds.
(** The struct [k], with a tree of the gist [t]. *)
Definition says_node (k : kind) (W : list lexeme) (o : option lexeme) (t : ast) : Prop :=
  ∀ e ws rest, map lex_of ws = W → next_of rest = o → ∃ t', settled e k ws rest t' ∧ gist t' = t.

Lemma next_app ws rest : next_of (ws ++ rest) = follow (map lex_of ws) (next_of rest).
Proof. by destruct ws. Qed.
Lemma shut_closed g o ts : shut g o → next_of ts = o → closed_at g ts.
Proof. destruct ts as [|u ts]; [done|]. cbn. intros H E. subst o. by apply H. Qed.
Lemma y_lit s k v o : v = chars s → says (GLit s) [(k, v)] o [] [v].
Proof.
  intros -> e ws rest Hw _. destruct ws as [|w [|]]; try done. injection Hw as _ Hv. exists []. split; [|done].
  rewrite <- Hv. by constructor.
Qed.
Lemma y_tok k v o : says (GTok k) [(k, v)] o [] [v].
Proof.
  intros e ws rest Hw _. destruct ws as [|w [|]]; try done. injection Hw as Hk Hv. exists []. split; [|done].
  rewrite <- Hv. by constructor.
Qed.
Lemma y_sub f k W o t : says_node k W o t → says (GSub f k) W o [(f, Struct t)] [[]].
Proof.
  intros H e ws rest Hw Ho. destruct (H e ws rest Hw Ho) as (t' & H' & <-). exists [(f, Struct t')]. split; [by constructor|done].
Qed.
Lemma y_cap f g W o ds l : says g W o ds l → says (GCap f g) W o (ds ++ [(f, Texts l)]) [[]].
Proof.
  intros H e ws rest Hw Ho. destruct (H e ws rest Hw Ho) as (cs & H' & <-). exists (cs ++ [(f, Texts l)]). split; [by constructor|].
  by rewrite map_app.
Qed.
Lemma y_nil o : says_all [] [] o [] [].
Proof. intros e ws rest Hw _. destruct ws; [|done]. exists []. split; [constructor|done]. Qed.
Lemma map_split {X Y} (h : X → Y) ws W V : map h ws = W ++ V → ∃ ws1 ws2, ws = ws1 ++ ws2 ∧ map h ws1 = W ∧ map h ws2 = V.
Proof. intros H. apply fmap_app_inv in H as (ws1 & ws2 & -> & -> & ->). by exists ws1, ws2. Qed.
Lemma y_cons g gs W V o cs ds l m :
  says g W (follow V o) cs l → says_all gs V o ds m → says_all (g :: gs) (W ++ V) o (cs ++ ds) (l ++ m).
Proof.
  intros H1 H2 e ws rest Hw Ho. apply map_split in Hw as (ws1 & ws2 & -> & Hw1 & Hw2).
  destruct (H2 e ws2 rest Hw2 Ho) as (ds' & S2 & <-).
  destruct (H1 e ws1 (ws2 ++ rest) Hw1) as (cs' & S1 & <-); [by rewrite next_app, Hw2, Ho|].
  exists (cs' ++ ds'). split; [by constructor|]. by rewrite map_app.
Qed.
Lemma y_seq gs W o ds l : says_all gs W o ds l → W ≠ [] → says (GSeq gs) W o ds l.
Proof.
  intros H HW e ws rest Hw Ho. destruct (H e ws rest Hw Ho) as (cs & S & <-). exists cs. split; [|done].
  constructor; [done|]. intros ->. by subst.
Qed.
Lemma y_alt gs1 g gs2 W o ds l :
  Forall (λ g', shut g' (follow W o)) gs1 → says g W o ds l → says (GAlt (gs1 ++ g :: gs2)) W o ds l.
Proof.
  intros Hs H e ws rest Hw Ho. destruct (H e ws rest Hw Ho) as (cs & S & <-). exists cs. split; [|done]. constructor; [|done].
  intros g' Hg. rewrite Forall_forall in Hs. eapply shut_closed; [by apply Hs|]. by rewrite next_app, Hw, Ho.
Qed.
Lemma y_alt_here g gs W o ds l : says g W o ds l → says (GAlt (g :: gs)) W o ds l.
Proof. intros H. by apply (y_alt []). Qed.
Lemma y_alt_next g gs W o ds l : shut g (follow W o) → says (GAlt gs) W o ds l → says (GAlt (g :: gs)) W o ds l.
Proof.
  intros Hs H e ws rest Hw Ho. destruct (H e ws rest Hw Ho) as (cs & S & <-). exists cs. split; [|done].
  inversion S as [| | | | |gs1 g0 gs2 ? ? ? ? H1 H2| | | |]; subst. apply (s_alt e (g :: gs1) g0 gs2); [|done].
  intros g' [->|Hg]%elem_of_cons; [|by apply H1]. eapply shut_closed; [done|]. by rewrite next_app.
Qed.
Lemma y_none g o : shut g o → says (GOpt g) [] o [] [].
Proof.
  intros H e ws rest Hw Ho. destruct ws; [|done]. exists []. split; [|done]. constructor. by eapply shut_closed.
Qed.
Lemma y_opt g W o ds l : says g W o ds l → says (GOpt g) W o ds l.
Proof. intros H e ws rest Hw Ho. destruct (H e ws rest Hw Ho) as (cs & S & <-). exists cs. split; [|done]. by apply s_opt. Qed.
Lemma y_end g o : shut g o → says_many g [] o [] [].
Proof.
  intros H e ws rest Hw Ho. destruct ws; [|done]. exists []. split; [|done]. constructor. by eapply shut_closed.
Qed.
Lemma y_more g W V o cs ds l m :
  says g W (follow V o) cs l → W ≠ [] → says_many g V o ds m → says_many g (W ++ V) o (cs ++ ds) (l ++ m).
Proof.
  intros H1 HW H2 e ws rest Hw Ho. apply map_split in Hw as (ws1 & ws2 & -> & Hw1 & Hw2).
  destruct (H2 e ws2 rest Hw2 Ho) as (ds' & S2 & <-).
  destruct (H1 e ws1 (ws2 ++ rest) Hw1) as (cs' & S1 & <-); [by rewrite next_app, Hw2, Ho|].
  exists (cs' ++ ds'). split; [|by rewrite map_app]. constructor; [done| |done]. intros ->. by subst.
Qed.
Lemma y_many g W o ds l : says_many g W o ds l → says (GMany g) W o ds l.
Proof. intros H e ws rest Hw Ho. destruct (H e ws rest Hw Ho) as (cs & S & <-). exists cs. split; [|done]. by apply s_many. Qed.
Lemma y_some g W V o cs ds l m :
  says g W (follow V o) cs l → W ≠ [] → says_many g V o ds m → says (GSome g) (W ++ V) o (cs ++ ds) (l ++ m).
Proof.
  intros H1 HW H2 e ws rest Hw Ho. apply map_split in Hw as (ws1 & ws2 & -> & Hw1 & Hw2).
  destruct (H2 e ws2 rest Hw2 Ho) as (ds' & S2 & <-).
  destruct (H1 e ws1 (ws2 ++ rest) Hw1) as (cs' & S1 & <-); [by rewrite next_app, Hw2, Ho|].
  exists (cs' ++ ds'). split; [|by rewrite map_app]. constructor; [done| |done]. intros ->. by subst.
Qed.

(** ** Structs *)
Lemma captures_gist f cs : captures_of f (map gistc cs) = map (λ c, match c with Struct t => Struct (gist t) | c => c end) (captures_of f cs).
Proof.
  unfold captures_of. induction cs as [|[g c] cs IH]; [done|].
  change (map gistc ((g, c) :: cs)) with (gistc (g, c) :: map gistc cs). rewrite !filter_cons.
  assert ((gistc (g, c)).1 = g) as E by (by destruct c). destruct (decide (g = f)) as [Hg|Hg].
  - rewrite !decide_True by (rewrite ?E; done). cbn [map]. f_equal; [by destruct c|exact IH].
  - rewrite !decide_False by (rewrite ?E; done). exact IH.
Qed.
Notation gc := (λ c, match c with Struct t => Struct (gist t) | c => c end).
Lemma texts_gist cs : texts_of (map gc cs) = texts_of cs.
Proof. unfold texts_of. induction cs as [|[] cs IH]; [done|..]; cbn; by rewrite IH. Qed.
Lemma trees_gist cs : trees_of (map gc cs) = map gist (trees_of cs).
Proof. unfold trees_of. induction cs as [|[] cs IH]; [done|..]; cbn; by rewrite IH. Qed.
Lemma keep_gist l : keep (map Some (map gist l)) = keep (map Some l).
Proof.
  induction l as [|t l IH]; [done|]. cbn [map]. change (keep (?x :: ?l)) with (keep ([x] ++ l)). rewrite !keep_app, IH. f_equal.
  cbn. by rewrite blank_gist, gist_gist.
Qed.
Lemma plain_gist k f ty cs : gist_val <$> plain_value k f ty (map gc cs) = gist_val <$> plain_value k f ty cs.
Proof.
  assert (map gc cs = [] ↔ cs = []) as Hn by (by destruct cs). unfold plain_value. rewrite texts_gist, trees_gist.
  destruct ty; cbn [fmap option_fmap option_map].
  - done.
  - by destruct cs.
  - by destruct cs.
  - rewrite fmap_last. destruct (last (trees_of cs)); [|done]. cbn. by rewrite gist_gist.
  - rewrite fmap_last. destruct (last (trees_of cs)); [|done]. cbn. by rewrite gist_gist.
  - rewrite fmap_last. destruct (last (trees_of cs)); [|done]. cbn. by rewrite gist_gist.
  - destruct cs as [|c cs]; [done|]. cbn [map]. rewrite !decide_False by done. f_equal. rewrite !gist_list. by rewrite keep_gist.
Qed.
Lemma value_gist k f ty cs : gist_val <$> field_value k f ty (map gistc cs) = gist_val <$> field_value k f ty cs.
Proof.
  assert (gist_val <$> plain_value k f ty (captures_of f (map gistc cs)) = gist_val <$> plain_value k f ty (captures_of f cs)) as H.
  { rewrite captures_gist. apply plain_gist. }
  assert (∀ f, captures_of f (map gistc cs) = map gc (captures_of f cs)) as Hc by (intros; apply captures_gist).
  destruct k; try exact H; destruct f; try exact H; clear H; unfold field_value; rewrite Hc;
    destruct (captures_of _ cs) as [|[[|? [|]]|] [|]]; done.
Qed.
(** The fields that captures determine. *)
Definition gist_fields (k : kind) (ds : list capture) : option (list (fld * aval)) := map (λ x, (x.1, gist_val x.2)) <$> fill k ds (schema k).
Lemma fill_gist k cs tys : map (λ x, (x.1, gist_val x.2)) <$> fill k (map gistc cs) tys = map (λ x, (x.1, gist_val x.2)) <$> fill k cs tys.
Proof.
  induction tys as [|[f ty] tys IH]; [done|]. cbn [fill]. pose proof (value_gist k f ty cs) as H.
  destruct (field_value k f ty (map gistc cs)) as [v|], (field_value k f ty cs) as [v'|]; try done.
  destruct (fill k (map gistc cs) tys), (fill k cs tys); try done. injection H as H. injection IH as IH.
  cbn [fmap option_fmap option_map map fst snd]. by rewrite H, IH.
Qed.
Lemma y_node k W o ds l fs : says (grammar k) W o ds l → gist_fields k ds = Some fs → says_node k W o (T no_pos k fs).
Proof.
  intros H Hf e ws rest Hw Ho. destruct (H e ws rest Hw Ho) as (cs & S & <-). unfold gist_fields in Hf. rewrite fill_gist in Hf.
  destruct (fill k cs (schema k)) as [gs|] eqn:E; [|done]. injection Hf as Hf.
  exists (T (match k with KAST => no_pos | _ => first_pos e (ws ++ rest) end) k gs). split.
  - econstructor; [done|]. by apply fill_filled.
  - by rewrite gist_T, Hf.
Qed.
Lemma y_node_of k W o ds l t :
  says (grammar k) W o ds l → kind_of t = k → gist_fields k ds = Some (fields (gist t)) → says_node k W o (gist t).
Proof.
  intros H Hk Hf. replace (gist t) with (T no_pos k (fields (gist t))); [by eapply y_node|].
  destruct t as [p k' fs]. cbn in Hk. subst k'. by rewrite gist_T.
Qed.
Lemma node_cast k W W' o t t' : says_node k W o t → W = W' → t = t' → says_node k W' o t'.
Proof. by intros H <- <-. Qed.
(** ** First lexemes *)
Inductive class : Type := CIs (x : lexeme) | CName | CPlain | CNumber | CRemark.
Definition is_a (c : class) (x : lexeme) : Prop :=
  match c with
  | CIs y => x = y
  | CName => x.1 = TIdent ∧ name x.2
  | CPlain => x.1 = TIdent ∧ name x.2 ∧ x.2 ∉ map chars reserved
  | CNumber => x.1 = TNumber ∧ EtxNumProofs.number_text x.2
  | CRemark => x.1 = TSingleLineComment ∧ remark x.2
  end.
Definition starts_with (P : ascii → bool) (s : string) : bool := match chars s with c :: _ => P c | [] => false end.
Definition number_start (c : ascii) : bool := is_digit c || one_of_chars "_." c.
Lemma digits_start ds : EtxNumProofs.digits_of is_digit ds → ds ≠ [] → starts number_start ds.
Proof.
  intros H Hn. destruct H as [|c ds [Hc| ->] _]; [done| |done]. cbn. unfold number_start. by rewrite Hc.
Qed.
Lemma number_starts v : EtxNumProofs.number_text v → starts number_start v.
Proof.
  intros H. destruct H as [x ds ???|x ds ??|x ds ??|ds e H Hn He|ds fs e H1 H2 H3 He]; try done.
  - by apply starts_app, digits_start.
  - destruct ds as [|d ds]; [done|]. change (starts number_start ((d :: ds) ++ "."%char :: fs ++ e)). by apply starts_app, digits_start.
Qed.
Definition may (c : class) (a : atom) : bool :=
  match c, a with
  | CIs y, ALit s => bool_decide (y.2 = chars s)
  | CIs y, ATok k => bool_decide (y.1 = k)
  | CName, ATok k => bool_decide (k = TIdent)
  | CName, ALit s => starts_with is_alpha s
  | CPlain, ATok k => bool_decide (k = TIdent)
  | CPlain, ALit s => starts_with is_alpha s && bool_decide (s ∉ reserved)
  | CNumber, ATok k => bool_decide (k = TNumber)
  | CNumber, ALit s => starts_with number_start s
  | CRemark, ATok k => bool_decide (k = TSingleLineComment)
  | CRemark, ALit s => starts_with (one_of_chars "/#") s
  end.
Lemma may_is c x u a : is_a c x → lex_of u = x → atom_is u a = true → may c a = true.
Proof.
  intros Hc <- Ha. destruct a as [s|k]; cbn [atom_is] in Ha; apply bool_decide_eq_true in Ha; destruct c; cbn -[reserved] in *.
  - subst. by apply bool_decide_eq_true.
  - destruct Hc as [_ Hc]. apply name_head in Hc. rewrite Ha in Hc. unfold starts_with. by destruct (chars s).
  - destruct Hc as (_ & Hc & Hr). apply name_head in Hc. rewrite Ha in Hc, Hr. apply andb_true_iff. split; [unfold starts_with; by destruct (chars s)|].
    apply bool_decide_eq_true. intros H. apply Hr. by apply (elem_of_list_fmap_1 chars).
  - destruct Hc as [_ Hc]. apply number_starts in Hc. rewrite Ha in Hc. unfold starts_with. by destruct (chars s).
  - destruct Hc as [_ [[w Hc] _]]. rewrite Ha in Hc. unfold starts_with. by destruct Hc as [-> | ->].
  - subst. by apply bool_decide_eq_true.
  - destruct Hc. apply bool_decide_eq_true. congruence.
  - destruct Hc. apply bool_decide_eq_true. congruence.
  - destruct Hc. apply bool_decide_eq_true. congruence.
  - destruct Hc. apply bool_decide_eq_true. congruence.
Qed.
Definition misses (cs : list class) (g : gexp) : bool := forallb (λ c, negb (existsb (may c) (firsts tbl g))) cs.
(** The lexemes start with one of a class. *)
Definition opens_with (cs : list class) (W : list lexeme) : Prop := ∃ x V c, W = x :: V ∧ c ∈ cs ∧ is_a c x.
Lemma shut_is c x g : is_a c x → existsb (may c) (firsts tbl g) = false → shut g (Some x).
Proof.
  intros Hx Hc u Hu. enough (closed_at g [u]) as H by done. apply closed_token.
  destruct (existsb (atom_is u) (firsts tbl g)) eqn:E; [|done]. apply existsb_exists in E as (a & Ha & E).
  rewrite <- Hc. symmetry. apply existsb_exists. exists a. split; [done|]. by eapply may_is.
Qed.
Lemma shut_open cs W o g : opens_with cs W → misses cs g = true → shut g (follow W o).
Proof.
  intros (x & V & c & -> & Hc & Hx) H. cbn [follow]. unfold misses in H. rewrite forallb_forall in H.
  apply elem_of_list_In in Hc. specialize (H c Hc). apply negb_true_iff in H. by eapply shut_is.
Qed.
Lemma opens_app cs W V : opens_with cs W → opens_with cs (W ++ V).
Proof. intros (x & U & c & -> & Hc & Hx). exists x, (U ++ V), c. done. Qed.
Lemma opens_cons cs c x V : c ∈ cs → is_a c x → opens_with cs (x :: V).
Proof. intros. by exists x, V, c. Qed.
Lemma opens_sub cs cs' W : (∀ c, c ∈ cs → c ∈ cs') → opens_with cs W → opens_with cs' W.
Proof. intros H (x & U & c & -> & Hc & Hx). exists x, U, c. split_and!; [done|by apply H|done]. Qed.
Lemma opens_nonempty cs W : opens_with cs W → W ≠ [].
Proof. by intros (x & U & c & -> & _). Qed.
