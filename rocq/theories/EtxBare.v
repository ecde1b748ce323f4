(** * Positions do not matter

    [unplaced t] is formatted like [t], and is as plain. *)
From stdpp Require Import base list option strings.
From Coq Require Import Ascii Lia.
From Verif Require Import GoBase EtxAst EtxHeap EtxHeapSpec EtxText EtxLex EtxUtil EtxGram EtxParse EtxFormat EtxFormatSpec EtxFormatTotal
  EtxParsePropProofs EtxLayout EtxReprintSpec EtxDeclsSpec.

(** ** What a node has *)
Definition bare_val : aval → aval := vmap (λ _, no_pos) id.
Lemma bare_get f (t : ast) : get f (unplaced t) = bare_val <$> get f t.
Proof. destruct t as [a k fs]. unfold get, unplaced. cbn [tmap fields]. induction fs as [|[f' v] fs IH]; [done|]. cbn. by destruct (decide (f = f')). Qed.
Lemma bare_ptr f (t : ast) : ptr_of f (unplaced t) = unplaced <$> ptr_of f t.
Proof. unfold ptr_of. rewrite bare_get. destruct (get f t) as [[| | | |[]| |]|]; done. Qed.
Lemma bare_emb f (t : ast) : emb_of f (unplaced t) = unplaced <$> emb_of f t.
Proof. unfold emb_of. rewrite bare_get. destruct (get f t) as [[| | | |[]| |]|]; done. Qed.
Lemma bare_str f (t : ast) : str_of f (unplaced t) = str_of f t.
Proof. unfold str_of. rewrite bare_get. destruct (get f t) as [[| | | |[]| |]|]; done. Qed.
Lemma bare_strs f (t : ast) : strs_of f (unplaced t) = strs_of f t.
Proof. unfold strs_of. rewrite bare_get. destruct (get f t) as [[| |[[]|]| |[]| |]|]; done. Qed.
Lemma bare_bool f (t : ast) : bool_of f (unplaced t) = bool_of f t.
Proof. unfold bool_of. rewrite bare_get. destruct (get f t) as [[| | | |[]| |]|]; done. Qed.
Lemma bare_list f (t : ast) : list_of f (unplaced t) = map (fmap unplaced) (list_of f t).
Proof. unfold list_of. rewrite bare_get. destruct (get f t) as [[| | | |[]| |[[]|]]|]; done. Qed.
Lemma bare_nil_list f (t : ast) : nil_list f (unplaced t) = nil_list f t.
Proof. unfold nil_list. rewrite bare_get. destruct (get f t) as [[| | | |[]| |[[]|]]|]; done. Qed.
Lemma bare_kind (t : ast) : kind_of (unplaced t) = kind_of t.
Proof. by destruct t. Qed.

(** ** Formatting *)
Section bare.
Context (g : ast → res text).
Notation h := (λ c, g (unplaced c)).
Lemma bare_fmt_of o : fmt_of g (unplaced <$> o) = fmt_of h o.
Proof. by destruct o. Qed.
Lemma bare_fmt_all l : fmt_all g (map (fmap unplaced) l) = fmt_all h l.
Proof. induction l as [|o l IH]; [done|]. cbn [map fmt_all]. by rewrite IH, bare_fmt_of. Qed.
Lemma bare_longest l : longest (map (fmap unplaced) l) = longest l.
Proof. induction l as [|[i|] l IH]; [done| |done]. cbn [map longest]. cbn. by rewrite IH, bare_str. Qed.
Lemma bare_entries f n l : format_entries g f n (map (fmap unplaced) l) = format_entries h f n l.
Proof. induction l as [|[i|] l IH]; [done| |done]. cbn. by rewrite IH, !bare_str, bare_emb, bare_fmt_of. Qed.
Lemma bare_pairs l : format_pairs g (map (fmap unplaced) l) = format_pairs h l.
Proof. induction l as [|[i|] l IH]; [done| |done]. cbn. by rewrite IH, !bare_ptr, !bare_fmt_of. Qed.
Lemma bare_first l r : first_set g (map (fmap unplaced) l) r = first_set h l r.
Proof. induction l as [|[i|] l IH]; done. Qed.
Lemma bare_is_nil o : is_nil (unplaced <$> o) = is_nil o.
Proof. by destruct o. Qed.
Lemma bare_format_node t : format_node g (unplaced t) = format_node h t.
Proof.
  unfold format_node, format_binary, format_decl, format_parameter, format_aligned, format_entry.
  rewrite bare_kind, !bare_list, !bare_ptr, !bare_emb, !bare_str, !bare_strs, !bare_bool, !bare_fmt_of, !bare_fmt_all, !bare_longest, !bare_pairs, !bare_nil_list, !bare_is_nil.
  assert (∀ n fl, format_entries g fl n (map (fmap unplaced) (list_of FItems t)) = format_entries h fl n (list_of FItems t)) as He by (intros; apply bare_entries).
  assert (∀ (l : list (option ast)) (a b : res text), (if decide (map (fmap unplaced) l = []) then a else b) = (if decide (l = []) then a else b)) as Hd by (by intros []).
  destruct (longest (list_of FItems t)); cbn [mbind res_bind]; rewrite ?He; destruct (kind_of t); try reflexivity;
    rewrite ?Hd; try reflexivity; cbn [first_set];
    try (rewrite bare_get; destruct (get FValue t) as [[| | |[[]|]|[]| |]|]; reflexivity);
    repeat match goal with |- context [ptr_of ?fl t] => destruct (ptr_of fl t) end; try done.
  all: destruct (fmt_of h (emb_of FSelector t)); cbn; by rewrite ?Hd.
Qed.
End bare.

Lemma bare_nodes (t : ast) : nodes (unplaced t) = map unplaced (nodes t).
Proof.
  unfold unplaced. revert t.
  apply (tree_val_ind (λ x : ast, nodes (tmap (λ _, no_pos) id x) = map (tmap (λ _, no_pos) id) (nodes x))
    (λ v : aval, nodes_val (vmap (λ _, no_pos) id v) = map (tmap (λ _, no_pos) id) (nodes_val v))); try done.
  - intros a k fs H. cbn [tmap nodes map]. f_equal. induction H as [|[f v] fs H _ IH]; [done|]. cbn. rewrite map_app. by f_equal.
  - intros b l H. cbn [vmap nodes_val]. induction H as [|[x|] l H _ IH]; [done| |done]. cbn in *. rewrite map_app. by f_equal.
Qed.
Lemma bare_size t : length (nodes (unplaced t)) = length (nodes t).
Proof. by rewrite bare_nodes, map_length. Qed.
(*P C72_positions_do_not_matter *)
(** Formatting does not look at positions. *)
Lemma p72 t : format (unplaced t) = format t.
Proof.
  assert (∀ n t, format_fuel n (unplaced t) = format_fuel n t) as H.
  { clear t. induction n as [|n IH]; intros t; [done|]. cbn [format_fuel]. rewrite bare_format_node. apply format_node_ext. intros c _. apply IH. }
  unfold format. by rewrite bare_size, H.
Qed.
(*P C72_same_ast *)
(** ASTs that differ in positions only are formatted alike. *)
Lemma p72_same t t' : unplaced t = unplaced t' → format t = format t'.
Proof. intros E. by rewrite <- p72, E, p72. Qed.
(*P C72_layout_is_forgotten *)
(** Inputs with the same tokens, white space, the kind of quotes and the spelling of numbers
    aside, are formatted to the same text, or both not parsed, or both a panic. *)
Lemma p72_layout s s' ts ts' st st' :
  lex "" s = Ok (Lexed ts st) → lex "" s' = Ok (Lexed ts' st') → Forall2 alike (elide ts) (elide ts') →
  ∀ u, formats_to s u ↔ formats_to s' u.
Proof.
  intros H1 H2 H u. destruct (p68 _ _ _ _ _ _ H1 H2 H) as (o & o' & Ho & Ho' & E). unfold formats_to. rewrite Ho, Ho'.
  destruct o as [r|], o' as [r'|]; try done. injection E as E. apply p72_same in E.
  split; intros (? & [= <-] & Hf); [exists r'|exists r]; (split; [done|]); congruence.
Qed.

(** ** Plainness *)
Lemma bare_numeric (t : ast) : numeric (unplaced t) = numeric t.
Proof.
  assert (∀ m : ast, number_value (unplaced m) = number_value m) as H1 by (intros m; unfold number_value; rewrite bare_ptr; by destruct (ptr_of _ m)).
  assert (∀ m : ast, number_primary (unplaced m) = number_primary m) as H2.
  { intros m. unfold number_primary. rewrite bare_ptr. destruct (ptr_of FValue m); [cbn; apply H1|done]. }
  unfold numeric. assert (kind_of (unplaced t) = kind_of t) as -> by by destruct t. destruct (kind_of t); try done.
  rewrite bare_emb. destruct (emb_of FValue t); [cbn; apply H2|done].
Qed.
Lemma bare_plain_node m : plain_node (unplaced m) ↔ plain_node m.
Proof.
  unfold plain_node. assert (kind_of (unplaced m) = kind_of m) as -> by by destruct m.
  assert (∀ o : option ast, (∀ c, unplaced <$> o = Some c → numeric c = false) ↔ (∀ c, o = Some c → numeric c = false)) as Hc.
  { intros o. split; intros H c.
    - intros ->. rewrite <- bare_numeric. by apply H.
    - destruct o as [c'|]; [|done]. cbn. intros [= <-]. rewrite bare_numeric. by apply H. }
  destruct (kind_of m); try done; rewrite ?bare_ptr, ?bare_str, ?bare_numeric, ?fmap_None; try done.
  - split; intros H c.
    + intros E. rewrite E in H. destruct (H _ eq_refl) as [H1 H2]. rewrite bare_numeric in H1. split; [done|]. intros Hi. apply H2. by rewrite Hi.
    + destruct (ptr_of FPost m) as [c'|]; [|done]. cbn. intros [= <-]. rewrite bare_numeric. destruct (H _ eq_refl) as [H1 H2]. split; [done|]. intros Hi. apply H2. by destruct (ptr_of FIndex m).
  - by rewrite Hc.
Qed.
Lemma bare_plain (t : ast) : plain (unplaced t) ↔ plain t.
Proof.
  unfold plain. rewrite bare_nodes. split; intros H m Hm.
  - apply bare_plain_node, H. by apply elem_of_list_fmap_1.
  - apply elem_of_list_fmap in Hm as (m' & -> & Hm). by apply bare_plain_node, H.
Qed.
