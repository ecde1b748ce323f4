(** * Proofs of the properties of FormattedString *)
From stdpp Require Import base list option strings.
From Coq Require Import Ascii Lia.
From Verif Require Import GoBase EtxAst EtxHeap EtxHeapSpec EtxText EtxLex EtxLexFacts EtxUtil EtxGram EtxParse EtxParseBase EtxParseSpec
  EtxParseTyped EtxParseLexed EtxParseParts EtxParsePropProofs EtxPrecSpec EtxPrec EtxPrecExample EtxShape EtxFormat EtxFormatSpec EtxFormatTotal EtxFormatPanic.

Lemma parsed_built s t : parse s = Ok (Some t) → kind_of t = KAST ∧ typed t = true ∧ built t.
Proof.
  intros H. destruct (parse_built _ _ H) as (ts & st & Hl & Hb). pose proof (builds_good _ _ _ _ Hb) as [Hk [Hty _]].
  split_and!; [done|done|]. eapply built_kind; [done|]. apply lex_lossless in Hl as [Hl _].
  unfold elide. apply Forall_forall. intros u [_ Hu]%elem_of_list_filter. cbn in Hl. rewrite Forall_forall in Hl. by apply Hl.
Qed.
(** [blank_entry] as a test. *)
Definition is_blank (m : ast) : bool :=
  bool_decide (kind_of m ∈ [KTypeEnumItem; KTypeObjectItem; KMapItem]) &&
  negb (match get FEmptyLine m with Some (VStr s) => bool_decide (s = "") | _ => false end &&
        match get FComment m with Some (VPtr None) => true | _ => false end).
Lemma is_blank_spec m : is_blank m = true ↔ blank_entry m.
Proof.
  unfold is_blank, blank_entry. rewrite andb_true_iff, bool_decide_eq_true, negb_true_iff, andb_false_iff.
  assert (match get FEmptyLine m with Some (VStr s) => bool_decide (s = "") | _ => false end = false ↔ get FEmptyLine m ≠ Some (VStr "")) as ->.
  { destruct (get FEmptyLine m) as [[s| | | | | |]|]; try naive_solver. rewrite bool_decide_eq_false. naive_solver. }
  assert (match get FComment m with Some (VPtr None) => true | _ => false end = false ↔ get FComment m ≠ Some (VPtr None)) as ->; [|done].
  destruct (get FComment m) as [[| | | |[c|]| |]|]; naive_solver.
Qed.
Global Instance blank_entry_dec m : Decision (blank_entry m).
Proof. destruct (is_blank m) eqn:E; [left; by apply is_blank_spec|right]. rewrite <- is_blank_spec. by rewrite E. Qed.
Lemma printed_blank t : (∀ m, printed t m → ¬ blank_entry m) ∨ ∃ m, printed t m ∧ blank_entry m.
Proof.
  assert (Hn : ∃ n, (size t < n)%nat) by (exists (S (size t)); lia). destruct Hn as [n Hn]. revert t Hn.
  induction n as [|n IH]; intros t Hn; [lia|].
  destruct (decide (blank_entry t)) as [Hb|Hb]; [right; exists t; split; [constructor|done]|].
  assert (Hk : ∀ c, c ∈ kids t → (∀ m, printed c m → ¬ blank_entry m) ∨ ∃ m, printed c m ∧ blank_entry m).
  { intros c (f & v & H1 & H2 & _)%kids_spec. apply IH. pose proof (size_sub _ _ _ _ H1 H2). lia. }
  assert ((∀ c, c ∈ kids t → ∀ m, printed c m → ¬ blank_entry m) ∨ ∃ c m, c ∈ kids t ∧ printed c m ∧ blank_entry m) as [H|H].
  { clear -Hk. induction (kids t) as [|c l IH]; [left; by intros c ?%elem_of_nil|].
    destruct (Hk c) as [Hc|(m & H1 & H2)]; [by left| |].
    - destruct IH as [IH|(c' & m & H1 & H2 & H3)].
      + intros c' Hc'. apply Hk. by right.
      + left. intros c' [->|Hc']%elem_of_cons; [done|by apply IH].
      + right. exists c', m. split; [by right|done].
    - right. exists c, m. split; [by left|done]. }
  - left. intros m [->|(c & Hc & Hm)]%printed_kids; [done|]. by eapply H.
  - destruct H as (c & m & Hc & Hm & Hb'). right. exists m. split; [|done]. apply printed_kids. right. by exists c.
Qed.
Lemma printed_nodes t m : printed t m → m ∈ nodes t.
Proof.
  intros H. induction H as [|m f v c Hm IH Hf Hc _]; [destruct t; by left|]. clear Hm. revert IH.
  assert (Hn : ∃ n, (size t < n)%nat) by (exists (S (size t)); lia). destruct Hn as [n Hn]. revert t Hn.
  assert (Hin : ∀ (x : ast) g w y, (g, w) ∈ fields x → y ∈ val_subs w → ∀ z, z ∈ nodes y → z ∈ nodes x).
  { clear. intros [a k fs] g w y H1 H2 z Hz. cbn [nodes]. right. eapply elem_of_flat_map; [exact H1|]. cbn [snd].
    destruct w as [| | | |[x|]|x|[[b l]|]]; try (by apply elem_of_nil in H2); cbn [val_subs nodes_val] in *.
    - by apply elem_of_list_singleton in H2 as ->.
    - by apply elem_of_list_singleton in H2 as ->.
    - apply elem_of_list_omap in H2 as (o & Ho & E). unfold id in E. subst o. by eapply elem_of_flat_map. }
  induction n as [|n IH]; intros t Hn Hm; [lia|].
  apply nodes_inv in Hm as [->|(g & w & x & H1 & H2 & H3)].
  - eapply Hin; [done|done|]. destruct c; by left.
  - eapply Hin; [done|done|]. apply IH; [|done]. pose proof (size_sub _ _ _ _ H1 H2). lia.
Qed.
Lemma parsed_settles s t : parse s = Ok (Some t) → settles (format t) (∀ m, printed t m → ¬ blank_entry m).
Proof.
  intros (Hk & Hty & Hb)%parsed_built. apply (format_settles (S (size t))); [lia|done|by left|].
  rewrite Hk. apply (bool_decide_unpack _). by vm_compute.
Qed.

(** What can be computed. *)
Lemma witness (P : ast → bool) s :
  match parse s with Ok (Some t) => P t | _ => false end = true → ∃ t, parse s = Ok (Some t) ∧ P t = true.
Proof. destruct (parse s) as [[t|]| |]; try discriminate. by exists t. Qed.
Lemma format_witness (P : ast → text → bool) s :
  match parse s with Ok (Some t) => match format t with Ok u => P t u | _ => false end | _ => false end = true →
  ∃ t u, parse s = Ok (Some t) ∧ format t = Ok u ∧ P t u = true.
Proof. destruct (parse s) as [[t|]| |]; try discriminate. destruct (format t) as [u| |] eqn:E; try discriminate. by exists t, u. Qed.
Lemma reparse_witness (P : ast → ast → bool) u t :
  match parse u with Ok (Some t') => P t t' | _ => false end = true → ∃ t', parse u = Ok (Some t') ∧ P t t' = true.
Proof. apply witness. Qed.

(*P C30_formatting_can_panic_refuted *)
(** A parsed file whose FormattedString panics: an enum with an empty line. *)
Lemma p30_refuted :
  ∃ s t, parse s = Ok (Some t) ∧ format t = Panic.
Proof.
  exists (chars "type x enum {" ++ [lf] ++ chars "a: 1" ++ [lf; lf] ++ chars "b: 2" ++ [lf] ++ chars "}").
  edestruct (witness (λ t, match format t with Panic => true | _ => false end)) as (t & E & H); [|exists t; split; [exact E|]].
  - vm_compute. reflexivity.
  - destruct (format t); done.
Qed.
(*P C30_without_blank_entries_partial *)
(** Without comments and empty lines in enums, objects and maps there is no panic.  In
    full: the same without the second hypothesis; that is refuted above. *)
Lemma p30_partial s t :
  parse s = Ok (Some t) → (∀ m, m ∈ nodes t → ¬ blank_entry m) → ∃ u, format t = Ok u.
Proof.
  intros H Hb. destruct (parsed_settles _ _ H) as [[? _]|[_ Hn]]; [done|]. destruct Hn. intros m Hm%printed_nodes. by apply Hb.
Qed.
(*P C63_when_formatting_panics *)
(** Exactly these entries make it panic, if they are printed. *)
Lemma p63_exact s t :
  parse s = Ok (Some t) → format t = Panic ↔ ∃ m, printed t m ∧ blank_entry m.
Proof.
  intros H. destruct (parsed_settles _ _ H) as [[[u ->] Hm]|[-> Hm]].
  - split; [done|]. intros (m & H1 & H2). by destruct (Hm m).
  - split; [|done]. intros _. by destruct (printed_blank t).
Qed.
(*P C63_otherwise_it_succeeds *)
(** And otherwise there is a text. *)
Lemma p63_success s t :
  parse s = Ok (Some t) → (∀ m, printed t m → ¬ blank_entry m) → ∃ u, format t = Ok u.
Proof.
  intros H Hb. destruct (parsed_settles _ _ H) as [[? _]|[_ Hn]]; [done|]. by destruct Hn.
Qed.
(*P C63_formatting_terminates *)
(** For every tree, whether or not it can be parsed. *)
Lemma p63_terminates t : format t ≠ OutOfFuel.
Proof. apply format_ends. Qed.
(*P C32_output_need_not_parse_refuted *)
(** An attribute is printed with a colon, which is not its syntax. *)
Lemma p32_refuted :
  ∃ s t u, parse s = Ok (Some t) ∧ format t = Ok u ∧ parse u = Ok None.
Proof.
  exists (chars "x = 1").
  edestruct (format_witness (λ _ u, match parse u with Ok None => true | _ => false end)) as (t & u & E1 & E2 & H);
    [|exists t, u; split; [exact E1|split; [exact E2|]]].
  - vm_compute. reflexivity.
  - destruct (parse u) as [[?|]| |]; done.
Qed.
Lemma unplaced_size (x : ast) : length (nodes (unplaced x)) = length (nodes x).
Proof.
  unfold unplaced. revert x.
  apply (tree_val_ind (λ x : ast, length (nodes (tmap (λ _, no_pos) id x)) = length (nodes x))
    (λ v : aval, length (nodes_val (vmap (λ _, no_pos) id v)) = length (nodes_val v))); try done.
  - intros a k fs H. cbn [tmap nodes length]. f_equal. induction H as [|[f v] fs H _ IH]; [done|]. cbn. rewrite !app_length. by f_equal.
  - intros b l H. cbn [vmap nodes_val]. induction H as [|[x|] l H _ IH]; [done| |done]. cbn in *. rewrite !app_length. by f_equal.
Qed.
(*P C32_output_can_parse_to_something_else_refuted *)
(** Parentheses are not printed, so that the output can be another expression. *)
Lemma p32_other :
  ∃ s t u t', parse s = Ok (Some t) ∧ format t = Ok u ∧ parse u = Ok (Some t') ∧ unplaced t' ≠ unplaced t.
Proof.
  exists (chars "const x = (a + b) * c").
  destruct (format_witness (λ t u, match parse u with
    | Ok (Some t') => negb (Nat.eqb (length (nodes t')) (length (nodes t))) | _ => false end)
    (chars "const x = (a + b) * c")) as (t & u & E1 & E2 & H);
    [vm_compute; reflexivity|].
  apply (reparse_witness (λ t t', negb (Nat.eqb (length (nodes t')) (length (nodes t)))) u t) in H as (t' & E3 & H). exists t, u, t'.
  split; [exact E1|]. split; [exact E2|]. split; [exact E3|]. intros Heq.
  apply negb_true_iff, Nat.eqb_neq in H. apply H. rewrite <- (unplaced_size t), <- (unplaced_size t'), Heq. reflexivity.
Qed.
Definition reading_of_attribute (t : ast) : option reading :=
  match get FItems t with Some (VList (Some (tt, [Some i]))) =>
  match get FAttribute i with Some (VPtr (Some a)) =>
  match get FValue a with Some (VPtr (Some v)) =>
  match get FLeft v with Some (VPtr (Some c)) =>
  match get FCondition c, get FConditionOp c with Some (VEmb m), Some (VBool false) => reading_at 40 m
  | _, _ => None end | _ => None end | _ => None end | _ => None end | _ => None end.
Lemma reading_of_attribute_spec t r : reading_of_attribute t = Some r → attribute_reading t r.
Proof.
  unfold reading_of_attribute. intros H. repeat case_match; try done. do 5 eexists. split_and!; try done. by eapply reading_at_reads.
Qed.
Lemma reading_witness s u os :
  match parse s with Ok (Some t) => match format t with Ok u' => match reading_of_attribute t with
    | Some r => bool_decide (u' = u) && bool_decide (operators_of r = os) | None => false end | _ => false end | _ => false end = true →
  ∃ t r, parse s = Ok (Some t) ∧ format t = Ok u ∧ attribute_reading t r ∧ operators_of r = os.
Proof.
  intros (t & u' & H1 & H2 & H3)%(format_witness (λ t u', match reading_of_attribute t with
    | Some r => bool_decide (u' = u) && bool_decide (operators_of r = os) | None => false end)).
  destruct (reading_of_attribute t) as [r|] eqn:E; [|done]. apply andb_true_iff in H3 as [->%bool_decide_eq_true H3%bool_decide_eq_true].
  exists t, r. split_and!; try done. by apply reading_of_attribute_spec.
Qed.
(*P C33_formatting_loses_structure_refuted *)
(** Two attributes with the same text whose expressions mean different things: without
    its parentheses (a + b) * c is printed like a + b * c. *)
Lemma p33_refuted :
  ∃ s1 s2 t1 t2 u r1 r2,
    parse s1 = Ok (Some t1) ∧ parse s2 = Ok (Some t2) ∧ format t1 = Ok u ∧ format t2 = Ok u ∧
    attribute_reading t1 r1 ∧ attribute_reading t2 r2 ∧ operators_of r1 ≠ operators_of r2.
Proof.
  destruct (reading_witness (chars "x = (a + b) * c") (chars "x: a + b * c" ++ [lf]) ["*"]) as (t1 & r1 & A1 & A2 & A3 & A4);
    [vm_compute; reflexivity|].
  destruct (reading_witness (chars "x = a + b * c") (chars "x: a + b * c" ++ [lf]) ["+"; "*"]) as (t2 & r2 & B1 & B2 & B3 & B4);
    [vm_compute; reflexivity|].
  eexists _, _, t1, t2, _, r1, r2. split; [exact A1|]. split; [exact B1|]. split; [exact A2|]. split; [exact B2|].
  split; [exact A3|]. split; [exact B3|]. rewrite A4, B4. discriminate.
Qed.
