(** * Computing settled descriptions, for the examples *)
From stdpp Require Import base list option strings.
From Coq Require Import Ascii Lia.
From Verif Require Import GoBase EtxAst EtxHeap EtxHeapSpec EtxText EtxLex EtxUtil EtxGram EtxParse EtxParseBase
  EtxParseSpec EtxParseStore EtxParseTyped EtxParseFirst EtxParseClean EtxSettledSpec EtxSettled.

Definition can (ts : list token) (g : gexp) : bool :=
  match ts with u :: _ => existsb (atom_is u) (firsts tbl g) | [] => false end.
Lemma cannot ts g : can ts g = false → closed_at g ts.
Proof. destruct ts as [|u ts]; [done|]. apply closed_token. Qed.
Definition shorter (ts ts' : list token) : bool := (length ts <? length ts')%nat.
Definition answer : Type := option (list token * list capture * list text).
Section settle.
Context (sub : kind → list token → option (ast * list token)).
Section all.
Context (ev : gexp → list token → answer).
Fixpoint all (gs : list gexp) (ts : list token) : answer :=
  match gs with
  | [] => Some (ts, [], [])
  | g :: gs =>
      match ev g ts with
      | Some (ts1, cs, l) => match all gs ts1 with Some (ts2, ds, m) => Some (ts2, cs ++ ds, l ++ m) | None => None end
      | None => None
      end
  end.
End all.
Section loop.
Context (ev : list token → answer) (g : gexp).
Fixpoint loop (n : nat) (ts : list token) : answer :=
  match n with
  | 0 => None
  | S n =>
      if can ts g then
        match ev ts with
        | Some (ts1, cs, l) =>
            if shorter ts1 ts then
              match loop n ts1 with Some (ts2, ds, m) => Some (ts2, cs ++ ds, l ++ m) | None => None end
            else None
        | None => None
        end
      else Some (ts, [], [])
  end.
End loop.
Fixpoint settle (g : gexp) (ts : list token) : answer :=
  match g with
  | GLit s => match ts with t :: ts => if bool_decide (value t = chars s) then Some (ts, [], [value t]) else None | [] => None end
  | GTok k => match ts with t :: ts => if bool_decide (kind_of_token t = k) then Some (ts, [], [value t]) else None | [] => None end
  | GSub f k => match sub k ts with Some (t, ts) => Some (ts, [(f, Struct t)], [[]]) | None => None end
  | GCap f g => match settle g ts with Some (ts, cs, l) => Some (ts, cs ++ [(f, Texts l)], [[]]) | None => None end
  | GSeq gs =>
      match all settle gs ts with
      | Some (ts1, cs, l) => if shorter ts1 ts then Some (ts1, cs, l) else None
      | None => None
      end
  | GAlt gs => (fix go gs : answer := match gs with [] => None | g :: gs => if can ts g then settle g ts else go gs end) gs
  | GOpt g => if can ts g then settle g ts else Some (ts, [], [])
  | GMany g => loop (settle g) g (S (length ts)) ts
  | GSome g =>
      match settle g ts with
      | Some (ts1, cs, l) =>
          if shorter ts1 ts then
            match loop (settle g) g (S (length ts1)) ts1 with Some (ts2, ds, m) => Some (ts2, cs ++ ds, l ++ m) | None => None end
          else None
      | None => None
      end
  end.
Context (e : pos).
Context (Hsub : ∀ k ts t rest, sub k ts = Some (t, rest) → ∃ us, ts = us ++ rest ∧ settled e k us rest t).
Lemma shorter_app us rest : shorter rest (us ++ rest) = true → us ≠ [].
Proof. intros H ->. apply Nat.ltb_lt in H. cbn in H. lia. Qed.
Lemma loop_sound g :
  (∀ ts rest cs l, settle g ts = Some (rest, cs, l) → ∃ us, ts = us ++ rest ∧ settles e g us rest cs l) →
  ∀ n ts rest cs l, loop (settle g) g n ts = Some (rest, cs, l) → ∃ us, ts = us ++ rest ∧ settles_many e g us rest cs l.
Proof.
  intros Hg n. induction n as [|n IH]; intros ts rest cs l H; [done|]. cbn [loop] in H. destruct (can ts g) eqn:Hc.
  - destruct (settle g ts) as [[[ts1 cs1] l1]|] eqn:E1; [|done]. destruct (shorter ts1 ts) eqn:Hs; [|done].
    destruct (loop _ g n ts1) as [[[ts2 cs2] l2]|] eqn:E2; [|done]. injection H as -> <- <-.
    apply Hg in E1 as (us & -> & H1). apply IH in E2 as (vs & -> & H2). exists (us ++ vs). split; [by rewrite (assoc_L (++))|].
    constructor; [done| |done]. by apply shorter_app in Hs.
  - injection H as -> <- <-. exists []. split; [done|]. constructor. by apply cannot.
Qed.
Lemma settle_sound g : ∀ ts rest cs l, settle g ts = Some (rest, cs, l) → ∃ us, ts = us ++ rest ∧ settles e g us rest cs l.
Proof.
  induction g as [s|t|f k|f g IH|gs IH|gs IH|g IH|g IH|g IH] using gexp_ind2; intros ts rest cs l H; cbn [settle] in H.
  - destruct ts as [|t ts]; [done|]. destruct (bool_decide _) eqn:E; [|done]. injection H as -> <- <-.
    apply bool_decide_eq_true in E. exists [t]. split; [done|]. by constructor.
  - destruct ts as [|u ts]; [done|]. destruct (bool_decide _) eqn:E; [|done]. injection H as -> <- <-.
    apply bool_decide_eq_true in E. exists [u]. split; [done|]. by constructor.
  - destruct (sub k ts) as [[t ts1]|] eqn:E; [|done]. injection H as -> <- <-. apply Hsub in E as (us & -> & H). exists us.
    split; [done|]. by constructor.
  - destruct (settle g ts) as [[[ts1 cs1] l1]|] eqn:E; [|done]. injection H as -> <- <-. apply IH in E as (us & -> & H).
    exists us. split; [done|]. by constructor.
  - destruct (all settle gs ts) as [[[ts1 cs1] l1]|] eqn:E; [|done]. destruct (shorter ts1 ts) eqn:Hs; [|done]. injection H as -> -> ->.
    enough (∃ us, ts = us ++ rest ∧ settles_all e gs us rest cs l) as (us & -> & H).
    { exists us. split; [done|]. constructor; [done|]. by apply shorter_app in Hs. }
    clear Hs. revert ts rest cs l E. induction IH as [|g gs Hg _ IHs]; intros ts rest cs l E.
    + injection E as -> <- <-. exists []. split; [done|]. constructor.
    + cbn [all] in E. destruct (settle g ts) as [[[ts1 cs1] l1]|] eqn:E1; [|done].
      destruct (all settle gs ts1) as [[[ts2 cs2] l2]|] eqn:E2; [|done]. injection E as -> <- <-.
      apply Hg in E1 as (us & -> & H1). apply IHs in E2 as (vs & -> & H2). exists (us ++ vs). split; [by rewrite (assoc_L (++))|].
      by constructor.
  - enough (∃ us gs1 g gs2, gs = gs1 ++ g :: gs2 ∧ ts = us ++ rest ∧ (∀ g', g' ∈ gs1 → closed_at g' ts) ∧ settles e g us rest cs l)
      as (us & gs1 & g & gs2 & -> & -> & H1 & H2).
    { exists us. split; [done|]. by constructor. }
    induction IH as [|g gs Hg _ IHs]; [done|]. destruct (can ts g) eqn:Hc.
    + apply Hg in H as (us & -> & H). exists us, [], g, gs. split_and!; [done|done|by intros ? ?%elem_of_nil|done].
    + destruct (IHs H) as (us & gs1 & g1 & gs2 & -> & E & H1 & H2). exists us, (g :: gs1), g1, gs2. split_and!; [done|done| |done].
      intros g' [->|Hg']%elem_of_cons; [by apply cannot|by apply H1].
  - destruct (can ts g) eqn:Hc.
    + apply IH in H as (us & -> & H). exists us. split; [done|]. by apply s_opt.
    + injection H as -> <- <-. exists []. split; [done|]. apply s_none. by apply cannot.
  - apply (loop_sound g IH) in H as (us & -> & H). exists us. split; [done|]. by apply s_many.
  - destruct (settle g ts) as [[[ts1 cs1] l1]|] eqn:E1; [|done]. destruct (shorter ts1 ts) eqn:Hs; [|done].
    destruct (loop _ g _ ts1) as [[[ts2 cs2] l2]|] eqn:E2; [|done]. injection H as -> <- <-.
    apply IH in E1 as (us & -> & H1). apply (loop_sound g IH) in E2 as (vs & -> & H2). exists (us ++ vs).
    split; [by rewrite (assoc_L (++))|]. constructor; [done| |done]. by apply shorter_app in Hs.
Qed.
End settle.

Fixpoint fill (k : kind) (cs : list capture) (tys : list (fld * ftype)) : option (list (fld * aval)) :=
  match tys with
  | [] => Some []
  | (f, ty) :: tys =>
      match field_value k f ty cs, fill k cs tys with Some v, Some fs => Some ((f, v) :: fs) | _, _ => None end
  end.
Lemma fill_names k cs tys fs : fill k cs tys = Some fs → map fst fs = map fst tys.
Proof.
  revert fs. induction tys as [|[f ty] tys IH]; intros fs H; cbn in H; [by injection H as <-|].
  destruct (field_value k f ty cs); [|done]. destruct (fill k cs tys) as [fs'|]; [|done]. injection H as <-. cbn. f_equal. by apply IH.
Qed.
Lemma fill_values k cs tys fs :
  NoDup (map fst tys) → fill k cs tys = Some fs →
  ∀ f ty, (f, ty) ∈ tys → is_Some (field_value k f ty cs) ∧ assoc f fs = field_value k f ty cs.
Proof.
  revert fs. induction tys as [|[f ty] tys IH]; intros fs Hn H g ty' Hg; [by apply elem_of_nil in Hg|]. cbn in H, Hn.
  apply NoDup_cons in Hn as [Hf Hn]. destruct (field_value k f ty cs) as [v|] eqn:Ev; [|done].
  destruct (fill k cs tys) as [fs'|] eqn:Ef; [|done]. injection H as <-. apply elem_of_cons in Hg as [E|Hg].
  - injection E as -> ->. rewrite Ev. split; [by eexists|]. cbn. by rewrite decide_True.
  - destruct (IH fs' Hn eq_refl g ty' Hg) as [H1 H2]. split; [done|]. cbn. rewrite decide_False; [done|]. intros ->.
    apply Hf. apply elem_of_list_fmap. by exists (f, ty').
Qed.
Lemma fill_filled k cs fs : fill k cs (schema k) = Some fs → filled k cs fs.
Proof.
  intros H. split; [by eapply fill_names|]. apply fill_values; [|done].
  pose proof (for_all_kinds _ grammar_types k) as G. cbn beta in G.
  apply andb_true_iff in G as [[_ G]%andb_true_iff _]. by apply bool_decide_eq_true in G.
Qed.
Fixpoint settle_struct (e : pos) (n : nat) (k : kind) (ts : list token) : option (ast * list token) :=
  match n with
  | 0 => None
  | S n =>
      match settle (settle_struct e n) (grammar k) ts with
      | Some (rest, cs, _) =>
          match fill k cs (schema k) with
          | Some fs => Some (T (match k with KAST => no_pos | _ => first_pos e ts end) k fs, rest)
          | None => None
          end
      | None => None
      end
  end.
Lemma settle_struct_sound e n k ts t rest :
  settle_struct e n k ts = Some (t, rest) → ∃ us, ts = us ++ rest ∧ settled e k us rest t.
Proof.
  revert k ts t rest. induction n as [|n IH]; intros k ts t rest H; [done|]. cbn [settle_struct] in H.
  destruct (settle _ _ _) as [[[ts1 cs] l]|] eqn:E; [|done]. destruct (fill _ _ _) as [fs|] eqn:Ef; [|done]. injection H as <- ->.
  apply (settle_sound _ e IH) in E as (us & -> & H). exists us. split; [done|]. econstructor; [done|]. by apply fill_filled.
Qed.
(** The file is settled, and its tree satisfies [P]. *)
Lemma settled_witness (P : ast → bool) s :
  match lex "" s with
  | Ok (Lexed ts _) =>
      match settle_struct (advance (start_pos "") s) 60 KAST (elide ts) with Some (r, []) => P r | _ => false end
  | _ => false
  end = true →
  ∃ ts sp r, lex "" s = Ok (Lexed ts sp) ∧ settled (advance (start_pos "") s) KAST (elide ts) [] r ∧ P r = true.
Proof.
  destruct (lex "" s) as [[ts sp|]| |]; try done. intros H. exists ts, sp.
  destruct (settle_struct _ _ _ _) as [[r [|]]|] eqn:E; try done. exists r. apply settle_struct_sound in E as (us & E & Hs).
  rewrite app_nil_r in E. by subst us.
Qed.

(** ** All descriptions *)
Definition answers : Type := list (list token * list capture * list text).
Definition with_rest (cs : list capture) (l : list text) (r : answers) : answers :=
  map (λ x, (x.1.1, cs ++ x.1.2, l ++ x.2)) r.
Section describe.
Context (sub : kind → list token → list (ast * list token)).
Section all.
Context (ev : gexp → list token → answers).
Fixpoint every (gs : list gexp) (ts : list token) : answers :=
  match gs with
  | [] => [(ts, [], [])]
  | g :: gs => flat_map (λ x, with_rest x.1.2 x.2 (every gs x.1.1)) (ev g ts)
  end.
End all.
Section loop.
Context (ev : list token → answers).
Fixpoint repeats (n : nat) (ts : list token) : answers :=
  match n with
  | 0 => []
  | S n => (ts, [], []) :: flat_map (λ x, with_rest x.1.2 x.2 (repeats n x.1.1)) (ev ts)
  end.
End loop.
Fixpoint describe (g : gexp) (ts : list token) : answers :=
  match g with
  | GLit s => match ts with t :: ts => if bool_decide (value t = chars s) then [(ts, [], [value t])] else [] | [] => [] end
  | GTok k => match ts with t :: ts => if bool_decide (kind_of_token t = k) then [(ts, [], [value t])] else [] | [] => [] end
  | GSub f k => map (λ x : ast * list token, (x.2, [(f, Struct x.1)], [[]])) (sub k ts)
  | GCap f g => map (λ x, (x.1.1, x.1.2 ++ [(f, Texts x.2)], [[]])) (describe g ts)
  | GSeq gs => every describe gs ts
  | GAlt gs => flat_map (λ g, describe g ts) gs
  | GOpt g => (ts, [], []) :: describe g ts
  | GMany g => repeats (describe g) (S (length ts)) ts
  | GSome g => flat_map (λ x, with_rest x.1.2 x.2 (repeats (describe g) (S (length x.1.1)) x.1.1)) (describe g ts)
  end.
Context (e : pos).
Context (Hsub : ∀ k ts t rest, (t, rest) ∈ sub k ts → ∃ us, ts = us ++ rest ∧ builds (first_pos e rest) k us t).
Lemma elem_flat_map {X Y} (f : X → list Y) l y : y ∈ flat_map f l → ∃ x, x ∈ l ∧ y ∈ f x.
Proof. intros (x & Hx & Hy)%elem_of_list_In%in_flat_map. exists x. by rewrite !elem_of_list_In. Qed.
Lemma elem_with_rest cs l r rest ds m : (rest, ds, m) ∈ with_rest cs l r → ∃ ds' m', (rest, ds', m') ∈ r ∧ ds = cs ++ ds' ∧ m = l ++ m'.
Proof. intros ([[r0 d] m'] & E & H)%elem_of_list_fmap. injection E as -> -> ->. eauto. Qed.
Definition right_at (g : gexp) (ev : list token → answers) : Prop :=
  ∀ ts rest cs l, (rest, cs, l) ∈ ev ts → ∃ us, ts = us ++ rest ∧ derives (first_pos e rest) g us cs l.
Lemma repeats_right g ev n : right_at g ev → right_at (GMany g) (repeats ev n).
Proof.
  intros Hg. induction n as [|n IH]; intros ts rest cs l H; [by apply elem_of_nil in H|].
  cbn [repeats] in H. apply elem_of_cons in H as [H|H].
  - injection H as -> -> ->. exists []. split; [done|]. constructor.
  - apply elem_flat_map in H as ([[ts1 cs1] l1] & H1 & H). apply elem_with_rest in H as (ds & m & H2 & -> & ->). cbn in *.
    apply Hg in H1 as (us & -> & H1). apply IH in H2 as (vs & -> & H2). exists (us ++ vs). split; [by rewrite (assoc_L (++))|].
    constructor; [|done]. by rewrite <- first_pos_app.
Qed.
Lemma describe_right g : right_at g (describe g).
Proof.
  induction g as [s|t|f k|f g IH|gs IH|gs IH|g IH|g IH|g IH] using gexp_ind2; intros ts rest cs l H; cbn [describe] in H.
  - destruct ts as [|t ts]; [by apply elem_of_nil in H|]. destruct (bool_decide _) eqn:E; [|by apply elem_of_nil in H].
    apply elem_of_list_singleton in H. injection H as -> -> ->.
    apply bool_decide_eq_true in E. exists [t]. split; [done|]. by constructor.
  - destruct ts as [|u ts]; [by apply elem_of_nil in H|]. destruct (bool_decide _) eqn:E; [|by apply elem_of_nil in H].
    apply elem_of_list_singleton in H. injection H as -> -> ->.
    apply bool_decide_eq_true in E. exists [u]. split; [done|]. by constructor.
  - apply elem_of_list_fmap in H as ([t ts1] & E & H). injection E as -> -> ->. apply Hsub in H as (us & -> & H). exists us.
    split; [done|]. by constructor.
  - apply elem_of_list_fmap in H as ([[ts1 cs1] l1] & E & H). injection E as -> -> ->. apply IH in H as (us & -> & H).
    exists us. split; [done|]. by constructor.
  - revert ts rest cs l H. induction IH as [|g gs Hg _ IHs]; intros ts rest cs l H; cbn [every] in H.
    + apply elem_of_list_singleton in H. injection H as -> -> ->. exists []. split; [done|]. constructor.
    + apply elem_flat_map in H as ([[ts1 cs1] l1] & H1 & H). apply elem_with_rest in H as (ds & m & H2 & -> & ->). cbn in *.
      apply Hg in H1 as (us & -> & H1). apply IHs in H2 as (vs & -> & H2). exists (us ++ vs). split; [by rewrite (assoc_L (++))|].
      constructor; [|done]. by rewrite <- first_pos_app.
  - apply elem_flat_map in H as (g & Hg & H). rewrite Forall_forall in IH. apply IH in H as (us & -> & H); [|done].
    exists us. split; [done|]. by eapply d_alt.
  - apply elem_of_cons in H as [H|H].
    + injection H as -> -> ->. exists []. split; [done|]. constructor.
    + apply IH in H as (us & -> & H). exists us. split; [done|]. by apply d_opt.
  - by apply (repeats_right g (describe g) _ IH) in H.
  - apply elem_flat_map in H as ([[ts1 cs1] l1] & H1 & H). apply elem_with_rest in H as (ds & m & H2 & -> & ->). cbn [fst snd] in *.
    apply IH in H1 as (us & -> & H1). apply (repeats_right g (describe g) _ IH) in H2 as (vs & -> & H2). exists (us ++ vs).
    split; [by rewrite (assoc_L (++))|]. constructor; [|done]. by rewrite <- first_pos_app.
Qed.
End describe.
Fixpoint describe_struct (e : pos) (n : nat) (k : kind) (ts : list token) : list (ast * list token) :=
  match n with
  | 0 => []
  | S n =>
      flat_map (λ x : list token * list capture * list text,
        match fill k x.1.2 (schema k) with
        | Some fs => [(T (match k with KAST => no_pos | _ => first_pos e ts end) k fs, x.1.1)]
        | None => []
        end) (describe (describe_struct e n) (grammar k) ts)
  end.
Lemma describe_struct_right e n k ts t rest :
  (t, rest) ∈ describe_struct e n k ts → ∃ us, ts = us ++ rest ∧ builds (first_pos e rest) k us t.
Proof.
  revert k ts t rest. induction n as [|n IH]; intros k ts t rest H; [by apply elem_of_nil in H|]. cbn [describe_struct] in H.
  apply elem_flat_map in H as ([[ts1 cs] l] & H1 & H). cbn in H. destruct (fill _ _ _) as [fs|] eqn:Ef; [|by apply elem_of_nil in H].
  apply elem_of_list_singleton in H. injection H as -> ->.
  apply (describe_right _ e IH) in H1 as (us & -> & H). exists us. split; [done|]. rewrite first_pos_app.
  econstructor; [done|]. by apply fill_filled.
Qed.
(** The file can be described, with a tree that satisfies [P]. *)
Lemma described_witness (P : ast → bool) s :
  match lex "" s with
  | Ok (Lexed ts _) =>
      existsb (λ x, match x.2 with [] => P x.1 | _ => false end) (describe_struct (advance (start_pos "") s) 60 KAST (elide ts))
  | _ => false
  end = true →
  ∃ ts sp r, lex "" s = Ok (Lexed ts sp) ∧ builds (advance (start_pos "") s) KAST (elide ts) r ∧ P r = true.
Proof.
  destruct (lex "" s) as [[ts sp|]| |]; try done. intros ([r [|]] & H & HP)%existsb_exists; [|done]. exists ts, sp, r.
  apply elem_of_list_In, describe_struct_right in H as (us & E & H). rewrite app_nil_r in E. by subst us.
Qed.
