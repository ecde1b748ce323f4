(** * What a parse should give

    The grammar read declaratively: which token sequences it describes, and which tree
    belongs to a description.  Nothing here depends on how the parser searches: no
    branches, no lookahead, no order of alternatives. *)
From stdpp Require Import base list option strings.
From Coq Require Import Ascii.
From Verif Require Import GoBase EtxAst EtxHeap EtxHeapSpec EtxText EtxLex EtxUtil EtxGram EtxParse.

(** ** The value of a field *)
(** What was captured for a field, in the order of the text. *)
Definition captures_of (f : fld) (cs : list capture) : list captured := map snd (filter (λ c, c.1 = f) cs).
Definition texts_of (cs : list captured) : list text :=
  flat_map (λ c, match c with Texts l => l | Struct _ => [] end) cs.
Definition trees_of (cs : list captured) : list ast :=
  flat_map (λ c, match c with Texts _ => [] | Struct t => [t] end) cs.

Definition plain_value (k : kind) (f : fld) (ty : ftype) (cs : list captured) : option aval :=
  match ty with
  | TStr => Some (VStr (str (concat (texts_of cs))))
  | TBool => Some (VBool (bool_decide (cs ≠ [])))
  | TStrs => Some (VStrs (if decide (cs = []) then None else Some (tt, map str (texts_of cs))))
  | TPtr _ => Some (VPtr (last (trees_of cs)))
  | TList _ => Some (VList (if decide (cs = []) then None else Some (tt, map Some (trees_of cs))))
  | TEmb _ | TFloat =>
      match last (trees_of cs) with Some t => Some (VEmb t) | None => assoc f (fields (zero no_pos k)) end
  end.
(** None: the text is not acceptable. *)
Definition field_value (k : kind) (f : fld) (ty : ftype) (cs : list capture) : option aval :=
  match k, f with
  | KHeredoc, FDelimiter =>
      match captures_of FDelimiter cs with
      | [Texts [v]] => d ← capture_delimiter v; Some (VStr (str d.2))
      | _ => None
      end
  | KHeredoc, FLeadingTabs =>
      match captures_of FDelimiter cs with
      | [Texts [v]] => d ← capture_delimiter v; Some (VBool d.1)
      | _ => None
      end
  | KValue, FBool =>
      match captures_of FBool cs with
      | [] => Some (VPtr None)
      | [Texts [v]] => Some (VPtr (Some (T no_pos KValueBool [(FValue, VBool (bool_decide (v = chars "true")))])))
      | _ => None
      end
  | KValue, FNumber =>
      match captures_of FNumber cs with
      | [] => Some (VPtr None)
      | [Texts [v]] =>
          n ← capture_number v;
          Some (VPtr (Some (T no_pos KValueNumber
            [(FValue, VFloat (Some (tt, str n.1))); (FSource, VStr (str n.1))])))
      | _ => None
      end
  | _, _ => plain_value k f ty (captures_of f cs)
  end.
Definition filled (k : kind) (cs : list capture) (fs : list (fld * aval)) : Prop :=
  map fst fs = map fst (schema k) ∧
  ∀ f ty, (f, ty) ∈ schema k → is_Some (field_value k f ty cs) ∧ assoc f fs = field_value k f ty cs.

(** ** Derivations *)
(** The position of a piece of text: that of its first token, or [p], that of what
    follows, if it is empty. *)
Definition first_pos (p : pos) (us : list token) : pos :=
  match us with t :: _ => start t | [] => p end.
(** [derives p g us cs l]: the expression [g] describes the tokens [us], with the
    captures [cs] and the texts [l]; [p] is the position of what follows.
    [builds p k us t]: the struct [k] describes the tokens [us], and its tree is [t]. *)
Inductive derives : pos → gexp → list token → list capture → list text → Prop :=
| d_lit p s t : value t = chars s → derives p (GLit s) [t] [] [value t]
| d_tok p k t : kind_of_token t = k → derives p (GTok k) [t] [] [value t]
| d_sub p f k us t : builds p k us t → derives p (GSub f k) us [(f, Struct t)] [[]]
| d_cap p f g us cs l : derives p g us cs l → derives p (GCap f g) us (cs ++ [(f, Texts l)]) [[]]
| d_nil p : derives p (GSeq []) [] [] []
| d_cons p g gs us vs cs ds l m :
    derives (first_pos p vs) g us cs l → derives p (GSeq gs) vs ds m →
    derives p (GSeq (g :: gs)) (us ++ vs) (cs ++ ds) (l ++ m)
| d_alt p g gs us cs l : g ∈ gs → derives p g us cs l → derives p (GAlt gs) us cs l
| d_none p g : derives p (GOpt g) [] [] []
| d_opt p g us cs l : derives p g us cs l → derives p (GOpt g) us cs l
| d_many_nil p g : derives p (GMany g) [] [] []
| d_many_cons p g us vs cs ds l m :
    derives (first_pos p vs) g us cs l → derives p (GMany g) vs ds m →
    derives p (GMany g) (us ++ vs) (cs ++ ds) (l ++ m)
| d_some p g us vs cs ds l m :
    derives (first_pos p vs) g us cs l → derives p (GMany g) vs ds m →
    derives p (GSome g) (us ++ vs) (cs ++ ds) (l ++ m)
with builds : pos → kind → list token → ast → Prop :=
| b_struct p k us cs l fs :
    derives p (grammar k) us cs l → filled k cs fs →
    builds p k us (T (match k with KAST => no_pos | _ => first_pos p us end) k fs).
Scheme derives_ind2 := Minimality for derives Sort Prop
  with builds_ind2 := Minimality for builds Sort Prop.
Combined Scheme derivation_ind from derives_ind2, builds_ind2.
