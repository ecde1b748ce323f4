(** * Vocabulary for the properties of Clone, Children and UpdateParentRefs *)
From stdpp Require Import base list option strings gmap relations.
From Verif Require Import GoBase EtxAst EtxHeap.

(** A node in memory, with everything it owns: an AST whose nodes know their address
    and parent, and whose slices and numbers know the address of their contents. *)
Record hdr : Type := Hdr { addr : loc; at_pos : pos; par : option loc }.
Notation mnode := (tree hdr loc).
Notation mval := (val hdr loc).
(** An AST as a value: positions, but no addresses and no parents. *)
Notation ast := (tree pos unit).
Notation aval := (val pos unit).

Definition shallow (v : mval) : cval :=
  match v with
  | VStr s => CStr s
  | VBool b => CBool b
  | VStrs o => CStrs (fst <$> o)
  | VFloat o => CFloat (fst <$> o)
  | VPtr o => CPtr (addr ∘ ann <$> o)
  | VEmb t => CEmb (addr (ann t))
  | VList o => CList (fst <$> o)
  end.
Definition shallow_field (p : fld * mval) : fld * cval := (p.1, shallow p.2).

(** [holds h t]: the heap [h] holds the node [t]. *)
Fixpoint holds (h : heap) (t : mnode) : Prop :=
  match t with
  | T a k fs =>
      h !! addr a = Some (CNode k (at_pos a) (par a) (map shallow_field fs)) ∧
      (fix go fs := match fs with [] => True | p :: fs => holds_val h p.2 ∧ go fs end) fs
  end
with holds_val (h : heap) (v : mval) : Prop :=
  match v with
  | VStrs (Some (b, l)) => h !! b = Some (CArrS l)
  | VFloat (Some (b, s)) => h !! b = Some (CBig s)
  | VPtr (Some t) => holds h t
  | VEmb t => holds h t
  | VList (Some (b, l)) =>
      h !! b = Some (CArrP (map (fmap (addr ∘ ann)) l)) ∧
      (fix go l := match l with
                   | [] => True
                   | o :: l => match o with Some t => holds h t | None => True end ∧ go l
                   end) l
  | _ => True
  end.

(** All addresses of a node: those of the nodes, arrays and numbers it consists of. *)
Fixpoint addrs (t : mnode) : list loc :=
  match t with T a k fs => addr a :: flat_map (λ p, addrs_val p.2) fs end
with addrs_val (v : mval) : list loc :=
  match v with
  | VStrs (Some (b, _)) => [b]
  | VFloat (Some (b, _)) => [b]
  | VPtr (Some t) => addrs t
  | VEmb t => addrs t
  | VList (Some (b, l)) => b :: flat_map (λ o, match o with Some t => addrs t | None => [] end) l
  | _ => []
  end.

(** All nodes of a node, itself first. *)
Fixpoint nodes {A B} (t : tree A B) : list (tree A B) :=
  match t with T a k fs => t :: flat_map (λ p, nodes_val p.2) fs end
with nodes_val {A B} (v : val A B) : list (tree A B) :=
  match v with
  | VPtr (Some t) => nodes t
  | VEmb t => nodes t
  | VList (Some (_, l)) => flat_map (λ o, match o with Some t => nodes t | None => [] end) l
  | _ => []
  end.

(** Changing what is attached to nodes and slices. *)
Fixpoint tmap {A B A' B'} (f : A → A') (g : B → B') (t : tree A B) : tree A' B' :=
  match t with T a k fs => T (f a) k (map (λ p, (p.1, vmap f g p.2)) fs) end
with vmap {A B A' B'} (f : A → A') (g : B → B') (v : val A B) : val A' B' :=
  match v with
  | VStr s => VStr s
  | VBool b => VBool b
  | VStrs o => VStrs (match o with Some (b, l) => Some (g b, l) | None => None end)
  | VFloat o => VFloat (match o with Some (b, s) => Some (g b, s) | None => None end)
  | VPtr o => VPtr (match o with Some t => Some (tmap f g t) | None => None end)
  | VEmb t => VEmb (tmap f g t)
  | VList o => VList (match o with
      | Some (b, l) => Some (g b, map (λ o, match o with Some t => Some (tmap f g t) | None => None end) l)
      | None => None end)
  end.
(** The AST as a value.  Two nodes with the same value have the same kinds, positions,
    scalars, nil and empty slices, and sub-nodes of the same value. *)
Definition strip : mnode → ast := tmap at_pos (λ _, tt).
Definition strip_val : mval → aval := vmap at_pos (λ _, tt).

(** The number of nodes on the longest path down. *)
Fixpoint height {A B} (t : tree A B) : nat :=
  match t with T a k fs => S (list_max (map (λ p, height_val p.2) fs)) end
with height_val {A B} (v : val A B) : nat :=
  match v with
  | VPtr (Some t) => height t
  | VEmb t => height t
  | VList (Some (_, l)) => list_max (map (λ o, match o with Some t => height t | None => 0 end) l)
  | _ => 0
  end.

(** The addresses below a node that do not belong to the node struct itself. *)
Definition inside (t : mnode) : list loc := flat_map (λ p, addrs_val p.2) (fields t).

(** What the Clone of a node shares with the node, as the code is written: the Type
    of a FuncDecl, and all that a Heredoc in a Value refers to. *)
Fixpoint shared (t : mnode) : list loc :=
  match t with
  | T _ k fs =>
      flat_map (λ p,
        if decide (k = KFuncDecl ∧ p.1 = FType) then addrs_val p.2
        else if decide (k = KValue ∧ p.1 = FHeredoc)
             then match p.2 with VPtr (Some t) => inside t | _ => [] end
        else shared_val p.2) fs
  end
with shared_val (v : mval) : list loc :=
  match v with
  | VPtr (Some t) => shared t
  | VEmb t => shared t
  | VList (Some (_, l)) => flat_map (λ o, match o with Some t => shared t | None => [] end) l
  | _ => []
  end.
(** The Heredocs that are copied without cloning them. *)
Fixpoint copied (t : mnode) : list mnode :=
  match t with
  | T _ k fs =>
      flat_map (λ p,
        if decide (k = KFuncDecl ∧ p.1 = FType) then []
        else if decide (k = KValue ∧ p.1 = FHeredoc) then val_subs p.2
        else copied_val p.2) fs
  end
with copied_val (v : mval) : list mnode :=
  match v with
  | VPtr (Some t) => copied t
  | VEmb t => copied t
  | VList (Some (_, l)) => flat_map (λ o, match o with Some t => copied t | None => [] end) l
  | _ => []
  end.
(** No Heredoc in a Value, and no FuncDecl with a Type, anywhere. *)
Definition no_sharing (t : mnode) : Prop :=
  ∀ m, m ∈ nodes t →
    (kind_of m = KFuncDecl → get FType m = Some (VPtr None)) ∧
    (kind_of m = KValue → get FHeredoc m = Some (VPtr None)).

(** The direct sub-nodes in memory order of the fields, as addresses. *)
Definition sub_addrs (t : mnode) : list loc := addr ∘ ann <$> subs t.

(** The alternatives of which at most one is set: [switch] statements in Children
    look at one only. *)
Definition one_of (k : kind) : list fld :=
  match k with
  | KRootItem => [FAttribute; FDecl; FFunc; FType; FBlock; FComment]
  | KMapKey => [FIdent; FStr]
  | KExpr => [FLeft; FIf; FSwitch]
  | _ => []
  end.
Definition is_set {A B} (t : tree A B) (f : fld) : bool :=
  match get f t with Some (VPtr (Some _)) => true | _ => false end.
Definition exclusive {A B} (t : tree A B) : Prop :=
  length (filter (λ f, is_set t f = true) (one_of (kind_of t))) ≤ 1.
Definition no_nil_items {A B} (t : tree A B) : Prop :=
  ∀ f b l, get f t = Some (VList (Some (b, l))) → None ∉ l.

(** What UpdateParentRefs makes of a node: the node gets the parent [p], the nodes in
    its fields get the node as parent, and so on; ExprPostfix.Post is left alone. *)
Fixpoint reparent (p : option loc) (t : mnode) : mnode :=
  match t with
  | T a k fs =>
      T (Hdr (addr a) (at_pos a) p) k
        (map (λ q, (q.1, if decide (k = KExprPostfix ∧ q.1 = FPost) then q.2
                         else reparent_val (Some (addr a)) q.2)) fs)
  end
with reparent_val (p : option loc) (v : mval) : mval :=
  match v with
  | VPtr (Some t) => VPtr (Some (reparent p t))
  | VEmb t => VEmb (reparent p t)
  | VList (Some (b, l)) =>
      VList (Some (b, map (λ o, match o with Some t => Some (reparent p t) | None => None end) l))
  | v => v
  end.
(** Nodes as the parser builds them: one alternative, no nil pointers in slices. *)
Definition well_formed {A B} (t : tree A B) : Prop := ∀ m, m ∈ nodes t → exclusive m ∧ no_nil_items m.
Definition node_addrs (t : mnode) : list loc := addr ∘ ann <$> nodes t.
(** The node at [x] has the parent [p]. *)
Definition parent_in (h : heap) (x : loc) (p : option loc) : Prop :=
  ∃ k q fs, h !! x = Some (CNode k q p fs).
(** No ExprPostfix has a Post. *)
Definition post_free (t : mnode) : Prop :=
  ∀ m, m ∈ nodes t → kind_of m = KExprPostfix → get FPost m = Some (VPtr None).
