(** * The order of the children of parsed nodes

    [in_order e us ts] (EtxOrder.v): the trees [ts] are built, by the declarative reading
    of the grammar, from disjoint stretches of the tokens [us], one after the other. *)
From stdpp Require Import base list option strings sorting.
From Coq Require Import Ascii.
From Verif Require Import GoBase EtxAst EtxHeap EtxHeapSpec EtxText EtxLex EtxLexExample EtxUtil EtxGram EtxParse
  EtxParseSpec EtxParseExample EtxPlace EtxHeapExample EtxOrder.

(** Children lists the sub-nodes in the order of the text: those with a position are
    built from disjoint stretches of the file's tokens, one after the other. *)
Theorem C66_children_in_source_order s r (t : mnode) h :
  parse s = Ok (Some r) → strip t ∈ nodes r → holds h t →
  ∃ cs ts st, Children (addr (ann t)) h = Ok (Some ∘ addr ∘ ann <$> cs, h) ∧
    lex "" s = Ok (Lexed ts st) ∧
    in_order (advance (start_pos "") s) (elide ts) (strip <$> filter (λ c, at_pos (ann c) ≠ no_pos) cs).
Proof. exact (p66 s r t h). Qed.
(** The offsets Children gives for the nodes of a kind in a file, put into memory. *)
Definition child_offsets (m : ast) : list (option (kind * nat)) :=
  match Children (addr (ann (mem m))) (heap_of (mem m)) with
  | Ok (l, h) => map (λ o : option loc, x ← o; c ← h !! x; match c with CNode k q _ _ => Some (k, offset q) | _ => None end) l
  | _ => []
  end.
Definition offsets_of (k : kind) (s : text) : list (list (option (kind * nat))) :=
  match parse s with Ok (Some r) => map child_offsets (filter (λ m, kind_of m = k) (nodes r)) | _ => [] end.
Example C66_example :
  (∀ m, strip (mem m) = m ∧ holds (heap_of (mem m)) (mem m)) ∧
  offsets_of KDecl (chars "const x: t = y") = [[Some (KParameterType, 9); Some (KExpr, 13)]] ∧
  offsets_of KExprConditional (chars "x = a ? b : c") =
    [[Some (KExprLogicalOr, 4); Some (KExpr, 8); Some (KExpr, 12)]; [Some (KExprLogicalOr, 8)]; [Some (KExprLogicalOr, 12)]].
Proof. split; [intros m; split; apply in_memory_ok|]. split; vm_compute; reflexivity. Qed.
Print Assumptions C66_children_in_source_order.

(** In particular, the positions of the children never go back. *)
Theorem C66_positions_never_decrease s r (t : mnode) h :
  parse s = Ok (Some r) → strip t ∈ nodes r → holds h t →
  ∃ cs, Children (addr (ann t)) h = Ok (Some ∘ addr ∘ ann <$> cs, h) ∧ Forall (holds h) cs ∧
    StronglySorted (λ c c', offset (at_pos (ann c)) ≤ offset (at_pos (ann c')))%nat
      (filter (λ c, at_pos (ann c) ≠ no_pos) cs).
Proof. exact (p66_positions s r t h). Qed.
Example C66_positions_example :
  offsets_of KFunc (chars "def f(a: t, b: u) v { c }") =
    [[Some (KFuncParameter, 6); Some (KFuncParameter, 12); Some (KParameterType, 18); Some (KFuncStatement, 22)]].
Proof. vm_compute. reflexivity. Qed.
Print Assumptions C66_positions_never_decrease.

(** The only children without a position are truth values and numbers, and the empty
    structs that stand for the missing value or type of a comment or an empty line. *)
Theorem C66_children_without_position s r (t : mnode) h :
  parse s = Ok (Some r) → strip t ∈ nodes r → holds h t →
  ∃ cs, Children (addr (ann t)) h = Ok (Some ∘ addr ∘ ann <$> cs, h) ∧
    ∀ c, c ∈ cs → at_pos (ann c) = no_pos →
      kind_of c = KValueBool ∨ kind_of c = KValueNumber ∨
      strip c = zero no_pos KExpr ∨ strip c = zero no_pos KParameterType.
Proof. exact (p66_unplaced s r t h). Qed.
(** Offset 0, as in the zero position. *)
Example C66_unplaced_example :
  offsets_of KValue (chars "x = 1") = [[Some (KValueNumber, 0)]] ∧
  offsets_of KTypeEnumItem (chars ("type e enum {" +:+ nl +:+ "a: 1" +:+ nl +:+ nl +:+ "b: 2" +:+ nl +:+ "}")) =
    [[Some (KExpr, 17)]; [Some (KExpr, 0)]; [Some (KExpr, 23)]].
Proof. split; vm_compute; reflexivity. Qed.
Print Assumptions C66_children_without_position.
