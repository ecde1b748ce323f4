(** * Where the nodes of a parsed file are

    [ann m] is the Pos of the node [m].  The root and the nodes that C66 lists have none
    ([no_pos]). *)
From stdpp Require Import base list option strings.
From Coq Require Import Ascii.
From Verif Require Import GoBase EtxAst EtxHeap EtxHeapSpec EtxText EtxLex EtxLexSpec EtxLexExample EtxUtil EtxGram EtxParse
  EtxPlaceKey.
(** The kinds and positions of the nodes of a file. *)
Definition places (s : text) : list (kind * pos) :=
  match parse s with
  | Ok (Some r) => (λ m : ast, (kind_of m, ann m)) <$> filter (λ m : ast, bool_decide (ann m = no_pos) = false) (nodes r)
  | _ => []
  end.

(** The position of a node of a parsed file is that of a token of the file that is not white space: the text
    from there on begins with that token, and line and column count what is before it. *)
Theorem C94_where_a_node_is s r m :
  parse s = Ok (Some r) → m ∈ nodes r → ann m ≠ no_pos →
  ∃ ts st t pre post, lex "" s = Ok (Lexed ts st) ∧ t ∈ ts ∧ kind_of_token t ≠ TWhitespace ∧
    s = pre ++ value t ++ post ∧ value t ≠ [] ∧ ann m = pos_at "" pre.
Proof. exact (p94 s r m). Qed.
Example C94_where_example :
  filter (λ q : kind * pos, q.1 ∈ [KRootItem; KDecl; KExprPrimary; KExprInvocationParams])
    (places (chars ("val a = f()" +:+ nl +:+ "val b = c"))) =
    [(KRootItem, Pos "" 0 1 1); (KDecl, Pos "" 0 1 1); (KExprPrimary, Pos "" 8 1 9); (KExprInvocationParams, Pos "" 10 1 11);
     (KRootItem, Pos "" 12 2 1); (KDecl, Pos "" 12 2 1); (KExprPrimary, Pos "" 20 2 9)].
Proof. vm_compute. reflexivity. Qed.
Print Assumptions C94_where_a_node_is.

(** No two nodes of a parsed file have the same kind and the same position. *)
Theorem C94_one_node_at_a_place s r :
  parse s = Ok (Some r) →
  NoDup ((λ m : ast, (kind_of m, offset (ann m))) <$> filter (λ m, ann m ≠ no_pos) (nodes r)).
Proof. exact (p94_once s r). Qed.
(** Many nodes at one place, all of different kinds. *)
Example C94_once_example :
  length (filter (λ q : kind * pos, offset q.2 = 8) (places (chars "val a = b"))) = 16 ∧
  length (places (chars "val a = b + (c)")) = 39.
Proof. split; vm_compute; reflexivity. Qed.
Print Assumptions C94_one_node_at_a_place.

(** No node of a parsed file starts before a node that it is part of. *)
Theorem C94_inside_the_parent s r m c :
  parse s = Ok (Some r) → m ∈ nodes r → c ∈ nodes m → ann m ≠ no_pos → ann c ≠ no_pos →
  (offset (ann m) ≤ offset (ann c))%nat.
Proof. exact (p94_inside s r m c). Qed.
Example C94_inside_example :
  match parse (chars "val a = f(b)") with
  | Ok (Some r) =>
      (λ m : ast, (offset (ann m), (λ c : ast, offset (ann c)) <$> filter (λ c : ast, kind_of c ∈ [KExprInvocationParams; KExpr]) (nodes m))) <$>
      filter (λ m, kind_of m ∈ [KDecl; KExprPostfix]) (nodes r)
  | _ => []
  end = [(0, [8; 10; 10]); (8, [10; 10]); (10, [])].
Proof. vm_compute. reflexivity. Qed.
Print Assumptions C94_inside_the_parent.
