(** * The entry points Parse, ParseString and ParseBytes

    [allocates h put] (EtxEntry.v): [put] gives every part of an AST an address that is not
    in use in [h], with no parent set.  [parents_set t]: the items of a file have no parent;
    below them, each node has the node that contains it as its parent, unless it is in an
    ExprPostfix.Post, where no node has one. *)
From stdpp Require Import base list option strings gmap.
From Coq Require Import Ascii.
From Verif Require Import GoBase EtxAst EtxHeap EtxHeapSpec EtxText EtxLex EtxLexExample EtxUtil EtxGram EtxParse
  EtxPlace EtxParseExample EtxEntry.

(** Every call returns: nil, if the text is not accepted, with the memory unchanged; or the
    AST of the text, in memory of its own in which no two nodes share anything, with the
    parents set.  No memory that was in use is changed. *)
Theorem C67_parse_in_memory h put s :
  allocates h put →
  (parse s = Ok None ∧ ParseString put s h = Ok (None, h)) ∨
  ∃ t h', parse s = Ok (Some (strip t)) ∧ ParseString put s h = Ok (Some (addr (ann t)), h') ∧
    holds h' t ∧ NoDup (addrs t) ∧ (∀ x, x ∈ addrs t → h !! x = None) ∧ parents_set t ∧
    ∀ x, x ∉ addrs t → h' !! x = h !! x.
Proof. exact (p67 h put s). Qed.
(** The kinds of the parents in a file, of each node in memory but the AST itself. *)
Definition parent_kinds (s : text) (h : heap) : list (kind * option kind) :=
  match ParseString (λ r, (place r (next_free h)).1) s h with
  | Ok (Some l, h') =>
      flat_map (λ p : loc * cell, match p.2 with
        | CNode k _ q _ => if decide (p.1 = l) then [] else
            [(k, x ← q; c ← h' !! x; match c with CNode k _ _ _ => Some k | _ => None end)]
        | _ => [] end) (map_to_list h')
  | _ => []
  end.
Example C67_example :
  allocates ∅ (λ r, (place r (next_free ∅)).1) ∧
  parent_kinds (chars "// c") ∅ = [(KRootItem, None); (KComment, Some KRootItem)] ∧
  length (parent_kinds parse_sample ∅) = 237 ∧
  length (filter (λ p, p.2 = None) (parent_kinds parse_sample ∅)) = 4 ∧
  map fst (filter (λ p, p.2 = None) (parent_kinds (chars "x = a[0].b") ∅)) = [KRootItem; KExprPrimary; KExprPostfix; KIdent].
Proof. split; [apply p67_room|]. vm_compute. repeat split; reflexivity. Qed.
Print Assumptions C67_parse_in_memory.

(** In every memory there is room: the hypothesis of C67_parse_in_memory can be met. *)
Theorem C67_allocation_is_possible h :
  allocates h (λ r, (place r (next_free h)).1).
Proof. exact (p67_room h). Qed.
Example C67_room_example : next_free {[7%positive := CArrS []]} = 8%positive.
Proof. by vm_compute. Qed.
Print Assumptions C67_allocation_is_possible.

(** Parsing a text again gives an AST of the same value that shares nothing with the
    first, which stays as it is. *)
Theorem C67_parsing_twice h put put' s l h' :
  allocates h put → ParseString put s h = Ok (Some l, h') → allocates h' put' →
  ∃ t t' h'', ParseString put' s h' = Ok (Some (addr (ann t')), h'') ∧ addr (ann t) = l ∧
    holds h'' t ∧ holds h'' t' ∧ strip t' = strip t ∧ (∀ x, x ∈ addrs t → x ∉ addrs t').
Proof. exact (p67_twice h put put' s l h'). Qed.
Example C67_twice_example :
  let put h := λ r, (place r (next_free h)).1 in
  match ParseString (put ∅) parse_sample ∅ with
  | Ok (Some l, h') => match ParseString (put h') parse_sample h' with
                       | Ok (Some l', h'') => bool_decide (l = l') = false ∧ size h'' = size h' + size h'
                       | _ => False end
  | _ => False
  end.
Proof. vm_compute. split; reflexivity. Qed.
Print Assumptions C67_parsing_twice.
