(** * Examples for the properties of the parser *)
From stdpp Require Import base list option strings.
From Coq Require Import Ascii Lia.
From Verif Require Import GoBase EtxAst EtxHeap EtxHeapSpec EtxText EtxLex EtxLexSpec EtxLexExample EtxGram EtxParse.

Definition parse_sample : text :=
  chars ("// a file" +:+ nl +:+ "block ""l"" m {" +:+ nl +:+ "  x = [1, ""a${b.c(2)}\n""]" +:+ nl +:+ "}" +:+ nl +:+
         "def f(a: t) t {" +:+ nl +:+ "  if a == 0 { -b + c } else { d[1] ? e : f }" +:+ nl +:+ "}" +:+ nl +:+
         "y = <<-EOT" +:+ nl +:+ "z" +:+ nl +:+ "EOT" +:+ nl).
(** The kinds of the items of a parsed file, and the number of its nodes. *)
Definition items_of (t : ast) : list kind :=
  match get FItems t with
  | Some (VList (Some (_, l))) =>
      flat_map (λ o, match o with
        | Some i => flat_map (λ p : fld * aval, match p.2 with VPtr (Some m) => [kind_of m] | _ => [] end) (fields i)
        | None => [] end) l
  | _ => []
  end.
Definition shape (s : text) : option (list kind * nat) :=
  match parse s with Ok (Some t) => Some (items_of t, length (nodes t)) | _ => None end.
