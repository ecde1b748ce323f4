(** * Examples for the properties of FormattedString *)
From stdpp Require Import base list option strings.
From Coq Require Import Ascii.
From Verif Require Import GoBase EtxAst EtxHeap EtxHeapSpec EtxText EtxLex EtxUtil EtxGram EtxParse EtxFormat EtxFormatPropProofs.

Definition lines (l : list string) : text := concat (map (λ s, chars s ++ [lf]) l).
(** What formatting a file gives. *)
Inductive outcome : Type := Rejected | Panics | Prints (s : string).
Definition formatted (s : text) : outcome :=
  match parse s with
  | Ok (Some t) => match format t with Ok u => Prints (str u) | _ => Panics end
  | _ => Rejected
  end.
(** Whether it has an entry that is a comment or an empty line. *)
Definition blank_inside (s : text) : bool :=
  match parse s with Ok (Some t) => existsb is_blank (nodes t) | _ => false end.
