(** * Examples for the properties of operators *)
From stdpp Require Import base list option strings.
From Coq Require Import Ascii.
From Verif Require Import GoBase EtxAst EtxHeap EtxHeapSpec EtxText EtxLex EtxUtil EtxGram EtxParse EtxParseSpec EtxPrecSpec.

(** The reading of a node; [n] bounds the depth. *)
Fixpoint reading_at (n : nat) (t : ast) : option reading :=
  match n with
  | 0 => None
  | S n =>
      if decide (kind_of t = KExprUnary) then Some (Operand t)
      else if decide (kind_of t ∈ binary_levels) then
        match get FLeft t, get FOp t, get FRight t with
        | Some (VEmb l), Some (VStr o), Some (VPtr None) => if decide (o = "") then reading_at n l else None
        | Some (VEmb l), Some (VStr o), Some (VPtr (Some m)) => a ← reading_at n l; b ← reading_at n m; Some (Binary a o b)
        | _, _, _ => None
        end
      else None
  end.
Lemma reading_at_reads n t r : reading_at n t = Some r → reads t r.
Proof.
  revert t r. induction n as [|n IH]; intros t r; [done|]. cbn.
  case_decide; [intros [= <-]; by constructor|]. case_decide; [|done].
  destruct (get FLeft t) as [v1|] eqn:E1; [|done]. destruct v1; try done.
  destruct (get FOp t) as [v2|] eqn:E2; [|done]. destruct v2; try done.
  destruct (get FRight t) as [v3|] eqn:E3; [|done]. destruct v3 as [| | | |[m|]| |]; try done.
  - intros (a & Ha & (b & Hb & [= <-])%bind_Some)%bind_Some. eapply reads_binary; eauto.
  - case_decide as Es; [subst|done]. intros Hr. eapply reads_single; eauto.
Qed.
(** Names and numbers, with parentheses for each binary operator. *)
Definition names (t : ast) : list string :=
  flat_map (λ m, match kind_of m, get FParts m, get FSource m with
                 | KIdent, Some (VStrs (Some (_, l))), _ => l
                 | KValueNumber, _, Some (VStr s) => [s]
                 | _, _, _ => []
                 end) (nodes t).
Fixpoint show (r : reading) : string :=
  match r with
  | Operand t => String.concat "," (names t)
  | Binary a o b => "(" +:+ show a +:+ o +:+ show b +:+ ")"
  end.
(** The reading of the expression of the only attribute of a file. *)
Definition file_reading (s : text) : option string :=
  match parse s with
  | Ok (Some t) =>
      match filter (λ m, kind_of m = KExprLogicalOr) (nodes t) with
      | m :: _ => show <$> reading_at 40 m
      | [] => None
      end
  | _ => None
  end.
