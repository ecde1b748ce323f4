(** * The parser with a limit on iterations

    As EtxParse.v, with the limit that participle v2.0.0-alpha8 puts on the iterations of a
    repetition (nodes.go, MaxIterations and group.Parse): a repetition that has matched [m]
    times does not try again, it panics. *)
From stdpp Require Import base list option strings.
From Coq Require Import Ascii NArith.
From Verif Require Import GoBase EtxAst EtxHeap EtxHeapSpec EtxText EtxLex EtxUtil EtxGram EtxParse.

Section limit.
Context (m : nat).
Section groups.
Context (ev : ctx → result).
(** [n] iterations are left. *)
Fixpoint run_many_upto (some : bool) (n : nat) (acc : list text) (x : ctx) : result :=
  let finish x := if some : bool then Err x else Ret (Some acc) x in
  match n with
  | 0 => Crash
  | S n =>
      match ev (branch x) with
      | Ret (Some l) y => run_many_upto false n (acc ++ l) (accept x y)
      | Ret None y => finish (accept x y)
      | Err y => if stop x y then Err (accept x y) else finish (drop_branch x y)
      | r => r
      end
  end.
End groups.
Section eval.
Context (sub : kind → list token → parsed).
Fixpoint eval_upto (g : gexp) (x : ctx) : result :=
  match g with
  | GLit s => next_is (λ t, bool_decide (value t = chars s)) x
  | GTok k => next_is (λ t, bool_decide (kind_of_token t = k)) x
  | GSub f k =>
      match sub k (todo x) with
      | PNode t ts => Ret (Some [[]]) (Ctx ts (assigned x ++ waiting x) [(f, Struct t)])
      | PNone => Ret None x
      | PErr ts => Err (Ctx ts (assigned x ++ waiting x) [])
      | PCrash => Crash
      | PNoFuel => NoFuel
      end
  | GCap f g =>
      match eval_upto g x with
      | Ret (Some l) y => Ret (Some [[]]) (Ctx (todo y) (assigned y) (waiting y ++ [(f, Texts l)]))
      | r => r
      end
  | GSeq gs => run_seq eval_upto true gs [] x
  | GAlt gs => run_alt eval_upto false gs x
  | GOpt g => run_opt (eval_upto g) x
  | GMany g => run_many_upto (eval_upto g) false m [] x
  | GSome g => run_many_upto (eval_upto g) true m [] x
  end.
End eval.
Section struct.
Context (eof : pos).
Fixpoint parse_struct_upto (n : nat) (k : kind) (ts : list token) : parsed :=
  match n with
  | 0 => PNoFuel
  | S n =>
      match eval_upto (parse_struct_upto n) (grammar k) (Ctx ts [] []) with
      | Ret (Some _) y =>
          match store_all k (fields (zero no_pos k)) (assigned y ++ waiting y) with
          | Stored fs => PNode (T (position eof k ts) k fs) (todo y)
          | Refused => PErr (todo y)
          | Crashed => PCrash
          end
      | Ret None _ => PNone
      | Err y => PErr (todo y)
      | Crash => PCrash
      | NoFuel => PNoFuel
      end
  end.
Definition parse_tokens_upto (ts : list token) : res (option ast) :=
  match parse_struct_upto (struct_fuel ts) KAST ts with
  | PNode t [] => Ok (Some t)
  | PNode _ _ | PNone | PErr _ => Ok None
  | PCrash => Panic
  | PNoFuel => OutOfFuel
  end.
End struct.
Definition parse_upto (s : text) : res (option ast) :=
  match lex "" s with
  | Ok (Lexed ts _) => parse_tokens_upto (advance (start_pos "") s) (elide ts)
  | Ok (LexError _ _) => Ok None
  | Panic => Panic
  | OutOfFuel => OutOfFuel
  end.
End limit.
(** MaxIterations is 1000000. *)
Definition max_iterations : nat := N.to_nat 1000000.
