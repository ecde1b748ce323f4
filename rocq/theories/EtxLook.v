(** * The parser with another lookahead limit

    As EtxParse.v, with [n] in place of participle.UseLookahead(50) (parser.go:11-19). *)
From stdpp Require Import base list option strings.
From Coq Require Import Ascii.
From Verif Require Import GoBase EtxAst EtxHeap EtxHeapSpec EtxText EtxLex EtxUtil EtxGram EtxParse.

Section limit.
Context (n : nat).
Definition stop_at (x y : ctx) : bool := (n <? length (todo x) - length (todo y))%nat.
Section combinators.
Context (ev : gexp → ctx → result).
Fixpoint run_alt_at (failed : bool) (gs : list gexp) (x : ctx) : result :=
  match gs with
  | [] => if failed then Err x else Ret None x
  | g :: gs =>
      match ev g (branch x) with
      | Ret (Some l) y => Ret (Some l) (accept x y)
      | Ret None y => run_alt_at failed gs (drop_branch x y)
      | Err y => if stop_at x y then Err (accept x y) else run_alt_at true gs (drop_branch x y)
      | r => r
      end
  end.
End combinators.
Section groups.
Context (ev : ctx → result).
Definition run_opt_at (x : ctx) : result :=
  match ev (branch x) with
  | Ret o y => Ret (Some (default [] o)) (accept x y)
  | Err y => if stop_at x y then Err (accept x y) else Ret (Some []) (drop_branch x y)
  | r => r
  end.
Fixpoint run_many_at (some : bool) (m : nat) (acc : list text) (x : ctx) : result :=
  let finish x := if some : bool then Err x else Ret (Some acc) x in
  match m with
  | 0 => NoFuel
  | S m =>
      match ev (branch x) with
      | Ret (Some l) y => run_many_at false m (acc ++ l) (accept x y)
      | Ret None y => finish (accept x y)
      | Err y => if stop_at x y then Err (accept x y) else finish (drop_branch x y)
      | r => r
      end
  end.
End groups.
Section eval.
Context (sub : kind → list token → parsed).
Fixpoint eval_at (g : gexp) (x : ctx) : result :=
  match g with
  | GLit s => next_is (λ t, bool_decide (value t = chars s)) x
  | GTok k => next_is (λ t, bool_decide (kind_of_token t = k)) x
  | GSub f k =>
      match sub k (todo x) with
      | PNode t ts => Ret (Some [[]]) (Ctx ts (assigned x ++ waiting x) [(f, Struct t)])
      | PNone => Ret None x
      | PErr ts => Err (Ctx ts (assigned x ++ waiting x) [])
      | PCrash => Crash
      | PNoFuel => NoFuel
      end
  | GCap f g =>
      match eval_at g x with
      | Ret (Some l) y => Ret (Some [[]]) (Ctx (todo y) (assigned y) (waiting y ++ [(f, Texts l)]))
      | r => r
      end
  | GSeq gs => run_seq eval_at true gs [] x
  | GAlt gs => run_alt_at eval_at false gs x
  | GOpt g => run_opt_at (eval_at g) x
  | GMany g => run_many_at (eval_at g) false (S (length (todo x))) [] x
  | GSome g => run_many_at (eval_at g) true (S (length (todo x))) [] x
  end.
End eval.
Section struct.
Context (eof : pos).
Fixpoint parse_struct_at (m : nat) (k : kind) (ts : list token) : parsed :=
  match m with
  | 0 => PNoFuel
  | S m =>
      match eval_at (parse_struct_at m) (grammar k) (Ctx ts [] []) with
      | Ret (Some _) y =>
          match store_all k (fields (zero no_pos k)) (assigned y ++ waiting y) with
          | Stored fs => PNode (T (position eof k ts) k fs) (todo y)
          | Refused => PErr (todo y)
          | Crashed => PCrash
          end
      | Ret None _ => PNone
      | Err y => PErr (todo y)
      | Crash => PCrash
      | NoFuel => PNoFuel
      end
  end.
Definition parse_tokens_at (ts : list token) : res (option ast) :=
  match parse_struct_at (struct_fuel ts) KAST ts with
  | PNode t [] => Ok (Some t)
  | PNode _ _ | PNone | PErr _ => Ok None
  | PCrash => Panic
  | PNoFuel => OutOfFuel
  end.
End struct.
Definition parse_at (s : text) : res (option ast) :=
  match lex "" s with
  | Ok (Lexed ts _) => parse_tokens_at (advance (start_pos "") s) (elide ts)
  | Ok (LexError _ _) => Ok None
  | Panic => Panic
  | OutOfFuel => OutOfFuel
  end.
End limit.
