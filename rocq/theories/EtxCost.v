(** * How long the parser takes

    As EtxParse.v, but every function also gives the number of times that it has called the
    parser of a struct (participle v2.0.0-alpha8, nodes.go, strct.Parse). *)
From stdpp Require Import base list option strings.
From Coq Require Import Ascii.
From Verif Require Import GoBase EtxAst EtxHeap EtxHeapSpec EtxText EtxLex EtxUtil EtxGram EtxParse.

Section combinators.
Context (ev : gexp → ctx → result * nat).
Fixpoint seq_cost (first : bool) (gs : list gexp) (acc : list text) (x : ctx) : result * nat :=
  match gs with
  | [] => (Ret (if bool_decide (acc = []) then None else Some acc) x, 0)
  | g :: gs =>
      let (r, c) := ev g x in
      match r with
      | Ret (Some l) y => let (r', c') := seq_cost false gs (acc ++ l) y in (r', c + c')
      | Ret None y => (if first then Ret None y else Err y, c)
      | r => (r, c)
      end
  end.
Fixpoint alt_cost (failed : bool) (gs : list gexp) (x : ctx) : result * nat :=
  match gs with
  | [] => (if failed then Err x else Ret None x, 0)
  | g :: gs =>
      let (r, c) := ev g (branch x) in
      match r with
      | Ret (Some l) y => (Ret (Some l) (accept x y), c)
      | Ret None y => let (r', c') := alt_cost failed gs (drop_branch x y) in (r', c + c')
      | Err y =>
          if stop x y then (Err (accept x y), c)
          else let (r', c') := alt_cost true gs (drop_branch x y) in (r', c + c')
      | r => (r, c)
      end
  end.
End combinators.
Section groups.
Context (ev : ctx → result * nat).
Definition opt_cost (x : ctx) : result * nat :=
  let (r, c) := ev (branch x) in
  match r with
  | Ret o y => (Ret (Some (default [] o)) (accept x y), c)
  | Err y => (if stop x y then Err (accept x y) else Ret (Some []) (drop_branch x y), c)
  | r => (r, c)
  end.
Fixpoint many_cost (some : bool) (n : nat) (acc : list text) (x : ctx) : result * nat :=
  let finish x := if some : bool then Err x else Ret (Some acc) x in
  match n with
  | 0 => (NoFuel, 0)
  | S n =>
      let (r, c) := ev (branch x) in
      match r with
      | Ret (Some l) y => let (r', c') := many_cost false n (acc ++ l) (accept x y) in (r', c + c')
      | Ret None y => (finish (accept x y), c)
      | Err y => (if stop x y then Err (accept x y) else finish (drop_branch x y), c)
      | r => (r, c)
      end
  end.
End groups.
Section eval.
Context (sub : kind → list token → parsed * nat).
Fixpoint eval_cost (g : gexp) (x : ctx) : result * nat :=
  match g with
  | GLit s => (next_is (λ t, bool_decide (value t = chars s)) x, 0)
  | GTok k => (next_is (λ t, bool_decide (kind_of_token t = k)) x, 0)
  | GSub f k =>
      let (r, c) := sub k (todo x) in
      (match r with
       | PNode t ts => Ret (Some [[]]) (Ctx ts (assigned x ++ waiting x) [(f, Struct t)])
       | PNone => Ret None x
       | PErr ts => Err (Ctx ts (assigned x ++ waiting x) [])
       | PCrash => Crash
       | PNoFuel => NoFuel
       end, c)
  | GCap f g =>
      let (r, c) := eval_cost g x in
      (match r with
       | Ret (Some l) y => Ret (Some [[]]) (Ctx (todo y) (assigned y) (waiting y ++ [(f, Texts l)]))
       | r => r
       end, c)
  | GSeq gs => seq_cost eval_cost true gs [] x
  | GAlt gs => alt_cost eval_cost false gs x
  | GOpt g => opt_cost (eval_cost g) x
  | GMany g => many_cost (eval_cost g) false (S (length (todo x))) [] x
  | GSome g => many_cost (eval_cost g) true (S (length (todo x))) [] x
  end.
End eval.
Section struct.
Context (eof : pos).
Fixpoint struct_cost (n : nat) (k : kind) (ts : list token) : parsed * nat :=
  match n with
  | 0 => (PNoFuel, 0)
  | S n =>
      let (r, c) := eval_cost (struct_cost n) (grammar k) (Ctx ts [] []) in
      (match r with
       | Ret (Some _) y =>
           match store_all k (fields (zero no_pos k)) (assigned y ++ waiting y) with
           | Stored fs => PNode (T (position eof k ts) k fs) (todo y)
           | Refused => PErr (todo y)
           | Crashed => PCrash
           end
       | Ret None _ => PNone
       | Err y => PErr (todo y)
       | Crash => PCrash
       | NoFuel => PNoFuel
       end, S c)
  end.
Definition tokens_cost (ts : list token) : res (option ast) * nat :=
  let (r, c) := struct_cost (struct_fuel ts) KAST ts in
  (match r with
   | PNode t [] => Ok (Some t)
   | PNode _ _ | PNone | PErr _ => Ok None
   | PCrash => Panic
   | PNoFuel => OutOfFuel
   end, c).
End struct.
(** What Parse gives, and how many structs it tries. *)
Definition parse_cost (s : text) : res (option ast) * nat :=
  match lex "" s with
  | Ok (Lexed ts _) => tokens_cost (advance (start_pos "") s) (elide ts)
  | Ok (LexError _ _) => (Ok None, 0)
  | Panic => (Panic, 0)
  | OutOfFuel => (OutOfFuel, 0)
  end.
Definition tries (s : text) : nat := (parse_cost s).2.
