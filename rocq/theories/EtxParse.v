(** * The parser of pkg/etx

    How participle v2.0.0-alpha8 (nodes.go, context.go, participle.go) runs the grammar.

    Captures are not assigned at once: they wait in the context until the innermost
    struct being parsed is complete, when all that wait in the context are assigned
    (context.go, Apply).  A branch (an alternative or an iteration) has a context of its
    own with nothing waiting.  If the branch fails, what still waits there is dropped, but
    what has been assigned stays. *)
From stdpp Require Import base list option strings.
From Coq Require Import Ascii.
From Verif Require Import GoBase EtxAst EtxHeap EtxHeapSpec EtxText EtxLex EtxUtil EtxGram.

(** What @ takes: texts of tokens, or a struct. *)
Inductive captured : Type :=
| Texts (l : list text)
| Struct (t : ast).
Definition capture : Type := fld * captured.

(** ** reflect-level assignment to a field: participle nodes.go, setField *)
Inductive stored : Type :=
| Stored (v : list (fld * aval))
| Refused                            (* an error *)
| Crashed.                           (* a panic *)
Definition update (f : fld) (v : aval → option aval) (fs : list (fld * aval)) : stored :=
  match assoc f fs with
  | Some old => match v old with Some x => Stored (set_field f x fs) | None => Refused end
  | None => Refused
  end.
Definition store (k : kind) (fs : list (fld * aval)) (c : capture) : stored :=
  match c with
  | (f, Texts l) =>
      match k, f with
      (* value.go:259-272: HeredocDelimiter implements Capture *)
      | KHeredoc, FDelimiter =>
          match capture_delimiter (default [] (head l)) with
          | Some (dash, u) =>
              Stored (set_field FDelimiter (VStr (str u))
                (if dash : bool then set_field FLeadingTabs (VBool true) fs else fs))
          | None => Crashed
          end
      (* value.go:125-129, 164-178: so do ValueBool and ValueNumber; their ASTNode is not set *)
      | KValue, FBool =>
          Stored (set_field FBool (VPtr (Some (node no_pos KValueBool
            [(FValue, VBool (capture_bool (default [] (head l))))]))) fs)
      | KValue, FNumber =>
          match capture_number (default [] (head l)) with
          | Some (src, _) =>
              Stored (set_field FNumber (VPtr (Some (node no_pos KValueNumber
                [(FValue, VFloat (Some (tt, str src))); (FSource, VStr (str src))]))) fs)
          | None => Refused
          end
      | _, _ =>
          update f (λ old,
            match old with
            | VStr s => Some (VStr (s +:+ str (concat l)))
            | VBool _ => Some (VBool true)
            | VStrs o => Some (VStrs (Some (tt, match o with Some (_, l') => l' | None => [] end ++ map str l)))
            | _ => None
            end) fs
      end
  | (f, Struct t) =>
      update f (λ old,
        match old with
        | VPtr _ => Some (VPtr (Some t))
        | VEmb _ => Some (VEmb t)
        | VList o => Some (VList (Some (tt, match o with Some (_, l') => l' | None => [] end ++ [Some t])))
        | _ => None
        end) fs
  end.
Fixpoint store_all (k : kind) (fs : list (fld * aval)) (cs : list capture) : stored :=
  match cs with
  | [] => Stored fs
  | c :: cs => match store k fs c with Stored fs => store_all k fs cs | r => r end
  end.

(** ** Expressions *)
(** The context: the tokens to come, and the captures of the struct being parsed, those
    assigned and those that wait. *)
Record ctx : Type := Ctx { todo : list token; assigned : list capture; waiting : list capture }.
(** [Ret None]: no match (nil); [Ret (Some l)]: a match, [l] the texts of the tokens, or
    an empty text for a capture. *)
Inductive result : Type :=
| Ret (o : option (list text)) (x : ctx)
| Err (x : ctx)
| Crash
| NoFuel.
(** What parsing a struct gives. *)
Inductive parsed : Type :=
| PNode (t : ast) (ts : list token)
| PNone
| PErr (ts : list token)
| PCrash
| PNoFuel.

(** context.go, Branch, Accept, Stop; parser.go:11-19: UseLookahead(50) *)
Definition branch (x : ctx) : ctx := Ctx (todo x) (assigned x) [].
Definition accept (x y : ctx) : ctx := Ctx (todo y) (assigned y) (waiting x ++ waiting y).
Definition lookahead : nat := 50.
Definition stop (x y : ctx) : bool := (lookahead <? length (todo x) - length (todo y))%nat.
(** A branch that is given up. *)
Definition drop_branch (x y : ctx) : ctx := Ctx (todo x) (assigned y) (waiting x).

Section combinators.
Context (ev : gexp → ctx → result).
(** nodes.go, sequence.Parse *)
Fixpoint run_seq (first : bool) (gs : list gexp) (acc : list text) (x : ctx) : result :=
  match gs with
  | [] => Ret (if bool_decide (acc = []) then None else Some acc) x
  | g :: gs =>
      match ev g x with
      | Ret (Some l) y => run_seq false gs (acc ++ l) y
      | Ret None y => if first then Ret None y else Err y
      | r => r
      end
  end.
(** nodes.go, disjunction.Parse *)
Fixpoint run_alt (failed : bool) (gs : list gexp) (x : ctx) : result :=
  match gs with
  | [] => if failed then Err x else Ret None x
  | g :: gs =>
      match ev g (branch x) with
      | Ret (Some l) y => Ret (Some l) (accept x y)
      | Ret None y => run_alt failed gs (drop_branch x y)
      | Err y => if stop x y then Err (accept x y) else run_alt true gs (drop_branch x y)
      | r => r
      end
  end.
End combinators.
(** nodes.go, group.Parse *)
Section groups.
Context (ev : ctx → result).
Definition run_opt (x : ctx) : result :=
  match ev (branch x) with
  | Ret o y => Ret (Some (default [] o)) (accept x y)
  | Err y => if stop x y then Err (accept x y) else Ret (Some []) (drop_branch x y)
  | r => r
  end.
(** [some]: at least one iteration is needed; [n] bounds their number. *)
Fixpoint run_many (some : bool) (n : nat) (acc : list text) (x : ctx) : result :=
  let finish x := if some : bool then Err x else Ret (Some acc) x in
  match n with
  | 0 => NoFuel
  | S n =>
      match ev (branch x) with
      | Ret (Some l) y => run_many false n (acc ++ l) (accept x y)
      | Ret None y => finish (accept x y)
      | Err y => if stop x y then Err (accept x y) else finish (drop_branch x y)
      | r => r
      end
  end.
End groups.

Definition next_is (p : token → bool) (x : ctx) : result :=
  match todo x with
  | t :: ts => if p t then Ret (Some [value t]) (Ctx ts (assigned x) (waiting x)) else Ret None x
  | [] => Ret None x
  end.
Section eval.
Context (sub : kind → list token → parsed).
Fixpoint eval (g : gexp) (x : ctx) : result :=
  match g with
  (* nodes.go, literal.Parse and reference.Parse *)
  | GLit s => next_is (λ t, bool_decide (value t = chars s)) x
  | GTok k => next_is (λ t, bool_decide (kind_of_token t = k)) x
  (* nodes.go, capture.Parse of a struct *)
  | GSub f k =>
      match sub k (todo x) with
      | PNode t ts => Ret (Some [[]]) (Ctx ts (assigned x ++ waiting x) [(f, Struct t)])
      | PNone => Ret None x
      | PErr ts => Err (Ctx ts (assigned x ++ waiting x) [])
      | PCrash => Crash
      | PNoFuel => NoFuel
      end
  (* nodes.go, capture.Parse of anything else *)
  | GCap f g =>
      match eval g x with
      | Ret (Some l) y => Ret (Some [[]]) (Ctx (todo y) (assigned y) (waiting y ++ [(f, Texts l)]))
      | r => r
      end
  | GSeq gs => run_seq eval true gs [] x
  | GAlt gs => run_alt eval false gs x
  | GOpt g => run_opt (eval g) x
  | GMany g => run_many (eval g) false (S (length (todo x))) [] x
  | GSome g => run_many (eval g) true (S (length (todo x))) [] x
  end.
End eval.

(** ** Structs: nodes.go, strct.Parse *)
Section struct.
Context (eof : pos).
Definition position (k : kind) (ts : list token) : pos :=
  match k with KAST => no_pos | _ => match ts with t :: _ => start t | [] => eof end end.
(** [n] bounds the nesting of structs. *)
Fixpoint parse_struct (n : nat) (k : kind) (ts : list token) : parsed :=
  match n with
  | 0 => PNoFuel
  | S n =>
      match eval (parse_struct n) (grammar k) (Ctx ts [] []) with
      | Ret (Some _) y =>
          match store_all k (fields (zero no_pos k)) (assigned y ++ waiting y) with
          | Stored fs => PNode (T (position k ts) k fs) (todo y)
          | Refused => PErr (todo y)
          | Crashed => PCrash
          end
      | Ret None _ => PNone
      | Err y => PErr (todo y)
      | Crash => PCrash
      | NoFuel => PNoFuel
      end
  end.

(** participle.go, parseOne: no token may be left. *)
Definition struct_fuel (ts : list token) : nat := 60 * S (length ts).
Definition parse_tokens (ts : list token) : res (option ast) :=
  match parse_struct (struct_fuel ts) KAST ts with
  | PNode t [] => Ok (Some t)
  | PNode _ _ | PNone | PErr _ => Ok None
  | PCrash => Panic
  | PNoFuel => OutOfFuel
  end.
End struct.

(** parser.go:22-60, Parse, ParseString and ParseBytes, without UpdateParentRefs.  The
    input is lexed completely before it is parsed.  [Ok None]: an error. *)
Definition parse (s : text) : res (option ast) :=
  match lex "" s with
  | Ok (Lexed ts _) => parse_tokens (advance (start_pos "") s) (elide ts)
  | Ok (LexError _ _) => Ok None
  | Panic => Panic
  | OutOfFuel => OutOfFuel
  end.
