(** * The text of a number without source: value.go:202-208

    [Value.String()] is [Text('g', 10)] of math/big: ftoa.go, Text, Append, fmtE and fmtF,
    and decimal.go, init, round, shouldRoundUp, roundUp and roundDown; from knowledge of
    its source. *)
From stdpp Require Import base list option.
From Coq Require Import Ascii String NArith ZArith.
From Verif Require Import GoBase EtxText EtxUtil EtxFloat.
Local Open Scope string_scope.
Local Open Scope list_scope.
Local Open Scope Z_scope.

(** 0.[digits] * 10^[point]; the first and the last digit are not 0. *)
Record decimal : Type := Decimal { digits : text; point : Z }.
Definition digit (n : N) : ascii := ascii_of_N (48 + n).
Definition digit_number (c : ascii) : N := (N.of_nat (code c) - 48)%N.
(** nat.utoa(10) *)
Fixpoint utoa_loop (fuel : nat) (n : N) (s : text) : text :=
  match fuel with
  | O => s
  | S fuel => if (n =? 0)%N then s else utoa_loop fuel (n / 10)%N (digit (n mod 10)%N :: s)
  end.
Definition utoa (n : N) : text := utoa_loop (N.to_nat (N.size n)) n [].
(** Without the zeros at the end. *)
Fixpoint trim (s : text) : text :=
  match s with
  | [] => []
  | c :: s => match trim s with [] => if Ascii.eqb c "0" then [] else [c] | t => c :: t end
  end.
(** decimal.go, init: [m * 2^e].  For a negative [e] the loop with shr divides the decimal number by two
    [-e] times, and does so exactly; this is written with a power of five here. *)
Definition decimal_of (m : N) (e : Z) : decimal :=
  let s := utoa (if 0 <=? e then (m * 2 ^ Z.to_N e)%N else (m * 5 ^ Z.to_N (- e))%N) in
  Decimal (trim s) (Z.of_nat (List.length s) + Z.min e 0).
(** decimal.go, shouldRoundUp: half to even *)
Definition should_round_up (n : nat) (s : text) : bool :=
  match drop n s with
  | [] => false
  | [c] =>
      if Ascii.eqb c "5" then match s !! Nat.pred n with Some d => negb (n =? 0)%nat && N.odd (digit_number d) | None => false end
      else (5 <=? digit_number c)%N
  | c :: _ => (5 <=? digit_number c)%N
  end.
(** decimal.go, roundUp: the digits from the last one on; None: they are all 9. *)
Fixpoint bump (s : text) : option text :=
  match s with
  | [] => None
  | c :: s => if Ascii.eqb c "9" then bump s else Some (digit (digit_number c + 1) :: s)
  end.
(** decimal.go, round *)
Definition round_decimal (n : nat) (d : decimal) : decimal :=
  if (List.length (digits d) <=? n)%nat then d
  else if should_round_up n (digits d) then
    match bump (rev (take n (digits d))) with
    | Some s => Decimal (rev s) (point d)
    | None => Decimal (chars "1") (point d + 1)
    end
  else Decimal (trim (take n (digits d))) (point d).
(** ftoa.go, fmtE; [prec] is not more than the number of digits after the first. *)
Definition fmt_e (prec : Z) (d : decimal) : text :=
  let s := digits d in
  let x := match s with [] => 0 | _ => point d - 1 end in
  match s with [] => chars "0" | c :: _ => [c] end ++
  (if 0 <? prec then "."%char :: take (Z.to_nat prec) (drop 1 s) ++ replicate (Z.to_nat prec - List.length (drop 1 s)) "0"%char else []) ++
  "e"%char :: (if x <? 0 then "-"%char else "+"%char) ::
  (if Z.abs x <? 10 then chars "0" else []) ++ (if x =? 0 then chars "0" else utoa (Z.abs_N x)).
(** decimal.go, at *)
Definition digit_at (d : decimal) (i : Z) : ascii := if i <? 0 then "0"%char else default "0"%char (digits d !! Z.to_nat i).
(** ftoa.go, fmtF *)
Definition fmt_f (prec : Z) (d : decimal) : text :=
  (if 0 <? point d then take (Z.to_nat (point d)) (digits d) ++ replicate (Z.to_nat (point d) - List.length (digits d)) "0"%char else chars "0") ++
  (if 0 <? prec then "."%char :: map (λ i, digit_at d (point d + Z.of_nat i)) (seq 0 (Z.to_nat prec)) else []).
(** ftoa.go, Append, format 'g' *)
Definition fmt_g (prec : Z) (d : decimal) : text :=
  let n := Z.of_nat (List.length (digits d)) in
  let eprec := if (n <? prec) && (point d <=? n) then n else prec in
  let x := point d - 1 in
  if (x <? -4) || (eprec <=? x) then fmt_e (Z.min prec n - 1) d
  else fmt_f (Z.max ((if point d <? prec then n else prec) - point d) 0) d.
Definition float_text (x : float) : text :=
  match x with
  | FInf => chars "Inf"
  | FZero => fmt_g 10 (Decimal [] 0)
  | FFin m e => fmt_g 10 (round_decimal 10 (decimal_of m e))
  end.
(** ftoa.go, String and Append: the sign *)
Definition float_string (neg : bool) (x : float) : text :=
  (if neg then chars "-" else match x with FInf => chars "+" | _ => [] end) ++ float_text x.
(** A number is kept in the AST as a literal, with a minus in front if it is negative.  A text that is no
    such literal stands for no number. *)
Definition number_string (s : text) : text :=
  let '(neg, u) := match s with c :: u => if Ascii.eqb c "-" then (true, u) else (false, s) | [] => (false, s) end in
  match number_value u with Some x => float_string neg x | None => s end.
