(** * The value of a number: value.go:171-174

    [big.NewFloat(0)] has a precision of 53 bits, and [Parse] keeps it.  What [Parse] does
    after reading the digits and the exponent (EtxUtil.v) is math/big floatconv.go,
    Float.scan and pow5, and float.go, round, setExpAndRound, umul and uquo; from knowledge
    of its source.  Numbers are not negative here. *)
From stdpp Require Import base list option.
From Coq Require Import Ascii.
From Verif Require Import GoBase EtxText EtxUtil.
Local Open Scope Z_scope.

(** A finite value is [m * 2^e], [m] is not 0. *)
Inductive float : Type :=
| FZero
| FFin (m : N) (e : Z)
| FInf.
Definition max_exp : Z := 2 ^ 31 - 1.
Definition min_exp : Z := - 2 ^ 31.
(** float.go, round, mode ToNearestEven: [p] bits of [m], and how many bits were cut off.
    [sticky]: the exact value is a bit more than [m]. *)
Definition cut (p m : N) : N := (N.size m - p)%N.
Definition round_bits (p m : N) (sticky : bool) : N :=
  let k := cut p m in
  if (k =? 0)%N then m else
  let q := (m / 2 ^ k)%N in
  let r := (m mod 2 ^ k)%N in
  let half := (2 ^ (k - 1))%N in
  if (half <? r)%N || (half =? r)%N && (sticky || N.odd q) then (q + 1)%N else q.
(** The exponent of a value written as 0.1... * 2^x *)
Definition exp_of (m : N) (e : Z) : Z := Z.of_N (N.size m) + e.
(** float.go, setExpAndRound *)
Definition make (p m : N) (e : Z) (sticky : bool) : float :=
  if exp_of m e <? min_exp then FZero
  else if max_exp <? exp_of m e then FInf
  else
    let q := round_bits p m sticky in
    let e' := e + Z.of_N (cut p m) in
    if max_exp <? exp_of q e' then FInf else FFin q e'.
(** float.go, Mul.  The product of zero and infinity is a panic; it does not come up. *)
Definition mul (p : N) (x y : float) : float :=
  match x, y with
  | FFin m e, FFin m' e' => make p (m * m') (e + e') false
  | FInf, _ | _, FInf => FInf
  | FZero, _ | _, FZero => FZero
  end.
(** float.go, Quo and uquo: the quotient has more than [p] bits, the remainder is sticky. *)
Definition quo (p : N) (x y : float) : float :=
  match x, y with
  | FFin m e, FFin m' e' =>
      let s := (N.size m' + p + 1)%N in
      let d := (m * 2 ^ s)%N in
      make p (d / m') (e - e' - Z.of_N s) (negb (d mod m' =? 0)%N)
  | FInf, _ | _, FZero => FInf
  | FZero, _ | _, FInf => FZero
  end.
(** floatconv.go, pow5.  [f] has 64 bits more than the result. *)
Fixpoint pow5_loop (p : N) (z f : float) (n : positive) : float :=
  match n with
  | xH => mul p z f
  | xO n => pow5_loop p z (mul (p + 64) f f) n
  | xI n => pow5_loop p (mul p z f) (mul (p + 64) f f) n
  end.
Definition pow5 (p n : N) : float :=
  match (n - 27)%N with
  | N0 => FFin (5 ^ n) 0
  | Npos k => pow5_loop p (FFin (5 ^ 27) 0) (FFin 5 0) k
  end.
(** floatconv.go, Float.scan, from the special case of 0 on *)
Definition decimal_exponent (n : number) : Z :=
  (if (base n =? 10)%N then - Z.of_nat (fraction n) else 0) + (if (exponent_base n =? 10)%N then exponent n else 0).
Definition float_of (n : number) : float :=
  if (mantissa n =? 0)%N then FZero else
  let m := mantissa n in
  let e := binary_exponent n - Z.of_N (N.size m) in
  match decimal_exponent n with
  | Z0 => make 53 m e false
  | Zpos k => mul 53 (FFin m e) (pow5 117 (Npos k))
  | Zneg k => quo 53 (FFin m e) (pow5 117 (Npos k))
  end.
(** The Value of a number token; None: the token is refused. *)
Definition number_value (s : text) : option float := float_of ∘ snd <$> capture_number s.
