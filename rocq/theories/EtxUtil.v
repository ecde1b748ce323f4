(** * Indentation and the Capture methods of pkg/etx *)
From stdpp Require Import base list option strings.
From Coq Require Import Ascii NArith ZArith.
From Verif Require Import GoBase EtxText EtxLex.

(** ** utils.go:46-63, indent and indentBytes *)
Fixpoint indent_from (bol : bool) (prefix s : text) : text :=
  match s with
  | [] => []
  | c :: s =>
      (if bol && negb (Ascii.eqb c lf) then prefix else []) ++ c :: indent_from (Ascii.eqb c lf) prefix s
  end.
Definition indent (s prefix : text) : text := indent_from true prefix s.

(** ** value.go:125-129, 145-147, ValueBool *)
Definition capture_bool (v : text) : bool := bool_decide (v = chars "true").
Definition format_bool (b : bool) : text := chars (if b then "true" else "false").

(** ** value.go:259-272, HeredocDelimiter.Capture

    The pattern ^<<([-]?)(\w+)\n$ of value.go:17 by hand: [\w] does not contain the dash,
    so there is only one way to match.  None: no match, which panics. *)
Fixpoint word_prefix (s : text) : text * text :=
  match s with
  | c :: s' => if is_word c then let '(u, r) := word_prefix s' in (c :: u, r) else ([], s)
  | [] => ([], [])
  end.
Definition capture_delimiter (v : text) : option (bool * text) :=
  match v with
  | c1 :: c2 :: s =>
      if Ascii.eqb c1 "<" && Ascii.eqb c2 "<" then
        let '(dash, s) :=
          match s with
          | c :: s' => if Ascii.eqb c "-" then (true, s') else (false, s)
          | [] => (false, s)
          end in
        let '(u, r) := word_prefix s in
        if bool_decide (u ≠ []) && bool_decide (r = [lf]) then Some (dash, u) else None
      else None
  | _ => None
  end.
(** value.go:281-291, HeredocDelimiter.FormattedString; None: it panics. *)
Definition format_delimiter (d : bool * text) : option text :=
  let '(tabs, u) := d in
  if bool_decide (u = []) then None else Some (if tabs then chars "-" ++ u else u).

(** ** value.go:162-178, ValueNumber.Capture *)
(** value.go:164-169, with the pattern ^0([\d_]+)$ of value.go:16 *)
Definition normalise (s : text) : text :=
  match s with
  | c :: ds =>
      if Ascii.eqb c "0" && bool_decide (ds ≠ []) && forallb (digit_or "_") ds
      then chars "0o" ++ ds else s
  | [] => s
  end.

(** A number before it is rounded to 53 bits: mantissa * base^-fraction * exponent base^exponent. *)
Record number : Type := Number {
  mantissa : N; base : N; fraction : nat; exponent_base : N; exponent : Z }.

(** big.Float.Parse(s, 0) of the Go standard library (math/big floatconv.go and
    natconv.go).  A number token starts with no sign and is not "Inf"; both are left out.
    None: an error. *)
Inductive previous : Type := PDigit | PSeparator | PElse.
Record scan_state : Type := Scan {
  smant : N; scount : nat; spoint : option nat; sprev : previous; sbad : bool }.
(** natconv.go, the digit values of scan *)
Definition digit_value (c : ascii) : N :=
  if is_digit c then N.of_nat (code c) - 48
  else if between 97 122 c then N.of_nat (code c) - 87
  else if between 65 90 c then N.of_nat (code c) - 55
  else 63.
Definition is_sep (p : previous) : bool := match p with PSeparator => true | _ => false end.
Definition is_dig (p : previous) : bool := match p with PDigit => true | _ => false end.
(** natconv.go, nat.scan, the loop *)
Fixpoint scan_mantissa (b : N) (x : scan_state) (s : text) : scan_state * text :=
  match s with
  | [] => (x, [])
  | c :: s' =>
      if Ascii.eqb c "." && bool_decide (spoint x = None) then
        scan_mantissa b
          (Scan (smant x) (scount x) (Some (scount x)) PElse (sbad x || is_sep (sprev x))) s'
      else if Ascii.eqb c "_" then
        scan_mantissa b
          (Scan (smant x) (scount x) (spoint x) PSeparator (sbad x || negb (is_dig (sprev x)))) s'
      else if (b <=? digit_value c)%N then (x, s)
      else
        scan_mantissa b
          (Scan (smant x * b + digit_value c) (S (scount x)) (spoint x) PDigit (sbad x)) s'
  end.
(** natconv.go, nat.scan, the prefix of the base *)
Definition scan_prefix (s : text) : N * scan_state * text :=
  let other := (10%N, Scan 0 0 None PElse false, s) in
  let zero s' := (10%N, Scan 0 1 None PDigit false, s') in
  let prefix b s' := (b, Scan 0 0 None PDigit false, s') in
  match s with
  | c :: s1 =>
      if Ascii.eqb c "0" then
        match s1 with
        | d :: s2 =>
            if one_of_chars "bB" d then prefix 2%N s2
            else if one_of_chars "oO" d then prefix 8%N s2
            else if one_of_chars "xX" d then prefix 16%N s2
            else zero s1
        | [] => zero s1
        end
      else other
  | [] => other
  end.
(** ratconv.go, scanExponent: the digits *)
Fixpoint scan_digits (x : scan_state) (s : text) : scan_state * text :=
  match s with
  | [] => (x, [])
  | c :: s' =>
      if is_digit c then
        scan_digits (Scan (smant x * 10 + digit_value c) (S (scount x)) None PDigit (sbad x)) s'
      else if Ascii.eqb c "_" then
        scan_digits (Scan (smant x) (scount x) None PSeparator (sbad x || negb (is_dig (sprev x)))) s'
      else (x, s)
  end.
(** ratconv.go, scanExponent: the base, the exponent and the rest *)
Definition scan_exponent (s : text) : option (N * Z * text) :=
  match s with
  | c :: s1 =>
      if one_of_chars "eEpP" c then
        let b := if one_of_chars "eE" c then 10%N else 2%N in
        let '(neg, s2) :=
          match s1 with
          | d :: s2 => if one_of_chars "+-" d then (Ascii.eqb d "-", s2) else (false, s1)
          | [] => (false, s1)
          end in
        let '(x, r) := scan_digits (Scan 0 0 None PElse false) s2 in
        let e := if neg then (- Z.of_N (smant x))%Z else Z.of_N (smant x) in
        if bool_decide (scount x = 0) || negb ((-2 ^ 63 <=? e)%Z && (e <? 2 ^ 63)%Z) ||
           sbad x || is_sep (sprev x)
        then None else Some (b, e, r)
      else Some (10%N, 0%Z, s)
  | [] => Some (10%N, 0%Z, s)
  end.
(** floatconv.go, Float.scan: the exponent of two of the result, 0.1... * 2^e *)
Definition binary_exponent (n : number) : Z :=
  let f := Z.of_nat (fraction n) in
  (Z.of_N (N.size (mantissa n)) -
   (if (base n =? 10)%N || (base n =? 2)%N then f else if (base n =? 8)%N then 3 * f else 4 * f) +
   exponent n)%Z.
Definition exponent_ok (n : number) : bool :=
  (mantissa n =? 0)%N ||
  ((-2 ^ 31 <=? binary_exponent n)%Z && (binary_exponent n <? 2 ^ 31)%Z).
Definition parse_number (s : text) : option number :=
  let '(b, x, s1) := scan_prefix s in
  let '(x, s2) := scan_mantissa b x s1 in
  if bool_decide (scount x = 0) || sbad x || is_sep (sprev x) then None else
  match scan_exponent s2 with
  | Some (eb, e, []) =>
      let n := Number (smant x) b (match spoint x with Some d => scount x - d | None => 0 end) eb e in
      if exponent_ok n then Some n else None
  | _ => None
  end.
(** The Source and the Value. *)
Definition capture_number (s : text) : option (text * number) :=
  (λ n, (normalise s, n)) <$> parse_number (normalise s).
