(** * What is claimed about indentation and number literals *)
From stdpp Require Import base list option strings.
From Coq Require Import Ascii NArith ZArith.
From Verif Require Import GoBase EtxText EtxUtil.

(** ** Lines *)
(** The lines of a text: what stands between its newlines. *)
Fixpoint lines (s : text) : list text :=
  match s with
  | [] => [[]]
  | c :: s =>
      if Ascii.eqb c lf then [] :: lines s
      else match lines s with l :: ls => (c :: l) :: ls | [] => [[c]] end
  end.
(** The text with these lines. *)
Fixpoint unlines (ls : list text) : text :=
  match ls with
  | [] => []
  | [l] => l
  | l :: ls => l ++ lf :: unlines ls
  end.

(** ** Number literals *)
(** Digits with single underscores between them. *)
Inductive groups (P : ascii → bool) : text → Prop :=
| groups_one c : P c = true → groups P [c]
| groups_digit c s : P c = true → groups P s → groups P (c :: s)
| groups_underscore c s : P c = true → groups P s → groups P (c :: "_"%char :: s).
(** The same after a prefix like 0x, where an underscore may come first. *)
Definition after_prefix (P : ascii → bool) (s : text) : Prop :=
  groups P s ∨ ∃ s', s = "_"%char :: s' ∧ groups P s'.
Definition is_octal (c : ascii) : bool := between 48 55 c.
Definition is_binary (c : ascii) : bool := between 48 49 c.

Definition digit_of (c : ascii) : N :=
  match list_find (λ d, d = c) (chars "0123456789abcdef"), list_find (λ d, d = c) (chars "0123456789ABCDEF") with
  | Some (i, _), _ | _, Some (i, _) => N.of_nat i
  | _, _ => 0
  end.
(** The number written by the digits of a text to the base [b], underscores left out. *)
Definition numeral (b : N) (s : text) : N :=
  foldl (λ v c, (v * b + digit_of c)%N) 0%N (filter (λ c, c ≠ "_"%char) s).
Definition count_digits (s : text) : nat := length (filter (λ c, c ≠ "_"%char) s).

(** The exponent part of a decimal literal and its value. *)
Inductive exponent_part : text → Z → Prop :=
| no_exponent : exponent_part [] 0
| exponent_plain e ds : e ∈ chars "eE" → groups is_digit ds → exponent_part (e :: ds) (Z.of_N (numeral 10 ds))
| exponent_plus e ds :
    e ∈ chars "eE" → groups is_digit ds → exponent_part (e :: "+"%char :: ds) (Z.of_N (numeral 10 ds))
| exponent_minus e ds :
    e ∈ chars "eE" → groups is_digit ds → exponent_part (e :: "-"%char :: ds) (- Z.of_N (numeral 10 ds))%Z.

(** The number literals and the numbers they denote. *)
Inductive literal : text → number → Prop :=
| literal_hex x ds :
    x ∈ chars "xX" → after_prefix is_hex ds → literal ("0"%char :: x :: ds) (Number (numeral 16 ds) 16 0 10 0)
| literal_binary x ds :
    x ∈ chars "bB" → after_prefix is_binary ds → literal ("0"%char :: x :: ds) (Number (numeral 2 ds) 2 0 10 0)
| literal_octal x ds :
    x ∈ chars "oO" → after_prefix is_octal ds → literal ("0"%char :: x :: ds) (Number (numeral 8 ds) 8 0 10 0)
(* a leading 0 means octal *)
| literal_zero ds :
    after_prefix is_octal ds → literal ("0"%char :: ds) (Number (numeral 8 ds) 8 0 10 0)
| literal_whole ds e x :
    groups is_digit ds → exponent_part e x → (head ds = Some "0"%char → ds = chars "0" ∨ e ≠ []) →
    literal (ds ++ e) (Number (numeral 10 ds) 10 0 10 x)
| literal_fraction ds fs e x :
    ds = [] ∨ groups is_digit ds → groups is_digit fs → exponent_part e x →
    literal (ds ++ "."%char :: fs ++ e) (Number (numeral 10 (ds ++ fs)) 10 (count_digits fs) 10 x).
(** The range of big.Float and of the exponent. *)
Definition in_range (n : number) : Prop :=
  (- 2 ^ 63 ≤ exponent n < 2 ^ 63)%Z ∧
  (mantissa n = 0%N ∨
   (- 2 ^ 31 ≤ Z.of_N (N.size (mantissa n)) - Z.of_nat (fraction n) + exponent n < 2 ^ 31)%Z).
