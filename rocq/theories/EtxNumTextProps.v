(** * The text of numbers without a source

    [short p v] (EtxNumTextSpec.v): [v] has at most [p] decimal digits.  [rounded p x v]: [v] is the
    nearest of them to [x]; of two, the one whose last digit is even. *)
From Coq Require Import Ascii String NArith ZArith QArith Qabs.
From stdpp Require Import base list option.
From Verif Require Import GoBase EtxAst EtxHeap EtxHeapSpec EtxText EtxLex EtxLexSpec EtxUtil EtxUtilSpec EtxFloat EtxFloatSpec EtxFloatProofs EtxFloatMain.
From Verif Require Import EtxFormat EtxNumText EtxNumTextSpec EtxNumTextProofs EtxNumTextMain EtxNumTextTop.
Local Open Scope string_scope.
Local Open Scope list_scope.
Local Open Scope Q_scope.

(** A number that a program made of this literal. *)
Definition made_of (s : string) : ast := T no_pos KValueNumber [(FValue, VFloat (Some (tt, s))); (FSource, VStr "")].
Definition written (s : string) : res string := match format (made_of s) with Ok w => Ok (str w) | Panic => Panic | OutOfFuel => OutOfFuel end.

(** There is only one such number. *)
Theorem C87_one_rounded p x v v' :
  (2 <= p)%N → rounded p x v → rounded p x v' → v == v'.
Proof. exact (rounded_unique p x v v'). Qed.
(** 1234567890.5 lies halfway between two numbers of ten digits; the last digit of 1234567890 is even. *)
Example C87_halfway : rounded 10 (scaled 12345678905 (-1)) (scaled 1234567890 0) ∧ ¬ rounded 10 (scaled 12345678905 (-1)) (scaled 1234567891 0).
Proof.
  assert (rounded 10 (scaled 12345678905 (-1)) (scaled 1234567890 0)) as H.
  { apply (rounded_cut 10 1234567890 5 1 (-1) 1234567890); [done|done|done|]. left. split; [done|]. right. done. }
  split; [done|]. intros H'. assert (scaled 1234567890 0 == scaled 1234567891 0) as E by (by eapply rounded_unique; [|exact H|exact H']).
  vm_compute in E. done.
Qed.
Print Assumptions C87_one_rounded.

(** The text of a finite number without a source is a number token, and what the literal denotes is the
    number of ten decimal digits that is nearest to the Value. *)
Theorem C87_rounded file (t : ast) u x v :
  kind_of t = KValueNumber → str_of FSource t = [] → get FValue t = Some (VFloat (Some (tt, str u))) →
  number_value u = Some x → finite_value x = Some v →
  ∃ w n, format t = Ok w ∧ lex file w = Ok (Lexed [Token TNumber w (start_pos file)] [(SRoot, [])]) ∧ literal w n ∧ rounded 10 v (denoted n).
Proof. exact (p87 file t u x v). Qed.
Example C87_texts :
  map written ["0"; "1"; "100"; "0.1"; "1e9"; "12345678901"; "1234567890.5"; "1234567891.5"; "9999999999.5"; "0.0001"; "0.00001"; "3.141592653589793"; "0xFF"; "1e300"; "1e-300"] =
  map Ok ["0"; "1"; "100"; "0.1"; "1000000000"; "1.23456789e+10"; "1234567890"; "1234567892"; "1e+10"; "0.0001"; "1e-05"; "3.141592654"; "255"; "1e+300"; "1e-300"].
Proof. vm_compute. reflexivity. Qed.
Example C87_hypotheses :
  kind_of (made_of "0.1") = KValueNumber ∧ str_of FSource (made_of "0.1") = [] ∧ get FValue (made_of "0.1") = Some (VFloat (Some (tt, str (chars "0.1")))) ∧
  number_value (chars "0.1") = Some (FFin 7205759403792794 (-56)).
Proof. vm_compute. done. Qed.
Print Assumptions C87_rounded.

(** A negative number is written with a minus in front. *)
Theorem C87_negative file (t : ast) u x v :
  kind_of t = KValueNumber → str_of FSource t = [] → get FValue t = Some (VFloat (Some (tt, str ("-"%char :: u)))) →
  number_value u = Some x → finite_value x = Some v →
  ∃ w n, format t = Ok ("-"%char :: w) ∧ lex file w = Ok (Lexed [Token TNumber w (start_pos file)] [(SRoot, [])]) ∧ literal w n ∧ rounded 10 v (denoted n).
Proof. exact (p87_negative file t u x v). Qed.
Example C87_negative_texts : map written ["-5"; "-0.5e-9"; "-98765432109876"] = map Ok ["-5"; "-5e-10"; "-9.876543211e+13"].
Proof. vm_compute. reflexivity. Qed.
Print Assumptions C87_negative.

(** An infinite number is written as no literal: it is read as a plus and a name. *)
Theorem C87_infinite file (t : ast) u :
  kind_of t = KValueNumber → str_of FSource t = [] → get FValue t = Some (VFloat (Some (tt, str u))) →
  number_value u = Some FInf →
  format t = Ok (chars "+Inf") ∧ (∀ n, ¬ literal (chars "+Inf") n) ∧
  ∃ l, lex file (chars "+Inf") = Ok l ∧ map (λ t, (kind_of_token t, str (value t))) (tokens_of l) = [(TOpPlus, "+"); (TIdent, "Inf")].
Proof. exact (p87_infinite file t u). Qed.
Example C87_infinite_value : number_value (chars "1e646456993") = Some FInf.
Proof. vm_compute. reflexivity. Qed.
Print Assumptions C87_infinite.

(** It is off from the Value by at most half a part in 10^9, *)
Theorem C87_error (t : ast) u x v :
  kind_of t = KValueNumber → str_of FSource t = [] → get FValue t = Some (VFloat (Some (tt, str u))) →
  number_value u = Some x → finite_value x = Some v →
  ∃ w n, format t = Ok w ∧ literal w n ∧ off_by ((1 # 2) * 10 ^ (-9)) v (denoted n).
Proof. exact (p87_error t u x v). Qed.
(** Nearly half a part in 10^9: *)
Example C87_error_example : written "1000000000.5" = Ok "1000000000" ∧ written "1000000001.5" = Ok "1000000002".
Proof. vm_compute. done. Qed.
Print Assumptions C87_error.

(** and exact if ten digits are enough. *)
Theorem C87_exact (t : ast) u x v :
  kind_of t = KValueNumber → str_of FSource t = [] → get FValue t = Some (VFloat (Some (tt, str u))) →
  number_value u = Some x → finite_value x = Some v → short 10 v →
  ∃ w n, format t = Ok w ∧ literal w n ∧ denoted n == v.
Proof. exact (p87_exact t u x v). Qed.
(** All integers of ten digits, and fractions like this one: *)
Example C87_exact_example : short 10 (dyadic 9999999999 0) ∧ short 10 (dyadic 12345 (-5)) ∧ written "9999999999" = Ok "9999999999" ∧ written "385.78125" = Ok "385.78125" ∧ number_value (chars "385.78125") = Some (FFin 6786735522447360 (-44)).
Proof.
  split; [by exists 9999999999%N, 0%Z; split|]. split; [|vm_compute; done]. exists 38578125%N, (-5)%Z. split; [done|]. vm_compute. done.
Qed.
Print Assumptions C87_exact.

(** The Value can be another one after formatting and reading: *)
Theorem C88_value_survives_refuted :
  ∃ (t : ast) u x v w x' v', kind_of t = KValueNumber ∧ str_of FSource t = [] ∧ get FValue t = Some (VFloat (Some (tt, str u))) ∧
    number_value u = Some x ∧ finite_value x = Some v ∧
    format t = Ok w ∧ number_value w = Some x' ∧ finite_value x' = Some v' ∧ ¬ v' == v.
Proof. exact (p88_refuted). Qed.
Print Assumptions C88_value_survives_refuted.

(** It is the same if the number was read from a literal of at most ten digits. *)
Theorem C88_ten_digits_partial (t : ast) u n :
  kind_of t = KValueNumber → str_of FSource t = [] → get FValue t = Some (VFloat (Some (tt, str u))) →
  literal u n → (mantissa n < 10 ^ 10)%N → (Z.abs (exponent n - Z.of_nat (fraction n)) <= 40)%Z → (N.of_nat (List.length u) < 2 ^ 27)%N →
  ∃ x v w x' v', number_value u = Some x ∧ finite_value x = Some v ∧
    format t = Ok w ∧ number_value w = Some x' ∧ finite_value x' = Some v' ∧ v' == v.
Proof. exact (p88 t u n). Qed.
(** 0.1 is not a number of 53 bits, but its Value has the text 0.1. *)
Example C88_example : literal (chars "0.1") (Number 1 10 1 10 0) ∧ written "0.1" = Ok "0.1" ∧ written "6.02214076e23" = Ok "6.02214076e+23" ∧
  map number_value [chars "6.02214076e23"; chars "6.02214076e+23"] = map Some [FFin 8973689019680023 26; FFin 8973689019680023 26].
Proof.
  split; [|vm_compute; done]. destruct (single (chars "0.1") (Number 1 10 1 10 0)) as (_ & _ & _ & _ & _ & _ & H & _); [vm_compute; reflexivity..|]. exact H.
Qed.
Print Assumptions C88_ten_digits_partial.
