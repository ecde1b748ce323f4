(** * The Value of numbers *)
From stdpp Require Import base list option.
From Coq Require Import Ascii String NArith ZArith QArith Qabs Lia.
From Verif Require Import GoBase EtxText EtxLex EtxLexSpec EtxUtil EtxUtilSpec EtxFloat EtxFloatSpec EtxFloatProofs EtxFloatMain.
Local Open Scope string_scope.
Local Open Scope list_scope.
Local Open Scope Q_scope.

(** There is only one such number. *)
Theorem C81_one_nearest p x v v' :
  (1 <= p)%N → nearest p x v → nearest p x v' → v == v'.
Proof. exact (nearest_unique p x v v'). Qed.
(** 2^53 + 1 lies halfway between 2^53 and 2^53 + 2; the last bit of 2^53 is 0. *)
Example C81_halfway : nearest 53 (dyadic 9007199254740993 0) (dyadic 4503599627370496 1) ∧ ¬ nearest 53 (dyadic 9007199254740993 0) (dyadic 4503599627370497 1).
Proof.
  assert (nearest 53 (dyadic 9007199254740993 0) (dyadic 4503599627370496 1)) as H.
  { destruct (float_nearest (chars "9007199254740993") (Number 9007199254740993 10 0 10 0)) as (v & Hv & Hn); [|done|done|].
    - destruct (single (chars "9007199254740993") (Number 9007199254740993 10 0 10 0)) as (_ & _ & _ & _ & _ & _ & H & _); [vm_compute; reflexivity..|]. exact H.
    - vm_compute in Hv. injection Hv as <-. exact Hn. }
  split; [done|]. intros H'. assert (dyadic 4503599627370496 1 == dyadic 4503599627370497 1) as E by (by eapply nearest_unique; [|exact H|exact H']).
  vm_compute in E. done.
Qed.
Print Assumptions C81_one_nearest.

(** A number token whose last digit stands for 10^-50 to 10^50 is accepted, and its Value is the
    nearest number of 53 bits. *)
Theorem C81_nearest file s l t n :
  lex file s = Ok l → t ∈ tokens_of l → kind_of_token t = TNumber → literal (value t) n →
  (Z.abs (exponent n - Z.of_nat (fraction n)) <= 50)%Z → (N.of_nat (List.length (value t)) < 2 ^ 28)%N →
  ∃ x v, number_value (value t) = Some x ∧ finite_value x = Some v ∧ nearest 53 (denoted n) v.
Proof. exact (p81 file s l t n). Qed.
(** These are the doubles. *)
Example C81_doubles :
  map number_value [chars "0.1"; chars "1e22"; chars "1e23"; chars "0x1_0000_0000_0000_01"; chars "0755"; chars "0.0e9"] =
  map Some [FFin 7205759403792794 (-56); FFin 2384185791015625 22; FFin 5960464477539062 24; FFin 4503599627370496 4; FFin 493 0; FZero].
Proof. vm_compute. reflexivity. Qed.
Example C81_literal : literal (chars "0.1") (Number 1 10 1 10 0) ∧ ∃ t, lex "f" (chars "0.1") = Ok (Lexed [t] [(SRoot, [])]) ∧ kind_of_token t = TNumber ∧ value t = chars "0.1".
Proof.
  destruct (single (chars "0.1") (Number 1 10 1 10 0)) as (l & t & H1 & H2 & H3 & E & H4 & H5); [vm_compute; reflexivity..|].
  split; [done|]. eexists. split; [vm_compute; reflexivity|done].
Qed.
Print Assumptions C81_nearest.

(** With larger exponents it is off by at most one part in 2^52. *)
Theorem C81_close file s l t n :
  lex file s = Ok l → t ∈ tokens_of l → kind_of_token t = TNumber → literal (value t) n →
  (Z.abs (exponent n - Z.of_nat (fraction n)) < 2 ^ 28)%Z → (N.of_nat (List.length (value t)) < 2 ^ 27)%N →
  ∃ x v, number_value (value t) = Some x ∧ finite_value x = Some v ∧ off_by (2 ^ (-52)) (denoted n) v.
Proof. exact (p81_close file s l t n). Qed.
Example C81_large :
  number_value (chars "1e300") = Some (FFin 6724873095247260 944) ∧ number_value (chars "1e-300") = Some (FFin 6032057205060441 (-1049)) ∧
  number_value (chars "1e51") = Some (FFin 6018531076210112 117).
Proof. vm_compute. done. Qed.
Print Assumptions C81_close.

(** Two ways of writing a number have one Value. *)
Theorem C81_same_number file s l t n file' s' l' t' n' :
  lex file s = Ok l → t ∈ tokens_of l → kind_of_token t = TNumber → literal (value t) n →
  lex file' s' = Ok l' → t' ∈ tokens_of l' → kind_of_token t' = TNumber → literal (value t') n' →
  (Z.abs (exponent n - Z.of_nat (fraction n)) <= 50)%Z → (N.of_nat (List.length (value t)) < 2 ^ 28)%N →
  (Z.abs (exponent n' - Z.of_nat (fraction n')) <= 50)%Z → (N.of_nat (List.length (value t')) < 2 ^ 28)%N →
  denoted n == denoted n' →
  ∃ x v x' v', number_value (value t) = Some x ∧ finite_value x = Some v ∧ number_value (value t') = Some x' ∧ finite_value x' = Some v' ∧ v == v'.
Proof. exact (p81_same file s l t n file' s' l' t' n'). Qed.
Example C81_same : map number_value [chars "10"; chars "1e1"; chars "0xA"; chars "10.0"; chars "0b1010"; chars "012"] =
  map Some [FFin 10 0; FFin 5 1; FFin 10 0; FFin 5629499534213120 (-49); FFin 10 0; FFin 10 0].
Proof. vm_compute. reflexivity. Qed.
Print Assumptions C81_same_number.

(** The Value is not always what the literal says: *)
Theorem C80_value_is_the_number_refuted :
  ∃ file s l t n x v, lex file s = Ok l ∧ t ∈ tokens_of l ∧ kind_of_token t = TNumber ∧ literal (value t) n ∧
    number_value (value t) = Some x ∧ finite_value x = Some v ∧ ¬ v == denoted n.
Proof. exact (p80). Qed.
Print Assumptions C80_value_is_the_number_refuted.

(** but it is if 53 bits are enough. *)
Theorem C80_exact_partial file s l t n :
  lex file s = Ok l → t ∈ tokens_of l → kind_of_token t = TNumber → literal (value t) n →
  (Z.abs (exponent n - Z.of_nat (fraction n)) <= 50)%Z → (N.of_nat (List.length (value t)) < 2 ^ 28)%N →
  representable 53 (denoted n) →
  ∃ x v, number_value (value t) = Some x ∧ finite_value x = Some v ∧ v == denoted n.
Proof. exact (p80_exact file s l t n). Qed.
Example C80_exact : representable 53 (denoted (Number 1025 10 2 10 2)) ∧ number_value (chars "10.25e2") = Some (FFin 1025 0).
Proof. split; [|vm_compute; reflexivity]. exists 1025%N, 0%Z. split; [done|]. vm_compute. reflexivity. Qed.
Print Assumptions C80_exact_partial.

(** The bound is sharp: with the exponent 51 there is a literal whose Value is not the nearest
    number of 53 bits. *)
Theorem C81_sharp :
  ∃ file s l t n x v, lex file s = Ok l ∧ t ∈ tokens_of l ∧ kind_of_token t = TNumber ∧ literal (value t) n ∧
    exponent n = 51%Z ∧ fraction n = 0%nat ∧ (List.length (value t) <= 40)%nat ∧
    number_value (value t) = Some x ∧ finite_value x = Some v ∧ ¬ nearest 53 (denoted n) v.
Proof. exact (p81_sharp). Qed.
Print Assumptions C81_sharp.

(** Accepted literals can have an infinite Value *)
Theorem C81_infinite :
  ∃ file s l t n, lex file s = Ok l ∧ t ∈ tokens_of l ∧ kind_of_token t = TNumber ∧ literal (value t) n ∧ number_value (value t) = Some FInf.
Proof. exact (p81_inf). Qed.
Example C81_edge : map number_value [chars "1e646456992"; chars "1e646456993"; chars "1e3000000000"] = [Some (FFin 8180865141643513 2147483591); Some FInf; None].
Proof. vm_compute. done. Qed.
Print Assumptions C81_infinite.

(** or the Value 0 though they are not 0. *)
Theorem C81_zero :
  ∃ file s l t n, lex file s = Ok l ∧ t ∈ tokens_of l ∧ kind_of_token t = TNumber ∧ literal (value t) n ∧
    ¬ denoted n == 0 ∧ number_value (value t) = Some FZero.
Proof. exact (p81_zero). Qed.
Print Assumptions C81_zero.
