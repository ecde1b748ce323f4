(** * The properties of operators

    [reads m r] (EtxPrecSpec.v): the node [m] of a binary expression means [r].  [spells r
    us]: [r] has the operators and operands of the tokens [us].  [follows_precedence r]:
    nowhere in [r] is there an operator below one that binds tighter, by the table of
    README.md, [strength]. *)
From stdpp Require Import base list option strings.
From Coq Require Import Ascii.
From Verif Require Import GoBase EtxAst EtxHeap EtxHeapSpec EtxText EtxLex EtxLexExample EtxUtil EtxGram EtxParse
  EtxParseSpec EtxPrecSpec EtxPrecPropProofs EtxPrecExample.

(** In every parsed file, each node of the ten levels of binary expressions has a meaning,
    only one, it is written with the operators and operands of a stretch of the tokens, in
    the same order, and no operator in it binds less tight than one above it. *)
Theorem C43_parsed_operators_follow_the_table s t m :
  parse s = Ok (Some t) → m ∈ nodes t → kind_of m ∈ binary_levels →
  ∃ ts st pre us post r, lex "" s = Ok (Lexed ts st) ∧
    filter (λ u, kind_of_token u ≠ TWhitespace) ts = pre ++ us ++ post ∧
    spells r us ∧ follows_precedence r ∧ ∀ r', reads m r' ↔ r' = r.
Proof. exact (p43_nodes s t m). Qed.
(** Names and numbers in order, binary operators with their operands in parentheses; the
    signs and the parentheses of the source are not shown. *)
Example C43_example :
  map (λ s, file_reading (chars s))
    ["x = a + b * c == d"; "x = a * b + c"; "x = -a << 2 && b.p || e"; "x = a | b ^ c & d == e < f >> g - h % i"] =
    [Some "((a+(b*c))==d)"; Some "((a*b)+c)"; Some "(((a<<2)&&b,p)||e)"; Some "(a|(b^(c&(d==(e<(f>>(g-(h%i))))))))"].
Proof. vm_compute. reflexivity. Qed.
Print Assumptions C43_parsed_operators_follow_the_table.

(** Every expression written with operators and operands is parsed, whatever its length,
    and gets a meaning with these operators and operands that follows the table. *)
Theorem C43_written_expressions_follow_the_table s ts st x eq e :
  lex "" s = Ok (Lexed ts st) → filter (λ u, kind_of_token u ≠ TWhitespace) ts = x :: eq :: tokens_of_written e →
  kind_of_token x = TIdent → value x ∉ map chars ["input"; "output"; "const"; "val"; "def"; "type"] →
  kind_of_token eq = TOpAssign → value eq = chars "=" → correct e →
  ∃ t r, parse s = Ok (Some t) ∧ attribute_reading t r ∧ reading_of e r ∧ follows_precedence r.
Proof. exact (p43_written s ts st x eq e). Qed.
Example C43_written_example :
  match filter (λ u, kind_of_token u ≠ TWhitespace) (toks (chars "x = a + -b * (c - 1)")) with
  | [x; eq; a; plus; sign; b; times; l; c; minus; one; r] =>
      let e := Then (Name a) plus (Then (Signed sign (Name b)) times
                 (Last (Parens l (Then (Name c) minus (Last (Number one))) r))) in
      (kind_of_token x = TIdent ∧ value x ∉ map chars ["input"; "output"; "const"; "val"; "def"; "type"]) ∧
      (kind_of_token eq = TOpAssign ∧ value eq = chars "=") ∧ correct e ∧
      tokens_of_written e = [a; plus; sign; b; times; l; c; minus; one; r]
  | _ => False
  end ∧
  file_reading (chars "x = a + -b * (c - 1)") = Some "(a+(b*c,1))".
Proof.
  split; [|by vm_compute]. set (l := filter _ _). vm_compute in l. subst l. cbn [correct correct_operand]. unfold is_operator, is_sign.
  split_and!; try done; try (apply (bool_decide_unpack _); by vm_compute).
Qed.
Print Assumptions C43_written_expressions_follow_the_table.

(** In every parsed file, the operators of a level are read right to left. *)
Theorem C62_operators_associate_right_to_left s t m r :
  parse s = Ok (Some t) → m ∈ nodes t → kind_of m ∈ binary_levels → reads m r → right_to_left r.
Proof. exact (p62_nodes s t m r). Qed.
Example C62_example :
  map (λ s, file_reading (chars s)) ["x = a - b - c"; "x = a / b * c % d"; "x = a < b > c == d != e"] =
    [Some "(a-(b-c))"; Some "(a/(b*(c%d)))"; Some "((a<(b>c))==(d!=e))"].
Proof. vm_compute. reflexivity. Qed.
Print Assumptions C62_operators_associate_right_to_left.

(** If two operators of one level follow each other, the reading is never the documented one. *)
Theorem C62_no_two_operators_left_to_right s t m r l1 o1 o2 l2 :
  parse s = Ok (Some t) → m ∈ nodes t → kind_of m ∈ binary_levels → reads m r →
  operators_of r = l1 ++ o1 :: o2 :: l2 → strength o1 = strength o2 → ¬ left_to_right r.
Proof. exact (p62_never_left s t m r l1 o1 o2 l2). Qed.
Example C62_levels_example :
  map strength ["-"; "+"; "*"; "%"; "<"; ">="; "=="; "!="] = [9; 9; 10; 10; 7; 7; 6; 6].
Proof. by vm_compute. Qed.
Print Assumptions C62_no_two_operators_left_to_right.

(** The table and this direction leave one reading of a sequence of operands and operators. *)
Theorem C62_table_and_direction_determine_the_reading a b :
  follows_precedence a → right_to_left a → follows_precedence b → right_to_left b →
  operands_of a = operands_of b → operators_of a = operators_of b → a = b.
Proof. exact (p62_unique a b). Qed.
(** Without the direction there are two readings. *)
Example C62_unique_example :
  let a := Operand (node no_pos KExprUnary []) in
  let r := Binary a "-" (Binary a "-" a) in let l := Binary (Binary a "-" a) "-" a in
  (follows_precedence r ∧ right_to_left r ∧ left_to_right l) ∧ operators_of l = operators_of r ∧ operands_of l = operands_of r ∧ l ≠ r.
Proof.
  cbn. split_and!; try done; try (intros o Ho; by apply elem_of_nil in Ho);
    intros o Ho; (repeat (apply elem_of_cons in Ho as [->|Ho]; [apply Nat.leb_le; by vm_compute|]); by apply elem_of_nil in Ho).
Qed.
Print Assumptions C62_table_and_direction_determine_the_reading.

(** x = a - b - c is read as a - (b - c). *)
Theorem C44_operators_do_not_associate_left_to_right_refuted :
  ∃ t r a b c, parse (chars "x = a - b - c") = Ok (Some t) ∧ attribute_reading t r ∧
    r = Binary (Operand a) "-" (Binary (Operand b) "-" (Operand c)) ∧ ¬ left_to_right r.
Proof. exact (p44_refuted). Qed.
Example C44_example : file_reading (chars "x = a - b - c") = Some "(a-(b-c))".
Proof. by vm_compute. Qed.
Print Assumptions C44_operators_do_not_associate_left_to_right_refuted.

(** The true part: where no two operators are of one level, there is nothing to
    associate.  In full: the same without the hypothesis NoDup; that is refuted above. *)
Theorem C44_without_repeated_levels_partial s t m r :
  parse s = Ok (Some t) → m ∈ nodes t → kind_of m ∈ binary_levels → reads m r →
  NoDup (map strength (operators_of r)) → left_to_right r.
Proof. exact (p44_partial s t m r). Qed.
Example C44_distinct_example :
  file_reading (chars "x = a * b - c == d") = Some "(((a*b)-c)==d)" ∧ map strength ["*"; "-"; "=="] = [10; 9; 6].
Proof. by vm_compute. Qed.
Print Assumptions C44_without_repeated_levels_partial.
