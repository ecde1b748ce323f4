(** * Texts: bytes, runes, positions *)
From stdpp Require Import base list option strings.
From Coq Require Import Ascii.
From Verif Require Import GoBase EtxHeap.

(** A Go string is a sequence of bytes. *)
Notation text := (list ascii).
Definition chars (s : string) : text := String.list_ascii_of_string s.
Definition str (s : text) : string := String.string_of_list_ascii s.

Definition code (c : ascii) : nat := nat_of_ascii c.
Definition between (a b : nat) (c : ascii) : bool := (a <=? code c)%nat && (code c <=? b)%nat.
Definition lf : ascii := "010".
Definition cr : ascii := "013".
Definition tab : ascii := "009".

Definition is_digit (c : ascii) : bool := between 48 57 c.
Definition is_alpha (c : ascii) : bool := between 65 90 c || between 97 122 c.
(** \w *)
Definition is_word (c : ascii) : bool := is_digit c || is_alpha c || Ascii.eqb c "_".
Definition is_hex (c : ascii) : bool := is_digit c || between 65 70 c || between 97 102 c.
Definition is_ascii_byte (c : ascii) : bool := (code c <? 128)%nat.

(** ** Runes: utf8.DecodeRune of the Go standard library

    The number of bytes of the first rune of a text; a byte that starts no valid rune
    counts as a rune of its own. *)
Definition cont (c : ascii) : bool := between 128 191 c.
Definition rune_width (s : text) : nat :=
  match s with
  | [] => 0
  | b0 :: s =>
      if is_ascii_byte b0 then 1 else
      match s with
      | [] => 1
      | b1 :: s =>
          if between 194 223 b0 && cont b1 then 2 else
          match s with
          | [] => 1
          | b2 :: s =>
              if ((between 224 224 b0 && between 160 191 b1) || (between 225 236 b0 && cont b1) ||
                  (between 237 237 b0 && between 128 159 b1) || (between 238 239 b0 && cont b1)) &&
                 cont b2 then 3 else
              match s with
              | [] => 1
              | b3 :: _ =>
                  if ((between 240 240 b0 && between 144 191 b1) || (between 241 243 b0 && cont b1) ||
                      (between 244 244 b0 && between 128 143 b1)) && cont b2 && cont b3 then 4 else 1
              end
          end
      end
  end.
(** utf8.RuneCountInString *)
Fixpoint rune_count_fuel (n : nat) (s : text) : nat :=
  match n, s with
  | S n, _ :: _ => S (rune_count_fuel n (drop (rune_width s) s))
  | _, _ => 0
  end.
Definition rune_count (s : text) : nat := rune_count_fuel (length s) s.

(** ** Positions: lexer.Position.Advance of participle *)
Definition newlines (s : text) : nat := length (filter (λ c, c = lf) s).
(** The text from the last newline on. *)
Fixpoint from_last_lf (s : text) : text :=
  match s with
  | [] => []
  | c :: s' => if decide (newlines s' = 0) then (if decide (c = lf) then s else s') else from_last_lf s'
  end.
Definition advance (p : pos) (span : text) : pos :=
  Pos (filename p) (offset p + length span) (line p + newlines span)
    (if decide (newlines span = 0) then column p + rune_count span else rune_count (from_last_lf span)).

(** ** The position after a text, for the statements *)
(** The text after the last newline. *)
Fixpoint after_last_lf (s : text) : text :=
  match s with
  | [] => []
  | c :: s' => if decide (lf ∈ c :: s') then (if decide (lf ∈ s') then after_last_lf s' else s') else s
  end.
Definition pos_at (file : string) (pre : text) : pos :=
  Pos file (length pre) (1 + newlines pre) (1 + rune_count (after_last_lf pre)).

