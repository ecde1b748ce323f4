(** * Vocabulary: descriptions that one token of lookahead settles *)
From stdpp Require Import base list option strings.
From Coq Require Import Ascii.
From Verif Require Import GoBase EtxAst EtxHeap EtxHeapSpec EtxText EtxLex EtxUtil EtxGram EtxParse EtxParseSpec.

(** [erasable g]: [g] describes the empty sequence of tokens. *)
Inductive erasable : gexp → Prop :=
| e_sub f k : erasable (grammar k) → erasable (GSub f k)
| e_cap f g : erasable g → erasable (GCap f g)
| e_nil : erasable (GSeq [])
| e_cons g gs : erasable g → erasable (GSeq gs) → erasable (GSeq (g :: gs))
| e_alt g gs : g ∈ gs → erasable g → erasable (GAlt gs)
| e_opt g : erasable (GOpt g)
| e_many g : erasable (GMany g)
| e_some g : erasable g → erasable (GSome g).
(** [opens g u]: something that [g] describes starts with the token [u]. *)
Inductive opens : gexp → token → Prop :=
| o_lit s u : value u = chars s → opens (GLit s) u
| o_tok k u : kind_of_token u = k → opens (GTok k) u
| o_sub f k u : opens (grammar k) u → opens (GSub f k) u
| o_cap f g u : opens g u → opens (GCap f g) u
| o_head g gs u : opens g u → opens (GSeq (g :: gs)) u
| o_tail g gs u : erasable g → opens (GSeq gs) u → opens (GSeq (g :: gs)) u
| o_alt g gs u : g ∈ gs → opens g u → opens (GAlt gs) u
| o_opt g u : opens g u → opens (GOpt g) u
| o_many g u : opens g u → opens (GMany g) u
| o_some g u : opens g u → opens (GSome g) u.
Definition closed_at (g : gexp) (ts : list token) : Prop := match ts with u :: _ => ¬ opens g u | [] => True end.

(** [settles e g us rest cs l]: [g] describes the tokens [us] in front of the tokens
    [rest], with the captures [cs] and the texts [l], and this is the only way to go on at
    every step: no alternative before the one taken, no option left out and no further
    iteration can start with the next token.  [e] is the position of the end of the text.
    [settled e k us rest t]: so for the struct [k], whose tree is [t]. *)
Inductive settles (e : pos) : gexp → list token → list token → list capture → list text → Prop :=
| s_lit s t rest : value t = chars s → settles e (GLit s) [t] rest [] [value t]
| s_tok k t rest : kind_of_token t = k → settles e (GTok k) [t] rest [] [value t]
| s_sub f k us rest t : settled e k us rest t → settles e (GSub f k) us rest [(f, Struct t)] [[]]
| s_cap f g us rest cs l : settles e g us rest cs l → settles e (GCap f g) us rest (cs ++ [(f, Texts l)]) [[]]
| s_seq gs us rest cs l : settles_all e gs us rest cs l → us ≠ [] → settles e (GSeq gs) us rest cs l
| s_alt gs1 g gs2 us rest cs l :
    (∀ g', g' ∈ gs1 → closed_at g' (us ++ rest)) → settles e g us rest cs l →
    settles e (GAlt (gs1 ++ g :: gs2)) us rest cs l
| s_none g rest : closed_at g rest → settles e (GOpt g) [] rest [] []
| s_opt g us rest cs l : settles e g us rest cs l → settles e (GOpt g) us rest cs l
| s_many g us rest cs l : settles_many e g us rest cs l → settles e (GMany g) us rest cs l
| s_some g us vs rest cs ds l m :
    settles e g us (vs ++ rest) cs l → us ≠ [] → settles_many e g vs rest ds m →
    settles e (GSome g) (us ++ vs) rest (cs ++ ds) (l ++ m)
with settles_all (e : pos) : list gexp → list token → list token → list capture → list text → Prop :=
| sa_nil rest : settles_all e [] [] rest [] []
| sa_cons g gs us vs rest cs ds l m :
    settles e g us (vs ++ rest) cs l → settles_all e gs vs rest ds m →
    settles_all e (g :: gs) (us ++ vs) rest (cs ++ ds) (l ++ m)
with settles_many (e : pos) : gexp → list token → list token → list capture → list text → Prop :=
| sm_nil g rest : closed_at g rest → settles_many e g [] rest [] []
| sm_cons g us vs rest cs ds l m :
    settles e g us (vs ++ rest) cs l → us ≠ [] → settles_many e g vs rest ds m →
    settles_many e g (us ++ vs) rest (cs ++ ds) (l ++ m)
with settled (e : pos) : kind → list token → list token → ast → Prop :=
| s_struct k us rest cs l fs :
    settles e (grammar k) us rest cs l → filled k cs fs →
    settled e k us rest (T (match k with KAST => no_pos | _ => first_pos e (us ++ rest) end) k fs).
Scheme settles_ind2 := Minimality for settles Sort Prop
  with settles_all_ind2 := Minimality for settles_all Sort Prop
  with settles_many_ind2 := Minimality for settles_many Sort Prop
  with settled_ind2 := Minimality for settled Sort Prop.
Combined Scheme settling_ind from settles_ind2, settles_all_ind2, settles_many_ind2, settled_ind2.
