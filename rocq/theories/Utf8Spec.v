(** Which bytes are text: the encoding form UTF-8 as in chapter 3.9 of the Unicode standard. *)
From Verif Require Import Base.
Open Scope N_scope.

(** Table 3-7, well-formed byte sequences: the first and last value of each byte. *)
Definition sequences : list (list (N * N)) :=
  [ [(0x00, 0x7F)];
    [(0xC2, 0xDF); (0x80, 0xBF)];
    [(0xE0, 0xE0); (0xA0, 0xBF); (0x80, 0xBF)];
    [(0xE1, 0xEC); (0x80, 0xBF); (0x80, 0xBF)];
    [(0xED, 0xED); (0x80, 0x9F); (0x80, 0xBF)];
    [(0xEE, 0xEF); (0x80, 0xBF); (0x80, 0xBF)];
    [(0xF0, 0xF0); (0x90, 0xBF); (0x80, 0xBF); (0x80, 0xBF)];
    [(0xF1, 0xF3); (0x80, 0xBF); (0x80, 0xBF); (0x80, 0xBF)];
    [(0xF4, 0xF4); (0x80, 0x8F); (0x80, 0xBF); (0x80, 0xBF)] ].
Definition in_range (b : N) (r : N * N) : Prop := fst r <= b <= snd r.
Definition well_formed (bs : list N) : Prop := exists row, In row sequences /\ Forall2 in_range bs row.

(** Table 3-6, distribution of the bits: the last 7, 5, 4 or 3 bits of the first byte, and the last
    six bits of each other one. *)
Definition char_value (bs : list N) : chr :=
  match bs with
  | [a] => a mod 2 ^ 7
  | [a; b] => (a mod 2 ^ 5) * 2 ^ 6 + b mod 2 ^ 6
  | [a; b; c] => (a mod 2 ^ 4) * 2 ^ 12 + (b mod 2 ^ 6) * 2 ^ 6 + c mod 2 ^ 6
  | [a; b; c; d] => (a mod 2 ^ 3) * 2 ^ 18 + (b mod 2 ^ 6) * 2 ^ 12 + (c mod 2 ^ 6) * 2 ^ 6 + d mod 2 ^ 6
  | _ => 0
  end.

(** The bytes are the given text. *)
Inductive utf8 : list N -> str -> Prop :=
| utf8_end : utf8 [] []
| utf8_char bs rest text : well_formed bs -> utf8 rest text -> utf8 (bs ++ rest) (char_value bs :: text).
