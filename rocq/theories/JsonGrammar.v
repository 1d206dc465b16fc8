(** JSON texts and what they mean: the grammar of RFC 8259.  Numbers other than natural numbers
    without fraction and exponent all have the value [JOtherNum]. *)
From Verif Require Import Base Serialize.
Open Scope N_scope.

(** RFC 8259, section 2 *)
Definition blank (c : chr) : Prop := c = 32 \/ c = 9 \/ c = 10 \/ c = 13.
Definition blanks (s : str) : Prop := Forall blank s.

(** Section 6 *)
Definition digit (c : chr) : Prop := 48 <= c <= 57.
Definition digits (s : str) : Prop := s <> [] /\ Forall digit s.
Inductive int : str -> Prop :=
| int_zero : int (L "0")
| int_other c s : 49 <= c <= 57 -> Forall digit s -> int (c :: s).
Inductive frac : str -> Prop :=
| frac_none : frac []
| frac_some s : digits s -> frac (L "." ++ s).
Inductive exp : str -> Prop :=
| exp_none : exp []
| exp_some e sign s : e = L "e" \/ e = L "E" -> sign = [] \/ sign = L "+" \/ sign = L "-" -> digits s ->
    exp (e ++ sign ++ s).
Definition minus (s : str) : Prop := s = [] \/ s = L "-".
(** the value of decimal digits *)
Fixpoint decimal_value (s : str) : N :=
  match s with
  | [] => 0
  | c :: s' => (c - 48) * 10 ^ N.of_nat (length s') + decimal_value s'
  end.

(** Section 7 *)
Inductive hex : chr -> N -> Prop :=
| hex_digit n : n < 10 -> hex (48 + n) n
| hex_lower n : 10 <= n < 16 -> hex (97 + (n - 10)) n
| hex_upper n : 10 <= n < 16 -> hex (65 + (n - 10)) n.
Inductive hexes : str -> N -> Prop :=
| hexes_4 a b c d x y z w : hex a x -> hex b y -> hex c z -> hex d w ->
    hexes [a; b; c; d] (x * 16 ^ 3 + y * 16 ^ 2 + z * 16 + w).
Definition short_escapes : list (string * chr) :=
  [("""", 34); ("\", 92); ("/", 47); ("b", 8); ("f", 12); ("n", 10); ("r", 13); ("t", 9)]%string.
(** characters of a string, as written and as meant *)
Inductive chars : str -> str -> Prop :=
| chars_end : chars [] []
| chars_plain c s t : 32 <= c -> c <> 34 -> c <> 92 -> chars s t -> chars (c :: s) (c :: t)
| chars_short e c s t : In (e, c) short_escapes -> chars s t -> chars (L "\" ++ L e ++ s) (c :: t)
| chars_unicode h n s t : hexes h n -> ~ (55296 <= n < 57344) -> chars s t ->
    chars (L "\u" ++ h ++ s) (n :: t)
| chars_pair g n h m s t : hexes g n -> 55296 <= n < 56320 -> hexes h m -> 56320 <= m < 57344 -> chars s t ->
    chars (L "\u" ++ g ++ L "\u" ++ h ++ s) (65536 + (n - 55296) * 1024 + (m - 56320) :: t).
Definition quoted (s t : str) : Prop := exists u, chars u t /\ s = L """" ++ u ++ L """".

(** Sections 3, 4, 5 *)
Inductive value : str -> json -> Prop :=
| value_null : value (L "null") JNull
| value_true : value (L "true") (JBool true)
| value_false : value (L "false") (JBool false)
| value_natural i : int i -> value i (JNum (decimal_value i))
| value_number m i f e : minus m -> int i -> frac f -> exp e -> (m <> [] \/ f <> [] \/ e <> []) ->
    value (m ++ i ++ f ++ e) JOtherNum
| value_string s t : quoted s t -> value s (JStr t)
| value_empty_array b : blanks b -> value (L "[" ++ b ++ L "]") (JArr [])
| value_array s l : elements s l -> value (L "[" ++ s ++ L "]") (JArr l)
| value_empty_object b : blanks b -> value (L "{" ++ b ++ L "}") (JObj [])
| value_object s l : members s l -> value (L "{" ++ s ++ L "}") (JObj l)
with elements : str -> list json -> Prop :=
| elements_one a s v b : blanks a -> value s v -> blanks b -> elements (a ++ s ++ b) [v]
| elements_more a s v b s' l : blanks a -> value s v -> blanks b -> elements s' l ->
    elements (a ++ s ++ b ++ L "," ++ s') (v :: l)
with members : str -> list (str * json) -> Prop :=
| members_one a k key b c s v d : blanks a -> quoted k key -> blanks b -> blanks c -> value s v -> blanks d ->
    members (a ++ k ++ b ++ L ":" ++ c ++ s ++ d) [(key, v)]
| members_more a k key b c s v d s' l : blanks a -> quoted k key -> blanks b -> blanks c -> value s v -> blanks d ->
    members s' l -> members (a ++ k ++ b ++ L ":" ++ c ++ s ++ d ++ L "," ++ s') ((key, v) :: l).
Scheme value_ind3 := Induction for value Sort Prop
  with elements_ind3 := Induction for elements Sort Prop
  with members_ind3 := Induction for members Sort Prop.
Combined Scheme json_text_ind from value_ind3, elements_ind3, members_ind3.

Definition json_document (s : str) (v : json) : Prop :=
  exists a t b, blanks a /\ value t v /\ blanks b /\ s = a ++ t ++ b.
