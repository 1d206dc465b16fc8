(** The order of texts: that of their bytes in UTF-8, as [Ord for str] compares them. *)
From Verif Require Import Base Models Utf8Spec.
Open Scope N_scope.

(** The first different byte decides; if there is none, the shorter sequence comes first. *)
Inductive bytes_before : list N -> list N -> Prop :=
| before_end b rest : bytes_before [] (b :: rest)
| before_byte a b rest rest' : a < b -> bytes_before (a :: rest) (b :: rest')
| before_same a rest rest' : bytes_before rest rest' -> bytes_before (a :: rest) (a :: rest').

(** Among the things with these texts no later one has a text before that of an earlier one, ... *)
Definition in_byte_order {A} (text : A -> str) (l : list A) : Prop :=
  forall l1 x l2 y l3 bx by', l = l1 ++ x :: l2 ++ y :: l3 ->
    utf8 bx (text x) -> utf8 by' (text y) -> ~ bytes_before by' bx.
(** ... or every earlier one comes before every later one. *)
Definition in_strict_byte_order (l : list str) : Prop :=
  forall l1 x l2 y l3 bx by', l = l1 ++ x :: l2 ++ y :: l3 ->
    utf8 bx x -> utf8 by' y -> bytes_before bx by'.

(** Pairs of texts by the first, then by the second one; lists of texts by the first different text; relations by the
    upper artefact, then by the list of the lower ones. *)
Definition text_before (x y : str) : Prop := forall bx by', utf8 bx x -> utf8 by' y -> bytes_before bx by'.
Definition pair_before (x y : str * str) : Prop :=
  text_before (fst x) (fst y) \/ fst x = fst y /\ text_before (snd x) (snd y).
Inductive texts_before : list str -> list str -> Prop :=
| texts_end t rest : texts_before [] (t :: rest)
| texts_text s t rest rest' : text_before s t -> texts_before (s :: rest) (t :: rest')
| texts_same t rest rest' : texts_before rest rest' -> texts_before (t :: rest) (t :: rest').
Definition relation_before (x y : relation) : Prop :=
  text_before (rel_upper x) (rel_upper y) \/ rel_upper x = rel_upper y /\ texts_before (rel_lower x) (rel_lower y).
Definition ordered {A} (before : A -> A -> Prop) (l : list A) : Prop :=
  forall l1 x l2 y l3, l = l1 ++ x :: l2 ++ y :: l3 -> before x y.
