(** The regular expressions of /repo/src/parsers/markdown.rs:15-23, transcribed. *)
From Verif Require Import Base Unicode Regex.
Open Scope N_scope.

Section Lex.
  Context {U : UnicodeTables}.

  (** `\s*`, `\p{XID_Start}\p{XID_Continue}+` *)
  Definition re_ws : re := Star true (Cls is_ws).
  Definition re_id : re := Seq (Cls xid_start) (Plus true (Cls xid_continue)).

  (** markdown.rs:16  `^(#+)` *)
  Definition HEADING_LINE : re := Seq Bol (Grp 1 (Plus true (Chr HASH))).

  (** markdown.rs:17-18  `^(#+)\s*(\p{XID_Start}\p{XID_Continue}+):\s*(.+?)\s*$` *)
  Definition REQUIREMENT_LINE : re :=
    Seq Bol (Seq (Grp 1 (Plus true (Chr HASH))) (Seq re_ws (Seq (Grp 2 re_id) (Seq (Chr COLON)
      (Seq re_ws (Seq (Grp 3 (Plus false (Cls dot))) (Seq re_ws Eol))))))).

  (** markdown.rs:19  `^([A-Z][a-z]+):\s*( .* )\s*$` (without the blanks) *)
  Definition ATTRIBUTE_LINE : re :=
    Seq Bol (Seq (Grp 1 (Seq (Cls is_upper_ascii) (Plus true (Cls is_lower_ascii))))
      (Seq (Chr COLON) (Seq re_ws (Seq (Grp 2 (Star true (Cls dot))) (Seq re_ws Eol))))).

  (** markdown.rs:20-21  `^*\s+(\p{XID_Start}\p{XID_Continue}+)(?::\s*(.+?))?\s*$`;
      the first two characters repeat `^`, so the expression is not anchored. *)
  Definition REF_LINK_LINE : re :=
    Seq (Star true Bol) (Seq (Plus true (Cls is_ws)) (Seq (Grp 1 re_id)
      (Seq (Opt (Seq (Chr COLON) (Seq re_ws (Grp 2 (Plus false (Cls dot)))))) (Seq re_ws Eol)))).
End Lex.

(** Rust's test cases of markdown.rs (mod tests, requirement_regex etc.) as examples. *)
Example md_lex_1 :
  captures REQUIREMENT_LINE (L "## REQ_VCS: Allow Version Control" ++ [NL]) =
  Some [(3%nat, L "Allow Version Control"); (2%nat, L "REQ_VCS"); (1%nat, L "##")].
Proof. vm_compute. reflexivity. Qed.
Example md_lex_2 :
  captures ATTRIBUTE_LINE (L "Comment:  A text " ++ [NL]) =
  Some [(2%nat, L "A text "); (1%nat, L "Comment")].
Proof. vm_compute. reflexivity. Qed.
Example md_lex_3 :
  captures REF_LINK_LINE (L "*   REQ_A: Some title " ++ [NL]) =
  Some [(2%nat, L "Some title"); (1%nat, L "REQ_A")].
Proof. vm_compute. reflexivity. Qed.
Example md_lex_4 :
  captures REF_LINK_LINE (L "any words REQ_A" ++ [NL]) = Some [(1%nat, L "REQ_A")].
Proof. vm_compute. reflexivity. Qed.
