(** Specification of the line syntax of Markdown artefacts: plain scanners, independent of the
    regular expressions (MdLexFacts.v proves that the regular expressions compute these). *)
From Verif Require Import Base Unicode.
Open Scope N_scope.

(** A line without its line feed. *)
Definition chomp (w : str) : str :=
  match rev w with
  | c :: r => if c =? NL then rev r else w
  | [] => []
  end.
(** What a reader of lines returns: a line feed occurs at most at the end. *)
Definition proper (w : str) : Prop := ~ In NL (chomp w).

Section Syntax.
  Context {U : UnicodeTables}.

  (** An identifier at the beginning of the text (at least two characters), and the rest. *)
  Definition scan_id (w : str) : option (str * str) :=
    match w with
    | c :: w' =>
        if xid_start c then
          match span xid_continue w' with
          | ([], _) => None
          | (a, b) => Some (c :: a, b)
          end
        else None
    | [] => None
    end.

  (** The title in the text after the colon: trimmed; if there is only white space its last
      character; nothing if the line ends directly. *)
  Definition scan_title (w : str) : option str :=
    match chomp w with
    | [] => None
    | c :: w' => match trim (c :: w') with
                 | [] => Some [last w' c]
                 | t => Some t
                 end
    end.

  (** `## ID: title`: hashes, id, title *)
  Definition scan_requirement (w : str) : option (str * str * str) :=
    match span (N.eqb HASH) w with
    | ([], _) => None
    | (h, w1) =>
        match scan_id (trim_start w1) with
        | Some (id, c :: r) =>
            if c =? COLON then
              match scan_title r with Some t => Some (h, id, t) | None => None end
            else None
        | _ => None
        end
    end.

  (** `Name: value`; the value starts at the first character that is not white space and
      reaches to the end of the line. *)
  Definition scan_attribute (w : str) : option (str * str) :=
    match w with
    | u :: w' =>
        if is_upper_ascii u then
          match span is_lower_ascii w' with
          | ([], _) => None
          | (a, c :: r) => if c =? COLON then Some (u :: a, chomp (trim_start r)) else None
          | (_, []) => None
          end
        else None
    | [] => None
    end.

  (** A reference at the beginning of the text: white space, id, optional colon and title. *)
  Definition scan_ref_here (w : str) : option (str * option str) :=
    match w with
    | c :: w' =>
        if is_ws c then
          match scan_id (trim_start w') with
          | Some (id, r) =>
              match r with
              | c' :: r' =>
                  if c' =? COLON then
                    match scan_title r' with Some t => Some (id, Some t) | None => None end
                  else if forallb is_ws r then Some (id, None) else None
              | [] => Some (id, None)
              end
          | None => None
          end
        else None
    | [] => None
    end.

  (** A reference anywhere: the first position where one starts. *)
  Fixpoint scan_ref (w : str) : option (str * option str) :=
    match scan_ref_here w with
    | Some x => Some x
    | None => match w with [] => None | _ :: w' => scan_ref w' end
    end.
End Syntax.
