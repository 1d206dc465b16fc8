(** Which requirements survive the way through the Markdown export and the Markdown parser, and
    what comes back.  Texts are described by the scanners of MdSyntax.v. *)
From Verif Require Import Base OMap Models Unicode Utf8 MdSyntax MdFmt.
Open Scope N_scope.

Section RoundSpec.
  Context {U : UnicodeTables}.

  (** An identifier: XID_Start XID_Continue+ *)
  Definition good_id (id : str) : Prop :=
    exists c w, id = c :: w /\ xid_start c = true /\ w <> [] /\ forallb xid_continue w = true.
  (** A title: one line, no white space around *)
  Definition good_title (t : str) : Prop := trimmed t /\ ~ In NL t.
  (** The title of a reference: the same and not empty, or one character *)
  Definition good_ref_title (t : str) : Prop := ~ In NL t /\ t <> [] /\ (trimmed t \/ length t = 1%nat).
  Definition good_ref (r : reference) : Prop :=
    good_id (ref_id r) /\ match ref_title r with Some t => good_ref_title t | None => True end.
  (** The name of an attribute: a capital letter and small letters *)
  Definition good_name (k : str) : Prop :=
    exists c w, k = c :: w /\ is_upper_ascii c = true /\ w <> [] /\ forallb is_lower_ascii w = true.
  (** Text in which no line looks like a heading or an attribute *)
  Definition plain_text (s : str) : Prop :=
    forall l, In l (split_lines (s ++ [NL])) -> starts_with_c HASH l = false /\ scan_attribute l = None.
  (** A place that is written in one line *)
  Definition one_line (l : location) : Prop :=
    ~ In NL (loc_file l) /\ match loc_in_file l with Some (LocString s) => ~ In NL s | _ => True end.

  Definition ORIGIN : str := L "Origin".
  Definition good_attribute (e : str * str) : Prop :=
    if eqb (fst e) (L "Description") then plain_text (snd e)
    else good_name (fst e) /\ fst e <> L "Covers" /\ fst e <> L "Depends" /\ fst e <> ORIGIN /\
         plain_text (trim (snd e)).

  Definition exportable (r : requirement) : Prop :=
    good_id (req_id r) /\ (exists t, req_title r = Some t /\ good_title t) /\
    Forall good_ref (req_covers r) /\ Forall good_ref (req_depends r) /\
    one_line (req_location r) /\ osorted (req_attributes r) /\ Forall good_attribute (req_attributes r).

  Definition ref_sig (r : reference) : str * option str := (ref_id r, ref_title r).

  (** What comes back: everything but tags and places; attribute values trimmed, empty ones
      dropped; an additional attribute Origin that has swallowed the description. *)
  Record comes_back (r r' : requirement) : Prop := {
    cb_id : req_id r' = req_id r;
    cb_title : req_title r' = req_title r;
    cb_covers : map ref_sig (req_covers r') = map ref_sig (req_covers r);
    cb_depends : map ref_sig (req_depends r') = map ref_sig (req_depends r);
    cb_tags : req_tags r' = [];
    cb_attributes : forall k, k <> ORIGIN ->
      option_map trim (oget k (req_attributes r')) =
      if eqb k (L "Description") then None
      else match oget k (req_attributes r) with
           | Some v => if is_nil (trim v) then None else Some (trim v)
           | None => None
           end;
    cb_origin :
      option_map trim (oget ORIGIN (req_attributes r')) =
      Some (trim (location_link (req_location r) ++
                  match oget (L "Description") (req_attributes r) with Some d => [NL; NL] ++ d | None => [] end))
  }.
End RoundSpec.
