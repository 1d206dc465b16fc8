(** Specification of the single entries of the reports in terms of the graph. *)
From Verif Require Import Base OMap Models Unicode Location Show TraceSpec GnuErr MdFmt.
Open Scope N_scope.

(** Is [x] a part of [s]? *)
Definition infix (x s : str) : Prop := exists a b, s = a ++ x ++ b.

(** ** GNU errors *)
(** Where the user has to look for an error, if it is about a place. *)
Definition place (e : error) : option location :=
  match e with
  | EFormat l _ => Some l
  | EDuplicateRequirement _ again => Some (req_location again)
  | EDuplicateAttribute l _ _ => Some l
  | ECoveredWithWrongTitle _ _ _ l => Some l
  | EDependWithWrongTitle _ _ _ l => Some l
  | EDependOnUnknownRequirement _ _ l => Some l
  | ECoversUnknownRequirement _ _ l => Some l
  | EReferencedWithoutTitle _ l => Some l
  | ERequirementWithoutTitle r => Some (req_location r)
  | EIo _ _ | EConfig _ | EDuplicateArtefact _ | EUnknownArtefact _ | EEmptyGraph | EUnusedRelation _ => None
  end.
(** The other place a message has to point to. *)
Definition other_place (e : error) : option location :=
  match e with
  | EDuplicateRequirement first _ => Some (req_location first)
  | ECoveredWithWrongTitle upper _ _ _ => Some (req_location upper)
  | EDependWithWrongTitle _ lower _ _ => Some (req_location lower)
  | _ => None
  end.
(** The texts a message has to mention. *)
Definition mentions (e : error) : list str :=
  match e with
  | EFormat _ m => [m]
  | EDuplicateRequirement first _ => [req_id first]
  | EDuplicateAttribute _ a r => [a; r]
  | EIo p m => [p; m]
  | ECoveredWithWrongTitle upper _ _ _ => [req_id upper]
  | EDependWithWrongTitle _ lower _ _ => [req_id lower]
  | EDependOnUnknownRequirement r id _ => [req_id r; id]
  | ECoversUnknownRequirement r id _ => [req_id r; id]
  | EReferencedWithoutTitle r _ => [req_id r]
  | ERequirementWithoutTitle r => [req_id r]
  | EConfig _ | EDuplicateArtefact _ | EUnknownArtefact _ | EEmptyGraph | EUnusedRelation _ => []
  end.

(** The phrases in a message of the GNU report. *)
Definition title_or (r : requirement) (s : string) : str := match req_title r with Some t => t | None => L s end.
Definition gnu_phrases {D : Debug} (e : error) : list str :=
  match e with
  | EFormat l m => [show_location l ++ L ": " ++ m]
  | EDuplicateRequirement first _ => [L "Duplicate Requirement: " ++ req_id first]
  | EDuplicateAttribute _ a r => [r ++ L " has duplicate Attribute: " ++ a]
  | EIo p m => [p ++ L ": IO Error: " ++ m]
  | ECoveredWithWrongTitle upper _ t _ =>
      [req_id upper ++ L " covered with wrong title. Expected " ++ debug_str (title_or upper "<no title>") ++
       L ", actual " ++ debug_str t]
  | EDependWithWrongTitle _ lower t _ =>
      [req_id lower ++ L " depended with wrong title. Expected " ++ debug_str (title_or lower "<no title>") ++
       L ", actual " ++ debug_str t]
  | EDependOnUnknownRequirement r id _ => [req_id r ++ L " Depends on unknown requirement " ++ id]
  | ECoversUnknownRequirement r id _ => [req_id r ++ L " Covers unknown requirement " ++ id]
  | EReferencedWithoutTitle r _ =>
      [L "should reference " ++ req_id r ++ L " with title " ++ debug_str (title_or r "<no title>")]
  | ERequirementWithoutTitle r => [L "requirement " ++ req_id r ++ L " without title"]
  | EConfig _ | EDuplicateArtefact _ | EUnknownArtefact _ | EEmptyGraph | EUnusedRelation _ =>
      [L "Error in config file: " ++ debug_error e]
  end.

(** ** Markdown *)
(** The phrases in a message of the Markdown reports. *)
Definition quoted_title (t : str) : str := [NL] ++ L "        *    ````" ++ t ++ L "````" ++ [NL].
Definition md_phrases {CT : CaseTables} (e : error) : list str :=
  match e with
  | EFormat l m => [L "Format Error: " ++ m; L "in " ++ location_link l]
  | EDuplicateRequirement first again =>
      [L "Duplicate Requirement: " ++ req_id first; location_link (req_location first); location_link (req_location again)]
  | EDuplicateAttribute l a r => [L "Duplicate Attribute: " ++ a ++ L " when parsing " ++ r; location_link l]
  | EIo p m => [L "IO Error: " ++ m; p]
  | EConfig m => [L "Config Error: " ++ m]
  | EDuplicateArtefact a => [L "Duplicate Artefact: " ++ a]
  | EUnknownArtefact a => [L "Unknown Artefact: " ++ a]
  | ECoveredWithWrongTitle upper lower t l =>
      [L "covered with wrong title"; L "Upper Requirement " ++ requirement_link upper;
       L "Lower Requirement " ++ requirement_link lower;
       L "Title of Upper Requirement:" ++ quoted_title (title_or upper "");
       L "Title used to cover it:" ++ quoted_title t; L "At: " ++ show_location l]
  | EDependWithWrongTitle upper lower t l =>
      [L "depended on with wrong title"; L "Upper Requirement " ++ requirement_link upper;
       L "Lower Requirement " ++ requirement_link lower;
       L "Title of Lower Requirement:" ++ quoted_title (title_or lower "");
       L "Title used to cover it:" ++ quoted_title t; L "At: " ++ show_location l]
  | EDependOnUnknownRequirement r id l =>
      [requirement_link r ++ L " depends on unknown Requirement " ++ id; location_link l]
  | ECoversUnknownRequirement r id l =>
      [requirement_link r ++ L " covers unknown Requirement " ++ id; location_link l]
  | EReferencedWithoutTitle r l => [requirement_link r ++ L " covered without title"; show_location l]
  | ERequirementWithoutTitle r => [L "Requirement " ++ requirement_link r ++ L " without title"]
  | EEmptyGraph => [L "Tracing Graph is empty"]
  | EUnusedRelation rel => [L "No requirement was traced along the relation " ++ show_relation rel]
  end.

(** The anchor a Markdown viewer derives from an ASCII heading: lower case, blanks to dashes,
    letters, digits, dash and underscore kept. *)
Definition is_ascii (s : str) : bool := forallb (fun c => c <? 128) s.
Definition lower_ascii (c : chr) : chr := if (65 <=? c) && (c <=? 90) then c + 32 else c.
Definition anchor_keeps (c : chr) : bool :=
  ((65 <=? c) && (c <=? 90)) || ((97 <=? c) && (c <=? 122)) || ((48 <=? c) && (c <=? 57)) || (c =? 95) || (c =? 45).
Definition heading_anchor (s : str) : str :=
  filter anchor_keeps (map (fun c => if c =? 32 then 45 else lower_ascii c) s).
(** The text of a requirement's heading. *)
Definition heading_of (r : requirement) : str :=
  req_id r ++ match req_title r with Some t => L ": " ++ t | None => [] end.

(** The targets of the links within the page: what stands between "](#" and the next blank or
    closing parenthesis. *)
Fixpoint drop_prefix (p s : str) : option str :=
  match p, s with
  | [], _ => Some s
  | x :: p', y :: s' => if x =? y then drop_prefix p' s' else None
  | _ :: _, [] => None
  end.
Fixpoint until_end (s : str) : str :=
  match s with
  | [] => []
  | c :: s' => if (c =? 32) || (c =? 41) then [] else c :: until_end s'
  end.
Fixpoint targets (s : str) : list str :=
  match s with
  | [] => []
  | _ :: s' => match drop_prefix (L "](#") s with Some rest => [until_end rest] | None => [] end ++ targets s'
  end.

(** The headings of requirements on the page. *)
Fixpoint page_lines (s : str) : list str :=
  match s with
  | [] => [[]]
  | c :: s' =>
      match page_lines s' with
      | l :: ls => if c =? NL then [] :: l :: ls else (c :: l) :: ls
      | [] => []
      end
  end.
Definition page_headings (s : str) : list str :=
  flat_map (fun line => match drop_prefix (L "### ") line with Some h => [h] | None => [] end) (page_lines s).

(** Texts that cannot be mistaken for a part of a link. *)
Definition no_bracket (s : str) : Prop := ~ In 93 s.
Definition plain_title (t : option str) : Prop := match t with Some t => no_bracket t | None => True end.
Definition plain_location (l : location) : Prop :=
  no_bracket (loc_file l) /\ match loc_in_file l with Some (LocString s) => no_bracket s | _ => True end.
Definition plain_reference (x : reference) : Prop :=
  no_bracket (ref_id x) /\ plain_title (ref_title x) /\ plain_location (ref_location x).
Definition plain_requirement (r : requirement) : Prop :=
  no_bracket (req_id r) /\ plain_title (req_title r) /\ plain_location (req_location r) /\
  Forall plain_reference (req_covers r) /\ Forall plain_reference (req_depends r) /\
  Forall (fun e => no_bracket (fst e) /\ no_bracket (snd e)) (req_attributes r).
Definition plain_relation (rel : relation) : Prop := no_bracket (rel_upper rel) /\ Forall no_bracket (rel_lower rel).
(** ... and the requirements an error is about are those of the graph. *)
Definition plain_error (g : graph) (e : error) : Prop :=
  match e with
  | EFormat l m => plain_location l /\ no_bracket m
  | EDuplicateRequirement r1 r2 => plain_requirement r1 /\ plain_requirement r2
  | EDuplicateAttribute l a r => plain_location l /\ no_bracket a /\ no_bracket r
  | EIo p m => no_bracket p /\ no_bracket m
  | EConfig m => no_bracket m
  | EDuplicateArtefact a | EUnknownArtefact a => no_bracket a
  | ECoveredWithWrongTitle u l t loc | EDependWithWrongTitle u l t loc =>
      In u (all_reqs g) /\ In l (all_reqs g) /\ no_bracket t /\ plain_location loc
  | EDependOnUnknownRequirement r id loc | ECoversUnknownRequirement r id loc =>
      In r (all_reqs g) /\ no_bracket id /\ plain_location loc
  | EReferencedWithoutTitle r loc => In r (all_reqs g) /\ plain_location loc
  | ERequirementWithoutTitle r => In r (all_reqs g)
  | EUnusedRelation rel => plain_relation rel
  | EEmptyGraph => True
  end.
Definition plain_graph (g : graph) : Prop :=
  (forall r, In r (all_reqs g) -> plain_requirement r) /\
  (forall k a, In (k, a) (g_artefacts g) -> no_bracket k /\ Forall (plain_error g) (art_errors a)) /\
  Forall plain_relation (g_relations g).

(** The links along relation [R] in which [r] is the upper (lower) requirement, with the other
    requirement and the place of the reference. *)
Definition links_below (g : graph) (r : requirement) (R : relation) : list (requirement * location) :=
  flat_map (fun rel =>
    if eqb rel R then
      map (fun l => (lk_lower l, ref_location (lk_ref l)))
          (filter (fun l => eqb (req_id (lk_upper l)) (req_id r)) (links g rel))
    else []) (g_relations g).
Definition links_above (g : graph) (r : requirement) (R : relation) : list (requirement * location) :=
  flat_map (fun rel =>
    if eqb rel R then
      map (fun l => (lk_upper l, ref_location (lk_ref l)))
          (filter (fun l => eqb (req_id (lk_lower l)) (req_id r)) (links g rel))
    else []) (g_relations g).

Section Entry.
  Context {CT : CaseTables}.

  Definition link_item (x : requirement * location) : str :=
    L "    *   " ++ requirement_link (fst x) ++ [NL] ++ L "        Reference: " ++ location_link (snd x) ++ [NL].
  Definition free_text (r : requirement) : str :=
    match oget (L "Description") (req_attributes r) with Some d => [NL; NL] ++ d ++ [NL] | None => [] end ++
    flat_map (fun e => if eqb (fst e) (L "Description") || is_nil (trim (snd e)) then []
                       else [NL] ++ fst e ++ L ":" ++ [NL] ++ trim (snd e) ++ [NL]) (req_attributes r).

  (** What the trace report says about requirement [r] of artefact [k]: its own title, place and
      text; the relations above the artefact, each with the requirements [r] covers along it, and
      "Derived" if there are none at all; the relations below the artefact, each with the
      requirements that cover [r] along it, or "UNCOVERED" if there are none. *)
  Definition entry (g : graph) (k : artefact_id) (r : requirement) (text : str) : Prop :=
    exists ups downs : omap relation (list (requirement * location)),
      osorted ups /\ osorted downs /\
      (forall R l, oget R ups = Some l <->
                   In R (g_relations g) /\ In k (rel_lower R) /\ l = links_above g r R) /\
      (forall R l, oget R downs = Some l <->
                   In R (g_relations g) /\ rel_upper R = k /\ l = links_below g r R) /\
      text =
        [NL] ++ L "### " ++ req_id r ++ match req_title r with Some t => L ": " ++ t | None => [] end ++ [NL; NL] ++
        L "Origin: " ++ k ++ L ", " ++ location_link (req_location r) ++ [NL] ++ free_text r ++
        [NL] ++ L "Upwards Tracing:" ++ [NL] ++
        flat_map (fun e => L "*   " ++ show_relation (fst e) ++ [NL] ++ flat_map link_item (snd e)) ups ++
        (if existsb (fun e => negb (is_nil (snd e))) ups then [] else L "    *   Derived" ++ [NL]) ++
        [NL] ++ L "Downwards Tracing:" ++ [NL] ++
        flat_map (fun e => L "*   " ++ show_relation (fst e) ++ [NL] ++
                           match snd e with
                           | [] => L "    *    UNCOVERED" ++ [NL]
                           | xs => flat_map link_item xs
                           end) downs.
End Entry.
