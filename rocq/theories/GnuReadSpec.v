(** Reading the GNU report line by line, as editors do. *)
From Verif Require Import Base OMap Models Unicode Location Show TraceSpec GnuErr FmtSpec.
Open Scope N_scope.

(** What a line says: a headline, or a message for a place. *)
Inductive entry := Head (text : str) | At (place message : str).

(** The parts before and after the first colon that is followed by a blank. *)
Fixpoint cut (s : str) : option (str * str) :=
  match s with
  | [] => None
  | c :: r =>
      match r with
      | d :: m => if (c =? COLON) && (d =? 32) then Some ([], m)
                  else match cut r with Some (p, x) => Some (c :: p, x) | None => None end
      | [] => None
      end
  end.
Definition read_line (l : str) : entry :=
  if starts_with_c HASH l then Head l
  else match cut l with Some (p, m) => At p m | None => Head l end.

(** The text has exactly these lines, which say this. *)
Definition reads (text : str) (es : list entry) : Prop :=
  exists lines, text = flat_map (fun l => l ++ [NL]) lines /\ (forall l, In l lines -> ~ In NL l) /\ map read_line lines = es.

Section Entries.
  Context {D : Debug}.
  Definition at_place (l : location) (m : str) : entry := At (show_location l) m.
  Definition title_text (r : requirement) : str := match req_title r with Some t => t | None => L "<no title>" end.

  (** What is to be read for an error. *)
  Definition error_entries (e : error) : list entry :=
    match e with
    | EFormat l m => [at_place l m]
    | EDuplicateRequirement first again =>
        [at_place (req_location again) (L "Duplicate Requirement: " ++ req_id first);
         at_place (req_location first) (L "note: previously seen here")]
    | EDuplicateAttribute l a r => [at_place l (r ++ L " has duplicate Attribute: " ++ a)]
    | EIo p m => [At p (L "IO Error: " ++ m)]
    | ECoveredWithWrongTitle u _ t loc =>
        [at_place loc (req_id u ++ L " covered with wrong title. Expected " ++ debug_str (title_text u) ++ L ", actual " ++ debug_str t);
         at_place (req_location u) (L "note: Defined here")]
    | EDependWithWrongTitle _ l t loc =>
        [at_place loc (req_id l ++ L " depended with wrong title. Expected " ++ debug_str (title_text l) ++ L ", actual " ++ debug_str t);
         at_place (req_location l) (L "note: Defined here")]
    | EDependOnUnknownRequirement r id loc => [at_place loc (req_id r ++ L " Depends on unknown requirement " ++ id)]
    | ECoversUnknownRequirement r id loc => [at_place loc (req_id r ++ L " Covers unknown requirement " ++ id)]
    | EReferencedWithoutTitle r loc =>
        [at_place loc (L "should reference " ++ req_id r ++ L " with title " ++ debug_str (title_text r))]
    | ERequirementWithoutTitle r =>
        [at_place (req_location r) (L "requirement " ++ req_id r ++ L " without title in artefact that requires referencing with title")]
    | EUnusedRelation _ | EConfig _ | EDuplicateArtefact _ | EUnknownArtefact _ | EEmptyGraph =>
        [At (L "Error in config file") (debug_error e)]
    end.

  Definition says (what : string) (r : requirement) : entry := at_place (req_location r) (req_id r ++ L what).

  (** What is to be read in the report. *)
  Definition report_entries (g : graph) (tracing_errors : list error) : list entry :=
    Head (L "# Parsing Errors") :: flat_map error_entries (all_errors g) ++
    Head (L "# Tracing Errors") :: flat_map error_entries tracing_errors ++
    Head (L "# Uncovered Requirement") ::
    flat_map (fun rel => Head (L "## " ++ show_relation rel) :: map (says " Uncovered") (uncovered_reqs g rel)) (g_relations g) ++
    Head (L "Derived Requirement") ::
    flat_map (fun e => Head (L "## " ++ fst e) :: map (says " Derived") (derived_reqs g (fst e) (snd e))) (g_artefacts g).
End Entries.

(** Texts that keep the report readable: one line each, ... *)
Definition one_line (s : str) : Prop := ~ In NL s.
(** ... file names that do not look like a headline or contain a colon and a blank, ... *)
Definition file_ok (f : str) : Prop := one_line f /\ starts_with_c HASH f = false /\ cut f = None.
Definition location_ok (l : location) : Prop :=
  file_ok (loc_file l) /\ loc_file l <> [] /\ match loc_in_file l with Some (LocString _) => False | _ => True end.
(** ... in all requirements, errors and names. *)
Definition reference_ok (x : reference) : Prop := one_line (ref_id x) /\ location_ok (ref_location x).
Definition requirement_ok (r : requirement) : Prop :=
  one_line (req_id r) /\ location_ok (req_location r) /\ Forall reference_ok (req_covers r) /\ Forall reference_ok (req_depends r).
Definition error_ok (e : error) : Prop :=
  match e with
  | EFormat l m => location_ok l /\ one_line m
  | EDuplicateRequirement r1 r2 => requirement_ok r1 /\ requirement_ok r2
  | EDuplicateAttribute l a r => location_ok l /\ one_line a /\ one_line r
  | EIo p m => file_ok p /\ one_line m
  | ECoveredWithWrongTitle u l _ loc | EDependWithWrongTitle u l _ loc => requirement_ok u /\ requirement_ok l /\ location_ok loc
  | EDependOnUnknownRequirement r id loc | ECoversUnknownRequirement r id loc => requirement_ok r /\ one_line id /\ location_ok loc
  | EReferencedWithoutTitle r loc => requirement_ok r /\ location_ok loc
  | ERequirementWithoutTitle r => requirement_ok r
  | EUnusedRelation _ | EConfig _ | EDuplicateArtefact _ | EUnknownArtefact _ | EEmptyGraph => True
  end.
Definition readable (g : graph) : Prop :=
  (forall r, In r (all_reqs g) -> requirement_ok r) /\
  (forall e, In e (all_errors g) -> error_ok e) /\
  (forall rel, In rel (g_relations g) -> one_line (rel_upper rel) /\ Forall one_line (rel_lower rel)) /\
  (forall k, In k (okeys (g_artefacts g)) -> one_line k).
(** `{:?}` writes line breaks as `\n`. *)
Definition debug_one_line {D : Debug} : Prop := (forall s, one_line (debug_str s)) /\ forall e, one_line (debug_error e).
