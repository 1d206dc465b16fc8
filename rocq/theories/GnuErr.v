(** Model of /repo/src/formatters/gnuerr.rs.

    The text a formatter writes, or [Panic].  Simplification: a panic loses the text written
    before it (FmtFacts.v shows that there is none on graphs made by the tracer). *)
From Verif Require Import Base OMap Models Unicode Location Show Aggregator.
Open Scope N_scope.

Section GnuErr.
  Context {D : Debug}.

  Definition NO_TITLE : str := L "<no title>".

  (** gnuerr.rs:12-114: one error *)
  Definition gnu_error (e : error) : str :=
    match e with
    | EFormat l m => show_location l ++ L ": " ++ m ++ [NL]
    | EDuplicateRequirement r1 r2 =>
        show_location (req_location r2) ++ L ": Duplicate Requirement: " ++ req_id r1 ++ [NL] ++
        show_location (req_location r1) ++ L ": note: previously seen here" ++ [NL]
    | EDuplicateAttribute l a r => show_location l ++ L ": " ++ r ++ L " has duplicate Attribute: " ++ a ++ [NL]
    | EIo p m => p ++ L ": IO Error: " ++ m ++ [NL]
    | EUnusedRelation _ | EConfig _ | EDuplicateArtefact _ | EUnknownArtefact _ | EEmptyGraph =>
        L "Error in config file: " ++ debug_error e ++ [NL]
    | ECoveredWithWrongTitle u _ t loc =>
        show_location loc ++ L ": " ++ req_id u ++ L " covered with wrong title. Expected " ++
        debug_str (opt_default (req_title u) NO_TITLE) ++ L ", actual " ++ debug_str t ++ [NL] ++
        show_location (req_location u) ++ L ": note: Defined here" ++ [NL]
    | EDependWithWrongTitle _ l t loc =>
        show_location loc ++ L ": " ++ req_id l ++ L " depended with wrong title. Expected " ++
        debug_str (opt_default (req_title l) NO_TITLE) ++ L ", actual " ++ debug_str t ++ [NL] ++
        show_location (req_location l) ++ L ": note: Defined here" ++ [NL]
    | EDependOnUnknownRequirement r id loc =>
        show_location loc ++ L ": " ++ req_id r ++ L " Depends on unknown requirement " ++ id ++ [NL]
    | ECoversUnknownRequirement r id loc =>
        show_location loc ++ L ": " ++ req_id r ++ L " Covers unknown requirement " ++ id ++ [NL]
    | EReferencedWithoutTitle r loc =>
        show_location loc ++ L ": should reference " ++ req_id r ++ L " with title " ++
        debug_str (opt_default (req_title r) NO_TITLE) ++ [NL]
    | ERequirementWithoutTitle r =>
        show_location (req_location r) ++ L ": requirement " ++ req_id r ++
        L " without title in artefact that requires referencing with title" ++ [NL]
    end.

  (** gnuerr.rs:6-118 *)
  Definition gnu_errors (es : list error) : str := flat_map gnu_error es.

  (** gnuerr.rs:136-139 *)
  Definition gnu_uncovered (tg : traced_graph) (upper : artefact_id) (id : requirement_id) : outcome str :=
    let* a := index upper (tg_artefacts tg) in
    let* r := index id (art_requirements a) in
    Done (show_location (req_location r) ++ L ": " ++ req_id r ++ L " Uncovered" ++ [NL]).

  (** gnuerr.rs:133-140 *)
  Definition gnu_relation (tg : traced_graph) (t : traced_relation) : outcome str :=
    let* ls := mapO (gnu_uncovered tg (rel_upper (tr_relation t))) (tr_uncovered t) in
    Done (L "## " ++ show_traced_relation t ++ [NL] ++ concat ls).

  (** gnuerr.rs:146-149 *)
  Definition gnu_derived_line (a : artefact) (id : requirement_id) : outcome str :=
    let* r := index id (art_requirements a) in
    Done (show_location (req_location r) ++ L ": " ++ req_id r ++ L " Derived" ++ [NL]).

  (** gnuerr.rs:143-150 *)
  Definition gnu_derived (tg : traced_graph) (e : artefact_id * list requirement_id) : outcome str :=
    let* a := index (fst e) (tg_artefacts tg) in
    let* ls := mapO (gnu_derived_line a) (snd e) in
    Done (L "## " ++ fst e ++ [NL] ++ concat ls).

  (** gnuerr.rs:120-154 *)
  Definition gnu_tracing (tg : traced_graph) : outcome str :=
    let* us := mapO (gnu_relation tg) (tg_relations tg) in
    let* ds := mapO (gnu_derived tg) (tg_derived tg) in
    Done (L "# Parsing Errors" ++ [NL] ++
          gnu_errors (flat_map art_errors (ovalues (tg_artefacts tg))) ++
          L "# Tracing Errors" ++ [NL] ++ gnu_errors (tg_errors tg) ++
          L "# Uncovered Requirement" ++ [NL] ++ concat us ++
          L "Derived Requirement" ++ [NL] ++ concat ds).
End GnuErr.
