(** Model of /repo/src/formatters/markdown.rs. *)
From Verif Require Import Base OMap Models Unicode Location Show Aggregator Sort.
Open Scope N_scope.

(** [str::to_lowercase]: ASCII letters as usual; for other characters the Unicode tables apply,
    depending on the characters around (final sigma).  No character has an ASCII upper case letter
    in its lower case form. *)
Class CaseTables := {
  lower_other : str -> chr -> str -> str; (* text before, character, text after *)
  lower_other_not_upper : forall a c b x, In x (lower_other a c b) -> is_upper_ascii x = false
}.
Definition ascii_case : CaseTables.
Proof.
  refine {| lower_other := fun _ c _ => if is_upper_ascii c then [] else [c] |}.
  intros a c b x H. destruct (is_upper_ascii c) eqn:E; [destruct H|]. destruct H as [<-|[]]. exact E.
Defined.

Section MdFmt.
  Context {CT : CaseTables}.

  Fixpoint to_lowercase_from (before s : str) : str :=
    match s with
    | [] => []
    | c :: s' =>
        (if is_upper_ascii c then [c + 32] else if c <? 128 then [c] else lower_other before c s') ++
        to_lowercase_from (before ++ [c]) s'
    end.
  Definition to_lowercase (s : str) : str := to_lowercase_from [] s.

  (** markdown.rs:19 `[^A-Za-z0-9_-]` *)
  Definition slug_char (c : chr) : bool :=
    is_upper_ascii c || is_lower_ascii c || is_digit_ascii c || (c =? 95) || (c =? 45).
  (** markdown.rs:18-19, 26-28, 33-35: lower case, blanks replaced by dashes, other characters removed *)
  Definition slug (s : str) : str :=
    filter slug_char (map (fun c => if c =? 32 then 45 else c) (to_lowercase s)).

  Definition DQUOTE : chr := 34.
  (** markdown.rs:22-39 *)
  Definition requirement_link (r : requirement) : str :=
    match req_title r with
    | Some t => L "[" ++ req_id r ++ L "](#" ++ slug (req_id r ++ L "-" ++ t) ++ [32; DQUOTE] ++ t ++ [DQUOTE; 41]
    | None => L "[" ++ req_id r ++ L "](#" ++ slug (req_id r) ++ L ")"
    end.

  (** markdown.rs:41-59 *)
  Definition location_link (l : location) : str :=
    let file := loc_file l in
    match loc_in_file l with
    | Some (Line n) => L "[" ++ file ++ L ":" ++ show_N n ++ L "](../" ++ file ++ L "?plain=1#L" ++ show_N n ++ L ")"
    | Some (LineAndColumn n c) =>
        L "[" ++ file ++ L ":" ++ show_N n ++ L ":" ++ show_N c ++ L "](../" ++ file ++ L "?plain=1#L" ++
        show_N n ++ L ")"
    | Some (LocString s) => L "[" ++ file ++ L "](../" ++ file ++ L "):" ++ s
    | None => L "[" ++ file ++ L "](../" ++ file ++ L ")"
    end.

  (** markdown.rs:74-93: a list of references under a heading *)
  Definition md_reference (r : reference) : str :=
    match ref_title r with
    | Some t => L "*   " ++ ref_id r ++ L ": " ++ t ++ [NL]
    | None => L "*   " ++ ref_id r ++ [NL]
    end.
  Definition md_references (name : string) (l : list reference) : str :=
    match l with [] => [] | _ => [NL] ++ L name ++ L ":" ++ [NL] ++ flat_map md_reference l end.

  (** markdown.rs:70-72, 157-159 *)
  Definition md_description (r : requirement) : str :=
    match oget (L "Description") (req_attributes r) with
    | Some d => [NL; NL] ++ d ++ [NL]
    | None => []
    end.
  (** markdown.rs:95-103, 161-169 *)
  Definition md_attribute (e : str * str) : str :=
    let '(k, v) := e in
    if eqb k (L "Description") then []
    else match trim v with
         | [] => []
         | v' => [NL] ++ k ++ L ":" ++ [NL] ++ v' ++ [NL]
         end.

  (** markdown.rs:61-106 *)
  Definition md_requirement (r : requirement) : str :=
    [NL] ++ L "### " ++ req_id r ++ L ": " ++ opt_default (req_title r) [] ++ [NL; NL] ++
    L "Origin: " ++ location_link (req_location r) ++ [NL] ++
    md_description r ++
    md_references "Covers" (req_covers r) ++
    md_references "Depends" (req_depends r) ++
    flat_map md_attribute (req_attributes r).

  (** markdown.rs:213-355 *)
  Definition TICKS : str := L "````".
  Definition md_error (e : error) : str :=
    match e with
    | EFormat l m => L "*   Format Error: " ++ m ++ [NL] ++ L "    in " ++ location_link l ++ [NL]
    | EDuplicateRequirement r1 r2 =>
        L "*   Duplicate Requirement: " ++ req_id r1 ++ [NL] ++
        L "    first seen in " ++ location_link (req_location r2) ++ [NL] ++
        L "    then again in " ++ location_link (req_location r1) ++ [NL]
    | EDuplicateAttribute l a r =>
        L "*   Duplicate Attribute: " ++ a ++ L " when parsing " ++ r ++ [NL] ++ L "    " ++ location_link l ++ [NL]
    | EIo p m => L "*   IO Error: " ++ m ++ [NL] ++ L "   " ++ p ++ [NL]
    | EConfig m => L "*   Config Error: " ++ m ++ [NL]
    | EDuplicateArtefact a => L "*   Duplicate Artefact: " ++ a ++ [NL]
    | EUnknownArtefact a => L "*    Unknown Artefact: " ++ a ++ [NL]
    | ECoveredWithWrongTitle u l t loc =>
        L "*   Requirement covered with wrong title:" ++ [NL] ++
        L "    *   Upper Requirement " ++ requirement_link u ++ [NL] ++
        L "    *   Lower Requirement " ++ requirement_link l ++ [NL] ++
        L "    *   Title of Upper Requirement:" ++ [NL] ++
        L "        *    " ++ TICKS ++ opt_default (req_title u) [] ++ TICKS ++ [NL] ++
        L "    *   Title used to cover it:" ++ [NL] ++
        L "        *    " ++ TICKS ++ t ++ TICKS ++ [NL] ++
        L "    *  At: " ++ show_location loc ++ [NL]
    | EDependWithWrongTitle u l t loc =>
        L "*   Requirement depended on with wrong title:" ++ [NL] ++
        L "    *   Upper Requirement " ++ requirement_link u ++ [NL] ++
        L "    *   Lower Requirement " ++ requirement_link l ++ [NL] ++
        L "    *   Title of Lower Requirement:" ++ [NL] ++
        L "        *    " ++ TICKS ++ opt_default (req_title l) [] ++ TICKS ++ [NL] ++
        L "    *   Title used to cover it:" ++ [NL] ++
        L "        *    " ++ TICKS ++ t ++ TICKS ++ [NL] ++
        L "    *  At: " ++ show_location loc ++ [NL]
    | EDependOnUnknownRequirement r id loc =>
        L "*   " ++ requirement_link r ++ L " depends on unknown Requirement " ++ id ++ [NL] ++
        L "    " ++ location_link loc ++ [NL]
    | ECoversUnknownRequirement r id loc =>
        L "*   " ++ requirement_link r ++ L " covers unknown Requirement " ++ id ++ [NL] ++
        L "    " ++ location_link loc ++ [NL]
    | EEmptyGraph => L "Tracing Graph is empty" ++ [NL]
    | EUnusedRelation rel =>
        L "*   No requirement was traced along the relation " ++ show_relation rel ++
        L ". (Configuration error?)" ++ [NL]
    | EReferencedWithoutTitle r loc =>
        L "*   " ++ requirement_link r ++ L " covered without title" ++ [NL] ++ L "    " ++ show_location loc ++ [NL]
    | ERequirementWithoutTitle r =>
        L "*   Requirement " ++ requirement_link r ++
        L " without title in artefact that requires referencing with title" ++ [NL]
    end.

  (** A headline, written before the first entry only *)
  Definition md_headline (title : string) : str := [NL; NL] ++ L "# " ++ L title ++ [NL; NL].
  Definition md_subheading (name : str) : str := [NL] ++ L "## " ++ name ++ [NL; NL].

  (** markdown.rs:109-128, 359-379: the loop with its flag [headline] *)
  Fixpoint md_input_errors (headline : bool) (arts : list artefact) : str :=
    match arts with
    | [] => []
    | a :: arts' =>
        (if is_nil (art_errors a) then []
         else (if headline then [] else md_headline "Input Errors") ++ md_subheading (art_id a)) ++
        flat_map md_error (art_errors a) ++
        md_input_errors (if is_nil (art_errors a) then headline else true) arts'
    end.

  (** markdown.rs:108-141 *)
  Definition md_requirements (g : graph) : str :=
    md_input_errors false (ovalues (g_artefacts g)) ++
    flat_map md_requirement
      (sort_by req_id (flat_map (fun a => ovalues (art_requirements a)) (ovalues (g_artefacts g)))).

  (** markdown.rs:176-182, 199-205 *)
  Definition md_trace_link (x : requirement * location) : str :=
    L "    *   " ++ requirement_link (fst x) ++ [NL] ++
    L "        Reference: " ++ location_link (snd x) ++ [NL].

  (** markdown.rs:143-211 *)
  Definition md_traced_requirement (t : requirement_trace) : str :=
    let r := rt_requirement t in
    [NL] ++ L "### " ++ req_id r ++ match req_title r with Some x => L ": " ++ x | None => [] end ++ [NL; NL] ++
    L "Origin: " ++ art_id (rt_artefact t) ++ L ", " ++ location_link (req_location r) ++ [NL] ++
    md_description r ++
    flat_map md_attribute (req_attributes r) ++
    [NL] ++ L "Upwards Tracing:" ++ [NL] ++
    flat_map (fun e => L "*   " ++ show_relation (fst e) ++ [NL] ++ flat_map md_trace_link (snd e)) (rt_covers t) ++
    (if forallb (fun e => is_nil (snd e)) (rt_covers t) then L "    *   Derived" ++ [NL] else []) ++
    [NL] ++ L "Downwards Tracing:" ++ [NL] ++
    flat_map (fun e => L "*   " ++ show_relation (fst e) ++ [NL] ++
                       (if is_nil (snd e) then L "    *    UNCOVERED" ++ [NL] else []) ++
                       flat_map md_trace_link (snd e)) (rt_depends t).

  (** markdown.rs:389-397: each text only once; the [HashSet] as a list *)
  Fixpoint md_distinct (seen : list str) (es : list error) : str :=
    match es with
    | [] => []
    | e :: es' =>
        let s := md_error e in
        if existsb (eqb s) seen then md_distinct seen es' else s ++ md_distinct (s :: seen) es'
    end.
  (** markdown.rs:381-399 *)
  Definition md_tracing_errors (es : list error) : str :=
    if is_nil es then [] else md_headline "Tracing Errors" ++ md_distinct [] es.

  (** markdown.rs:418-424, 446-452: a linked item *)
  Definition md_item (ag : aggregated_graph) (id : requirement_id) : outcome str :=
    let* t := index id (ag_requirements ag) in
    Done (L "*   " ++ requirement_link (rt_requirement t) ++ [NL]).

  (** markdown.rs:401-427, 429-455: sections with a list of requirements each; empty ones are left
      out *)
  Fixpoint md_sections (ag : aggregated_graph) (title : string) (headline : bool)
    (l : list (str * list requirement_id)) : outcome str :=
    match l with
    | [] => Done []
    | (name, ids) :: l' =>
        if is_nil ids then md_sections ag title headline l'
        else
          let* items := mapO (md_item ag) ids in
          let* rest := md_sections ag title true l' in
          Done ((if headline then [] else md_headline title) ++ md_subheading name ++ concat items ++ rest)
    end.

  (** markdown.rs:464-470 *)
  Definition md_artefact (ag : aggregated_graph) (a : artefact) : outcome str :=
    let* rs := mapO (fun id => let* t := index id (ag_requirements ag) in Done (md_traced_requirement t))
                 (okeys (art_requirements a)) in
    Done (L "## " ++ art_id a ++ [NL] ++ concat rs).

  (** markdown.rs:357-474 *)
  Definition md_tracing (ag : aggregated_graph) : outcome str :=
    let tg := ag_traced ag in
    let* uncovered := md_sections ag "Uncovered Requirements" false
                        (map (fun t => (show_traced_relation t, tr_uncovered t)) (tg_relations tg)) in
    let* derived := md_sections ag "Derived Requirements" false (tg_derived tg) in
    let* all := mapO (md_artefact ag) (ovalues (tg_artefacts tg)) in
    Done (md_input_errors false (ovalues (tg_artefacts tg)) ++ md_tracing_errors (tg_errors tg) ++
          uncovered ++ derived ++ md_headline "Requirements" ++ concat all).
End MdFmt.
