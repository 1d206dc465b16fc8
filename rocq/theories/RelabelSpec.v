(** Vocabulary: graphs with more in them, graphs with other names in them. *)
From Verif Require Import Base OMap Models TraceSpec MetaSpec.

(** [g'] has the artefacts, relations, requirements and connections of [g], and perhaps more;
    requirements that are new in an artefact have ids that are new altogether. *)
Definition extends (g g' : graph) : Prop :=
  (forall rel, In rel (g_relations g) -> In rel (g_relations g')) /\
  (forall k b, ignores g k = Some b -> ignores g' k = Some b) /\
  (forall k id, In id (ids_of g k) -> In id (ids_of g' k)) /\
  (forall k id, In id (ids_of g' k) -> In id (ids_of g k) \/ forall k0, ~ In id (ids_of g k0)) /\
  (forall rel la u l, In rel (g_relations g) -> In la (rel_lower rel) ->
     connected g (rel_upper rel) u la l -> connected g' (rel_upper rel) u la l).

(** Other names for ids and titles, other places, other texts, other files and errors of the input. *)
Record relabeling := mkRelabeling {
  rl_id : requirement_id -> requirement_id;
  rl_title : str -> str;
  rl_location : location -> location;
  rl_tags : list str -> list str;
  rl_attributes : omap str str -> omap str str;
  rl_files : list path -> list path;
  rl_input_errors : list error -> list error
}.
(** Ids keep their order and different titles stay different. *)
Definition faithful (f : relabeling) : Prop :=
  (forall a b, cmp (rl_id f a) (rl_id f b) = cmp a b) /\
  (forall a b, rl_title f a = rl_title f b -> a = b).

Section Relabel.
  Variable f : relabeling.
  Definition on_reference (r : reference) : reference :=
    mkReference (rl_id f (ref_id r)) (option_map (rl_title f) (ref_title r)) (rl_location f (ref_location r)).
  Definition on_requirement (r : requirement) : requirement :=
    mkRequirement (rl_id f (req_id r)) (option_map (rl_title f) (req_title r)) (rl_location f (req_location r))
      (map on_reference (req_covers r)) (map on_reference (req_depends r))
      (rl_tags f (req_tags r)) (rl_attributes f (req_attributes r)).
  Definition on_error (e : error) : error :=
    match e with
    | EFormat l m => EFormat (rl_location f l) m
    | EDuplicateRequirement a b => EDuplicateRequirement (on_requirement a) (on_requirement b)
    | EDuplicateAttribute l a r => EDuplicateAttribute (rl_location f l) a (rl_id f r)
    | ECoveredWithWrongTitle u l t loc =>
        ECoveredWithWrongTitle (on_requirement u) (on_requirement l) (rl_title f t) (rl_location f loc)
    | EDependWithWrongTitle u l t loc =>
        EDependWithWrongTitle (on_requirement u) (on_requirement l) (rl_title f t) (rl_location f loc)
    | EReferencedWithoutTitle r loc => EReferencedWithoutTitle (on_requirement r) (rl_location f loc)
    | ERequirementWithoutTitle r => ERequirementWithoutTitle (on_requirement r)
    | EDependOnUnknownRequirement r id loc =>
        EDependOnUnknownRequirement (on_requirement r) (rl_id f id) (rl_location f loc)
    | ECoversUnknownRequirement r id loc =>
        ECoversUnknownRequirement (on_requirement r) (rl_id f id) (rl_location f loc)
    | EIo _ _ | EConfig _ | EDuplicateArtefact _ | EUnknownArtefact _ | EEmptyGraph | EUnusedRelation _ => e
    end.
  Definition on_artefact (a : artefact) : artefact :=
    mkArtefact (art_id a) (rl_files f (art_files a)) (art_ignore_derived a) (art_reference_with_title a)
      (map (fun e => (rl_id f (fst e), on_requirement (snd e))) (art_requirements a)) (rl_input_errors f (art_errors a)).
  Definition on_artefacts (m : omap artefact_id artefact) : omap artefact_id artefact :=
    map (fun e => (fst e, on_artefact (snd e))) m.
  Definition on_graph (g : graph) : graph := mkGraph (on_artefacts (g_artefacts g)) (g_relations g).
  Definition on_coverage (c : coverage) : coverage :=
    mkCoverage (rl_id f (cov_upper c)) (rl_id f (cov_lower c)) (rl_location f (cov_location c)) (cov_direction c).
  Definition on_relation (t : traced_relation) : traced_relation :=
    mkTracedRelation (tr_relation t) (map on_coverage (tr_covered t)) (map (rl_id f) (tr_uncovered t)).
  Definition on_traced (t : traced_graph) : traced_graph :=
    mkTracedGraph (on_artefacts (tg_artefacts t)) (map on_relation (tg_relations t))
      (map (fun e => (fst e, map (rl_id f) (snd e))) (tg_derived t)) (map on_error (tg_errors t)).
End Relabel.
