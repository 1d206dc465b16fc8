(** Specification of tracing, in terms of the graph only (no tracer state).

    Vocabulary used by the theorems of PropsTrace.v.  A reader who knows README.md
    ("Coverage", "Derived Requirement") and doc/requirements/DESIGN.md (the DSG_TRACE requirements) should be
    able to check these definitions without reading the model in Tracer.v. *)
From Verif Require Import Base OMap Models.

(** The requirements of an artefact, in id order. *)
Definition reqs_of (g : graph) (aid : artefact_id) : list requirement :=
  match oget aid (g_artefacts g) with
  | Some a => ovalues (art_requirements a)
  | None => []
  end.

(** All requirements of the graph, artefact by artefact in id order. *)
Definition all_reqs (g : graph) : list requirement :=
  flat_map (fun e => ovalues (art_requirements (snd e))) (g_artefacts g).

(** Does an artefact with a smaller id already define [id]? *)
Definition defined_before (g : graph) (aid : artefact_id) (id : requirement_id) : bool :=
  existsb (fun e => match cmp (fst e) aid with Lt => true | _ => false end &&
                    existsb (fun r => eqb (req_id r) id) (ovalues (art_requirements (snd e))))
          (g_artefacts g).

(** The requirements of an artefact that are the first definition of their id. *)
Definition first_defs (g : graph) (aid : artefact_id) : list requirement :=
  filter (fun r => negb (defined_before g aid (req_id r))) (reqs_of g aid).

(** The first definition of an id in the whole graph. *)
Definition first_of (g : graph) (id : requirement_id) : option requirement :=
  find (fun r => eqb (req_id r) id) (all_reqs g).

(** A coverage link: [lk_lower], first defined in artefact [lk_lower_art], covers [lk_upper]
    because of the reference [lk_ref]: an entry of the upper's `depends` (Downwards) or of the
    lower's `covers` (Upwards). *)
Record link := mkLink {
  lk_upper : requirement;
  lk_lower_art : artefact_id;
  lk_lower : requirement;
  lk_ref : reference;
  lk_dir : direction
}.

Definition is_link (g : graph) (rel : relation) (l : link) : Prop :=
  In (lk_upper l) (reqs_of g (rel_upper rel)) /\
  In (lk_lower_art l) (rel_lower rel) /\
  In (lk_lower l) (first_defs g (lk_lower_art l)) /\
  match lk_dir l with
  | Downwards => In (lk_ref l) (req_depends (lk_upper l)) /\
                 ref_id (lk_ref l) = req_id (lk_lower l)
  | Upwards => In (lk_ref l) (req_covers (lk_lower l)) /\
               ref_id (lk_ref l) = req_id (lk_upper l)
  end.

(** The same as a list, fixing order and multiplicity. *)
Definition links_down (g : graph) (rel : relation) (up : requirement) : list link :=
  flat_map (fun d =>
    flat_map (fun la =>
      map (fun low => mkLink up la low d Downwards)
          (filter (fun low => eqb (req_id low) (ref_id d)) (first_defs g la)))
      (rel_lower rel))
    (req_depends up).

Definition links_up (g : graph) (rel : relation) (up : requirement) : list link :=
  flat_map (fun la =>
    flat_map (fun low =>
      map (fun c => mkLink up la low c Upwards)
          (filter (fun c => eqb (ref_id c) (req_id up)) (req_covers low)))
      (first_defs g la))
    (rel_lower rel).

Definition links_of (g : graph) (rel : relation) (up : requirement) : list link :=
  links_down g rel up ++ links_up g rel up.

Definition links (g : graph) (rel : relation) : list link :=
  flat_map (links_of g rel) (reqs_of g (rel_upper rel)).

(** What is recorded for a link. *)
Definition link_coverage (l : link) : coverage :=
  mkCoverage (req_id (lk_upper l)) (req_id (lk_lower l)) (ref_location (lk_ref l)) (lk_dir l).

(** The requirement a link's reference points to, and its artefact. *)
Definition referenced (l : link) : requirement :=
  match lk_dir l with Downwards => lk_lower l | Upwards => lk_upper l end.
Definition referenced_artefact (rel : relation) (l : link) : artefact_id :=
  match lk_dir l with Downwards => lk_lower_art l | Upwards => rel_upper rel end.

Definition wants_title (g : graph) (aid : artefact_id) : bool :=
  match oget aid (g_artefacts g) with
  | Some a => art_reference_with_title a
  | None => false
  end.

(** Title checks: a given title must be the referenced requirement's title; a missing title is
    an error if the referenced requirement's artefact asks for titles. *)
Definition wrong_title_errors (l : link) : list error :=
  match ref_title (lk_ref l) with
  | None => []
  | Some t =>
      if option_eqb str_eqb (Some t) (req_title (referenced l)) then []
      else [ match lk_dir l with
             | Downwards => EDependWithWrongTitle
             | Upwards => ECoveredWithWrongTitle
             end (lk_upper l) (lk_lower l) t (ref_location (lk_ref l)) ]
  end.

Definition missing_title_errors (g : graph) (rel : relation) (l : link) : list error :=
  match ref_title (lk_ref l) with
  | Some _ => []
  | None => if wants_title g (referenced_artefact rel l)
            then [EReferencedWithoutTitle (referenced l) (ref_location (lk_ref l))] else []
  end.

Definition link_errors (g : graph) (rel : relation) (l : link) : list error :=
  wrong_title_errors l ++ missing_title_errors g rel l.

Definition unused_errors (g : graph) (rel : relation) : list error :=
  if is_nil (links g rel) then [EUnusedRelation rel] else [].

Definition relation_errors (g : graph) (rel : relation) : list error :=
  flat_map (link_errors g rel) (links g rel) ++ unused_errors g rel.

(** Duplicate definitions: every requirement defined earlier is reported with the first
    definition. *)
Definition dup_errors_of (g : graph) (aid : artefact_id) (r : requirement) : list error :=
  if defined_before g aid (req_id r) then
    match first_of g (req_id r) with
    | Some r0 => [EDuplicateRequirement r0 r]
    | None => []
    end
  else [].

Definition dup_errors (g : graph) : list error :=
  flat_map (fun e => flat_map (dup_errors_of g (fst e)) (ovalues (art_requirements (snd e))))
           (g_artefacts g).

(** A requirement id is covered along a relation. *)
Definition covered_along (g : graph) (rel : relation) (up : requirement) : Prop :=
  exists l, is_link g rel l /\ lk_upper l = up.

(** Ids [u] (upper) and [l] (lower) are linked by some relation in the given direction. *)
Definition linked (g : graph) (d : direction) (u l : requirement_id) : Prop :=
  exists rel lk, In rel (g_relations g) /\ is_link g rel lk /\ lk_dir lk = d /\
                 req_id (lk_upper lk) = u /\ req_id (lk_lower lk) = l.

(** [low] claims to cover id [u] but no relation confirms it. *)
Definition dangling_covers (g : graph) (u l : requirement_id) : Prop :=
  (exists low c, first_of g l = Some low /\ In c (req_covers low) /\ ref_id c = u) /\
  ~ linked g Upwards u l.

(** [up] claims to depend on id [l] but no relation confirms it. *)
Definition dangling_depends (g : graph) (u l : requirement_id) : Prop :=
  (exists up d, first_of g u = Some up /\ In d (req_depends up) /\ ref_id d = l) /\
  ~ linked g Downwards u l.

(** The location of the first reference to [id] in a list. *)
Definition first_location (id : requirement_id) (refs : list reference) : option location :=
  option_map ref_location (find (fun r => eqb (ref_id r) id) refs).

(** The report for a dangling pair. *)
Definition covers_error (g : graph) (p : requirement_id * requirement_id) : list error :=
  match first_of g (snd p) with
  | Some low => match first_location (fst p) (req_covers low) with
                | Some loc => [ECoversUnknownRequirement low (fst p) loc]
                | None => []
                end
  | None => []
  end.

Definition depends_error (g : graph) (p : requirement_id * requirement_id) : list error :=
  match first_of g (fst p) with
  | Some up => match first_location (snd p) (req_depends up) with
               | Some loc => [EDependOnUnknownRequirement up (snd p) loc]
               | None => []
               end
  | None => []
  end.

(** Requirement [r] of artefact [aid] covers something along some relation. *)
Definition covers_something (g : graph) (aid : artefact_id) (r : requirement) : Prop :=
  exists rel lk, In rel (g_relations g) /\ is_link g rel lk /\
                 lk_lower_art lk = aid /\ lk_lower lk = r.

(** Relations the tracer can process. *)
Definition relation_ok (g : graph) (rel : relation) : Prop :=
  exists ua, oget (rel_upper rel) (g_artefacts g) = Some ua /\
             (art_requirements ua = [] \/
              forall la, In la (rel_lower rel) -> In la (okeys (g_artefacts g))).

Definition unique_ids (g : graph) : Prop := NoDup (map req_id (all_reqs g)).
