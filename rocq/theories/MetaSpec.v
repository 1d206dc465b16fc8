(** Vocabulary for statements that compare the tracing of two graphs. *)
From Verif Require Import Base OMap Models TraceSpec.

Definition ids_of (g : graph) (aid : artefact_id) : list requirement_id := map req_id (reqs_of g aid).
Definition ignores (g : graph) (aid : artefact_id) : option bool :=
  option_map art_ignore_derived (oget aid (g_artefacts g)).

(** Equal but for the references, titles, places, ... of the requirements. *)
Definition same_shape (g g' : graph) : Prop :=
  g_relations g = g_relations g' /\
  (forall k, ids_of g k = ids_of g' k) /\ (forall k, ignores g k = ignores g' k).

(** Requirement [u] of artefact [ua] and requirement [l] of artefact [la] belong together: it is
    written at one of them. *)
Definition connected (g : graph) (ua : artefact_id) (u : requirement_id) (la : artefact_id) (l : requirement_id) : Prop :=
  (exists up d, In up (reqs_of g ua) /\ req_id up = u /\ In d (req_depends up) /\ ref_id d = l) \/
  (exists low c, In low (reqs_of g la) /\ req_id low = l /\ In c (req_covers low) /\ ref_id c = u).
Definition same_connections (g g' : graph) : Prop :=
  forall rel la u l, In rel (g_relations g) -> In la (rel_lower rel) ->
    In u (ids_of g (rel_upper rel)) -> In l (ids_of g la) ->
    (connected g (rel_upper rel) u la l <-> connected g' (rel_upper rel) u la l).

Definition not_unused (e : error) : bool := match e with EUnusedRelation _ => false | _ => true end.

(** Artefact [a] called [k] is not in the graph; no relation names it, its ids are not used. *)
Definition unconnected (g : graph) (k : artefact_id) (a : artefact) : Prop :=
  art_id a = k /\ ~ In k (okeys (g_artefacts g)) /\
  (forall r, In r (ovalues (art_requirements a)) -> ~ In (req_id r) (map req_id (all_reqs g))) /\
  (forall rel, In rel (g_relations g) -> rel_upper rel <> k /\ ~ In k (rel_lower rel)).
(** The errors for references at requirements of [a], were they all dangling. *)
Definition dangles_in (a : artefact) (e : error) : Prop :=
  exists r, In r (ovalues (art_requirements a)) /\
    ((exists id loc, first_location id (req_covers r) = Some loc /\ e = ECoversUnknownRequirement r id loc) \/
     (exists id loc, first_location id (req_depends r) = Some loc /\ e = EDependOnUnknownRequirement r id loc)).
