(** Specification of the aggregated graph in terms of the traced graph. *)
From Verif Require Import Base OMap Models Aggregator.

(** The requirement ids of an artefact. *)
Definition ids_of (tg : traced_graph) (k : artefact_id) : list requirement_id :=
  match oget k (tg_artefacts tg) with
  | Some a => okeys (art_requirements a)
  | None => []
  end.

(** All (id, artefact, requirement) triples, artefact by artefact. *)
Definition all_defs (tg : traced_graph) : list (requirement_id * (artefact * requirement)) :=
  flat_map (fun a => map (fun e => (fst e, (a, snd e))) (art_requirements a)) (ovalues (tg_artefacts tg)).

(** The last definition of an id. *)
Definition last_def (tg : traced_graph) (id : requirement_id) : option (artefact * requirement) :=
  oget id (rev (all_defs tg)).

Definition the_req (tg : traced_graph) (id : requirement_id) : list requirement :=
  match last_def tg id with Some (_, r) => [r] | None => [] end.

(** What the coverage lists say about [id] along relation [rel], seen from above / below. *)
Definition below (tg : traced_graph) (id : requirement_id) (rel : relation)
  : list (requirement * location) :=
  flat_map (fun tr =>
    if eqb (tr_relation tr) rel then
      flat_map (fun c => if eqb (cov_upper c) id
                         then map (fun r => (r, cov_location c)) (the_req tg (cov_lower c)) else [])
               (tr_covered tr)
    else []) (tg_relations tg).

Definition above (tg : traced_graph) (id : requirement_id) (rel : relation)
  : list (requirement * location) :=
  flat_map (fun tr =>
    if eqb (tr_relation tr) rel then
      flat_map (fun c => if eqb (cov_lower c) id
                         then map (fun r => (r, cov_location c)) (the_req tg (cov_upper c)) else [])
               (tr_covered tr)
    else []) (tg_relations tg).

Definition rel_listed (tg : traced_graph) (rel : relation) : Prop :=
  In rel (map tr_relation (tg_relations tg)).

(** The traced relations above an artefact, once per listing. *)
Definition listed_above (tg : traced_graph) (k : artefact_id) : list traced_relation :=
  flat_map (fun tr => map (fun _ => tr) (filter (eqb k) (rel_lower (tr_relation tr)))) (tg_relations tg).
Definition listed_below (tg : traced_graph) (k : artefact_id) : list traced_relation :=
  filter (fun tr => eqb (rel_upper (tr_relation tr)) k) (tg_relations tg).
