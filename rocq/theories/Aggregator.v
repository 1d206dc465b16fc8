(** Model of /repo/src/aggregator.rs.

    References into the traced graph are modelled by the values they point to. *)
From Verif Require Import Base OMap Models.

(** aggregator.rs:8-26 *)
Record requirement_trace := mkRT {
  rt_covers : omap relation (list (requirement * location));
  rt_depends : omap relation (list (requirement * location));
  rt_artefact : artefact;
  rt_requirement : requirement
}.

(** aggregator.rs:28-39 *)
Record artefact_relations := mkAR {
  ar_upper : list traced_relation;
  ar_lower : list traced_relation;
  ar_artefact : artefact
}.

(** aggregator.rs:41-53 *)
Record aggregated_graph := mkAG {
  ag_traced : traced_graph;
  ag_artefacts : omap artefact_id artefact_relations;
  ag_requirements : omap requirement_id requirement_trace
}.

(** [map.get_mut(k).unwrap()] followed by an update of the value *)
Definition upd {K V} `{Ord K} (k : K) (f : V -> outcome V) (m : omap K V) : outcome (omap K V) :=
  let* v := unwrap (oget k m) in
  let* v' := f v in
  Done (oins k v' m).

(** [map[&k]] (Index, panics when missing) *)
Definition index {K V} `{Ord K} (k : K) (m : omap K V) : outcome V := unwrap (oget k m).

Definition push_lower (tr : traced_relation) (a : artefact_relations) : outcome artefact_relations :=
  Done (mkAR (ar_upper a) (ar_lower a ++ [tr]) (ar_artefact a)).
Definition push_upper (tr : traced_relation) (a : artefact_relations) : outcome artefact_relations :=
  Done (mkAR (ar_upper a ++ [tr]) (ar_lower a) (ar_artefact a)).
Definition insert_depends (rel : relation) (r : requirement_trace) : outcome requirement_trace :=
  Done (mkRT (rt_covers r) (oins rel [] (rt_depends r)) (rt_artefact r) (rt_requirement r)).
Definition insert_covers (rel : relation) (r : requirement_trace) : outcome requirement_trace :=
  Done (mkRT (oins rel [] (rt_covers r)) (rt_depends r) (rt_artefact r) (rt_requirement r)).
Definition push_depends (rel : relation) (x : requirement * location) (r : requirement_trace)
  : outcome requirement_trace :=
  let* d := upd rel (fun l => Done (l ++ [x])) (rt_depends r) in
  Done (mkRT (rt_covers r) d (rt_artefact r) (rt_requirement r)).
Definition push_covers (rel : relation) (x : requirement * location) (r : requirement_trace)
  : outcome requirement_trace :=
  let* c := upd rel (fun l => Done (l ++ [x])) (rt_covers r) in
  Done (mkRT c (rt_depends r) (rt_artefact r) (rt_requirement r)).

Definition agg_maps : Type :=
  (omap artefact_id artefact_relations * omap requirement_id requirement_trace)%type.

(** aggregator.rs:104-113: one lower artefact *)
Definition agg_lower (tg : traced_graph) (tr : traced_relation) (s : agg_maps) (la : artefact_id)
  : outcome agg_maps :=
  let* arts := upd la (push_upper tr) (fst s) in
  let* a := index la (tg_artefacts tg) in
  let* reqs := for_each (okeys (art_requirements a))
                 (fun m id => upd id (insert_covers (tr_relation tr)) m) (snd s) in
  Done (arts, reqs).

(** aggregator.rs:87-114: one relation *)
Definition agg_relation (tg : traced_graph) (s : agg_maps) (tr : traced_relation) : outcome agg_maps :=
  let rel := tr_relation tr in
  let* arts := upd (rel_upper rel) (push_lower tr) (fst s) in
  let* a := index (rel_upper rel) (tg_artefacts tg) in
  let* reqs := for_each (okeys (art_requirements a))
                 (fun m id => upd id (insert_depends rel) m) (snd s) in
  for_each (rel_lower rel) (agg_lower tg tr) (arts, reqs).

(** aggregator.rs:117-138: one coverage *)
Definition agg_coverage (rel : relation) (reqs : omap requirement_id requirement_trace) (cov : coverage)
  : outcome (omap requirement_id requirement_trace) :=
  let* upper := index (cov_upper cov) reqs in
  let* lower := index (cov_lower cov) reqs in
  let upper_req := rt_requirement upper in
  let lower_req := rt_requirement lower in
  let* reqs1 := upd (cov_upper cov) (push_depends rel (lower_req, cov_location cov)) reqs in
  upd (cov_lower cov) (push_covers rel (upper_req, cov_location cov)) reqs1.

(** aggregator.rs:56-71 *)
Definition agg_init_artefacts (tg : traced_graph) : omap artefact_id artefact_relations :=
  ocollect (map (fun e => (fst e, mkAR [] [] (snd e))) (tg_artefacts tg)).

(** aggregator.rs:73-85 *)
Definition agg_init_requirements (tg : traced_graph) : omap requirement_id requirement_trace :=
  ocollect (flat_map (fun a => map (fun e => (fst e, mkRT [] [] a (snd e))) (art_requirements a))
                     (ovalues (tg_artefacts tg))).

(** aggregator.rs:55-146 *)
Definition aggregate (tg : traced_graph) : outcome aggregated_graph :=
  let* s := for_each (tg_relations tg) (agg_relation tg)
              (agg_init_artefacts tg, agg_init_requirements tg) in
  let* reqs := for_each (tg_relations tg)
                 (fun m tr => for_each (tr_covered tr) (agg_coverage (tr_relation tr)) m) (snd s) in
  Done (mkAG tg (fst s) reqs).
