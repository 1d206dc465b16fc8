(** Model of /repo/src/trace.rs. *)
From Verif Require Import Base OMap Models.

(** trace.rs:17-25 *)
Record traced_artefact := mkTA {
  ta_artefact : artefact;
  ta_by_id : omap requirement_id requirement;
  ta_that_cover : omap requirement_id (list (requirement * reference));
  ta_derived : oset requirement_id
}.

(** trace.rs:29-47 *)
Record tracer := mkTracer {
  t_artefacts : omap artefact_id traced_artefact;
  t_relations : list traced_relation;
  t_errors : list error;
  t_req_by_id : omap requirement_id (artefact_id * requirement);
  t_invalid_depends : oset (requirement_id * requirement_id);
  t_invalid_covers : oset (requirement_id * requirement_id)
}.

Definition push_error (t : tracer) (e : error) : tracer :=
  mkTracer (t_artefacts t) (t_relations t) (t_errors t ++ [e])
           (t_req_by_id t) (t_invalid_depends t) (t_invalid_covers t).

(** trace.rs:51-58 *)
Definition tracer_empty : tracer := mkTracer [] [] [] [] [] [].

(** trace.rs:132-141: the entry API on [requirements_that_cover] *)
Definition that_cover_push (req : requirement)
    (m : omap requirement_id (list (requirement * reference))) (cov : reference) :=
  match oget (ref_id cov) m with
  | None => oins (ref_id cov) [(req, cov)] m
  | Some l => oins (ref_id cov) (l ++ [(req, cov)]) m
  end.

(** the four locals threaded through the loop of [add_artefact] *)
Record add_st := mkAdd {
  ad_tracer : tracer;
  ad_derived : oset requirement_id;
  ad_by_id : omap requirement_id requirement;
  ad_that_cover : omap requirement_id (list (requirement * reference))
}.

(** trace.rs:104-144, one iteration *)
Definition add_requirement (art : artefact) (s : add_st) (req : requirement) : add_st :=
  let t := ad_tracer s in
  match oget (req_id req) (t_req_by_id t) with
  | Some (_, old_req) =>
      mkAdd (push_error t (EDuplicateRequirement old_req req))
            (ad_derived s) (ad_by_id s) (ad_that_cover s)
  | None =>
      let inv_cov :=
        fold_left (fun st cov => sins (ref_id cov, req_id req) st)
                  (req_covers req) (t_invalid_covers t) in
      let inv_dep :=
        fold_left (fun st dep => sins (req_id req, ref_id dep) st)
                  (req_depends req) (t_invalid_depends t) in
      mkAdd
        (mkTracer (t_artefacts t) (t_relations t) (t_errors t)
                  (oins (req_id req) (art_id art, req) (t_req_by_id t))
                  inv_dep inv_cov)
        (if negb (art_ignore_derived art) then sins (req_id req) (ad_derived s)
         else ad_derived s)
        (oins (req_id req) req (ad_by_id s))
        (fold_left (that_cover_push req) (req_covers req) (ad_that_cover s))
  end.

(** trace.rs:98-154 *)
Definition add_artefact (t : tracer) (art : artefact) : tracer :=
  let s := fold_left (add_requirement art) (ovalues (art_requirements art))
                     (mkAdd t [] [] []) in
  let t' := ad_tracer s in
  mkTracer
    (oins (art_id art)
          (mkTA art (ad_by_id s) (ad_that_cover s) (ad_derived s)) (t_artefacts t'))
    (t_relations t') (t_errors t') (t_req_by_id t')
    (t_invalid_depends t') (t_invalid_covers t').

(** the locals of [trace_relation] (trace.rs:160-162 and 167) *)
Record rel_st := mkRel {
  rs_tracer : tracer;
  rs_any : bool;
  rs_covered : list coverage;
  rs_uncovered : list requirement_id;
  rs_is_covered : bool
}.

(** [lower_artefact.derived.remove(id)] through the [get_mut] borrow of trace.rs:174-177/219-222 *)
Definition remove_derived (t : tracer) (aid : artefact_id) (ta : traced_artefact)
    (id : requirement_id) : tracer :=
  mkTracer
    (oins aid (mkTA (ta_artefact ta) (ta_by_id ta) (ta_that_cover ta)
                    (srem id (ta_derived ta))) (t_artefacts t))
    (t_relations t) (t_errors t) (t_req_by_id t) (t_invalid_depends t) (t_invalid_covers t).

(** [self.invalid_depends_links.remove(..)], [self.invalid_covers_links.remove(..)] *)
Definition remove_invalid_depends (t : tracer) (p : requirement_id * requirement_id) : tracer :=
  mkTracer (t_artefacts t) (t_relations t) (t_errors t) (t_req_by_id t)
           (srem p (t_invalid_depends t)) (t_invalid_covers t).
Definition remove_invalid_covers (t : tracer) (p : requirement_id * requirement_id) : tracer :=
  mkTracer (t_artefacts t) (t_relations t) (t_errors t) (t_req_by_id t)
           (t_invalid_depends t) (srem p (t_invalid_covers t)).

(** trace.rs:173-215: one lower artefact for one `depends` reference *)
Definition trace_depends (upper_requirement : requirement) (depends : reference)
    (s : rel_st) (lower : artefact_id) : outcome rel_st :=
  let t := rs_tracer s in
  let* lower_artefact := unwrap (oget lower (t_artefacts t)) in
  match oget (ref_id depends) (ta_by_id lower_artefact) with
  | None => Done s
  | Some lower_requirement =>
      let t1 :=
        match ref_title depends with
        | Some title =>
            if negb (option_eqb str_eqb (Some title) (req_title lower_requirement)) then
              push_error t (EDependWithWrongTitle upper_requirement lower_requirement
                                                  title (ref_location depends))
            else t
        | None =>
            if art_reference_with_title (ta_artefact lower_artefact) then
              push_error t (EReferencedWithoutTitle lower_requirement (ref_location depends))
            else t
        end in
      let t2 := remove_derived t1 lower lower_artefact (req_id lower_requirement) in
      let t3 := remove_invalid_depends t2 (req_id upper_requirement, req_id lower_requirement) in
      Done (mkRel t3 (rs_any s)
              (rs_covered s ++
                 [mkCoverage (req_id upper_requirement) (req_id lower_requirement)
                             (ref_location depends) Downwards])
              (rs_uncovered s) true)
  end.

(** trace.rs:228-264: one (requirement, reference) that covers the upper requirement.
    The borrow [lower_artefact] is re-read from the map, which is what the mutable
    reference does. *)
Definition trace_covers (upper_artefact : artefact) (upper_requirement : requirement)
    (lower_id : artefact_id) (s : rel_st) (rc : requirement * reference) : outcome rel_st :=
  let '(lower_requirement, covers) := rc in
  let t := rs_tracer s in
  let* lower_artefact := unwrap (oget lower_id (t_artefacts t)) in
  let t1 :=
    match ref_title covers with
    | Some title =>
        if negb (option_eqb str_eqb (Some title) (req_title upper_requirement)) then
          push_error t (ECoveredWithWrongTitle upper_requirement lower_requirement
                                               title (ref_location covers))
        else t
    | None =>
        if art_reference_with_title upper_artefact then
          push_error t (EReferencedWithoutTitle upper_requirement (ref_location covers))
        else t
    end in
  let t2 := remove_derived t1 lower_id lower_artefact (req_id lower_requirement) in
  let t3 := remove_invalid_covers t2 (req_id upper_requirement, req_id lower_requirement) in
  Done (mkRel t3 (rs_any s)
          (rs_covered s ++
             [mkCoverage (req_id upper_requirement) (req_id lower_requirement)
                         (ref_location covers) Upwards])
          (rs_uncovered s) true).

(** trace.rs:218-266: one lower artefact, upward links *)
Definition trace_lower (upper_artefact : artefact) (upper_requirement : requirement)
    (s : rel_st) (lower_id : artefact_id) : outcome rel_st :=
  let* lower_artefact := unwrap (oget lower_id (t_artefacts (rs_tracer s))) in
  match oget (req_id upper_requirement) (ta_that_cover lower_artefact) with
  | None => Done s
  | Some lower => for_each lower (trace_covers upper_artefact upper_requirement lower_id) s
  end.

(** trace.rs:166-272: one upper requirement *)
Definition trace_upper (relation : relation) (upper_artefact : artefact)
    (s : rel_st) (upper_requirement : requirement) : outcome rel_st :=
  let s0 := mkRel (rs_tracer s) (rs_any s) (rs_covered s) (rs_uncovered s) false in
  let* s1 := for_each (req_depends upper_requirement)
               (fun s depends =>
                  for_each (rel_lower relation) (trace_depends upper_requirement depends) s) s0 in
  let* s2 := for_each (rel_lower relation) (trace_lower upper_artefact upper_requirement) s1 in
  let unc := if negb (rs_is_covered s2)
             then rs_uncovered s2 ++ [req_id upper_requirement] else rs_uncovered s2 in
  Done (mkRel (rs_tracer s2) (rs_any s2 || rs_is_covered s2) (rs_covered s2) unc
              (rs_is_covered s2)).

(** trace.rs:157-285 *)
Definition trace_relation (t : tracer) (relation : relation) : outcome tracer :=
  let* ta := unwrap (oget (rel_upper relation) (t_artefacts t)) in
  let upper_artefact := ta_artefact ta in
  let* s := for_each (ovalues (art_requirements upper_artefact))
              (trace_upper relation upper_artefact) (mkRel t false [] [] false) in
  let t1 := if negb (rs_any s) then push_error (rs_tracer s) (EUnusedRelation relation)
            else rs_tracer s in
  Done (mkTracer (t_artefacts t1)
          (t_relations t1 ++ [mkTracedRelation relation (rs_covered s) (rs_uncovered s)])
          (t_errors t1) (t_req_by_id t1) (t_invalid_depends t1) (t_invalid_covers t1)).

(** trace.rs:292-310 *)
Definition validate_upwards (t : tracer) : outcome tracer :=
  for_each (t_invalid_covers t)
    (fun t' (cov : requirement_id * requirement_id) =>
       let '(upper_id, lower_id) := cov in
       let* ar := unwrap (oget lower_id (t_req_by_id t')) in
       let req := snd ar in
       let* reference := unwrap (find (fun r => str_eqb (ref_id r) upper_id) (req_covers req)) in
       Done (push_error t' (ECoversUnknownRequirement req upper_id (ref_location reference)))) t.

(** trace.rs:312-331 *)
Definition validate_downwards (t : tracer) : outcome tracer :=
  for_each (t_invalid_depends t)
    (fun t' (dep : requirement_id * requirement_id) =>
       let '(upper_id, lower_id) := dep in
       let* ar := unwrap (oget upper_id (t_req_by_id t')) in
       let req := snd ar in
       let* reference := unwrap (find (fun r => str_eqb (ref_id r) lower_id) (req_depends req)) in
       Done (push_error t' (EDependOnUnknownRequirement req lower_id (ref_location reference)))) t.

(** trace.rs:287-290 *)
Definition validate (t : tracer) : outcome tracer :=
  let* t1 := validate_upwards t in validate_downwards t1.

(** trace.rs:50-69 *)
Definition tracer_new (g : graph) : outcome tracer :=
  let t0 := fold_left add_artefact (ovalues (g_artefacts g)) tracer_empty in
  let* t1 := for_each (g_relations g) trace_relation t0 in
  validate t1.

(** trace.rs:71-95; [unzip] into two [BTreeMap]s collects in order *)
Definition tracer_data (t : tracer) : traced_graph :=
  mkTracedGraph
    (ocollect (map (fun e => (fst e, ta_artefact (snd e))) (t_artefacts t)))
    (t_relations t)
    (ocollect (map (fun e => (fst e, ta_derived (snd e))) (t_artefacts t)))
    (t_errors t).

(** trace.rs:12-14 *)
Definition trace (g : graph) : outcome traced_graph :=
  let* t := tracer_new g in Done (tracer_data t).
