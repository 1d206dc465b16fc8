(** Properties C14 - C16, C50: aggregation.  Vocabulary: AggSpec.v; model: Aggregator.v. *)
From Verif Require Import Base OMap Models Tracer TraceSpec TraceFacts TraceCor TraceExamples
  Aggregator AggSpec AggFacts.

(** C14: panics exactly when a relation lists an unknown lower artefact. *)
Theorem C14_panic_exact : forall g tg,
  graph_wf g -> trace g = Done tg ->
  ((exists ag, aggregate tg = Done ag) <->
   forall rel la, In rel (g_relations g) -> In la (rel_lower rel) -> In la (okeys (g_artefacts g))).
Proof. exact agg_total_iff. Qed.
Print Assumptions C14_panic_exact.

Example C14_example : exists ag, aggregate sample_traced = Done ag.
Proof. vm_compute. eexists. reflexivity. Qed.

(** Tracing tolerates an unknown lower artefact below an empty upper one, aggregating does not. *)
Theorem C14_never_panics_refuted :
  ~ forall g tg, graph_wf g -> trace g = Done tg -> exists ag, aggregate tg = Done ag.
Proof.
  intros H.
  assert (HT : exists tg, trace empty_upper = Done tg)
    by (vm_compute; eexists; reflexivity).
  destruct HT as [tg HT].
  destruct (H _ tg empty_upper_wf HT) as [ag Hag].
  vm_compute in HT. inversion HT; subst tg. vm_compute in Hag. discriminate.
Qed.
Print Assumptions C14_never_panics_refuted.

(** C15 *)
Theorem C15_cross_references : forall g tg ag,
  graph_wf g -> trace g = Done tg -> aggregate tg = Done ag ->
  osorted (ag_requirements ag) /\
  (forall id, In id (okeys (ag_requirements ag)) <-> exists a r, last_def tg id = Some (a, r)) /\
  (forall id a r, last_def tg id = Some (a, r) ->
     exists rt, oget id (ag_requirements ag) = Some rt /\
       rt_artefact rt = a /\ rt_requirement rt = r /\
       osorted (rt_depends rt) /\ osorted (rt_covers rt) /\
       (forall R, (rel_listed tg R /\ In id (ids_of tg (rel_upper R)) /\
                   oget R (rt_depends rt) = Some (below tg id R)) \/
                  (~ (rel_listed tg R /\ In id (ids_of tg (rel_upper R))) /\
                   oget R (rt_depends rt) = None)) /\
       (forall R, (rel_listed tg R /\ (exists la, In la (rel_lower R) /\ In id (ids_of tg la)) /\
                   oget R (rt_covers rt) = Some (above tg id R)) \/
                  (~ (rel_listed tg R /\ (exists la, In la (rel_lower R) /\ In id (ids_of tg la))) /\
                   oget R (rt_covers rt) = None))).
Proof.
  intros g tg ag WF TR HA.
  pose proof (proj1 (agg_total_iff g tg WF TR) (ex_intro _ ag HA)) as HL.
  destruct (aggregate_spec tg (trace_agg_ok g tg WF TR)
              (proj2 (trace_lowers_known g tg WF TR) HL)) as (ag' & E & _ & _ & Hrest).
  rewrite E in HA. injection HA as ->. exact Hrest.
Qed.
Print Assumptions C15_cross_references.

Theorem C15_symmetric : forall g tg u l R loc,
  graph_wf g -> trace g = Done tg ->
  ((exists r, In (r, loc) (below tg u R) /\ req_id r = l) <->
   (exists r, In (r, loc) (above tg l R) /\ req_id r = u)).
Proof. exact below_above. Qed.
Print Assumptions C15_symmetric.

Example C15_example :
  exists ag rt, aggregate sample_traced = Done ag /\ oget (L "R1") (ag_requirements ag) = Some rt /\
    map (fun e => (fst e, map (fun x => (req_id (fst x), snd x)) (snd e))) (rt_depends rt) =
    [(AB, [(L "S1", at_line 2); (L "S1", at_line 2)]); (AC, [])].
Proof. vm_compute. do 2 eexists. repeat split. Qed.

(** C16 *)
Theorem C16_artefact_relations : forall g tg ag,
  graph_wf g -> trace g = Done tg -> aggregate tg = Done ag ->
  okeys (ag_artefacts ag) = okeys (g_artefacts g) /\
  forall k a, oget k (g_artefacts g) = Some a ->
    oget k (ag_artefacts ag) = Some (mkAR (listed_above tg k) (listed_below tg k) a).
Proof.
  intros g tg ag WF TR HA.
  pose proof (proj1 (agg_total_iff g tg WF TR) (ex_intro _ ag HA)) as HL.
  destruct (trace_done g WF tg TR) as (pc & pd & A1 & _).
  destruct (aggregate_spec tg (trace_agg_ok g tg WF TR)
              (proj2 (trace_lowers_known g tg WF TR) HL)) as (ag' & E & _ & (K1 & _ & K2) & _).
  rewrite E in HA. injection HA as ->. rewrite A1 in K1, K2. auto.
Qed.
Print Assumptions C16_artefact_relations.

Example C16_example :
  exists ag x, aggregate sample_traced = Done ag /\ oget (L "A") (ag_artefacts ag) = Some x /\
    map tr_relation (ar_lower x) = [AB; AC] /\ ar_upper x = [].
Proof. vm_compute. do 2 eexists. repeat split. Qed.

(** C50: with unique ids the aggregated requirement is the one the tracer resolved. *)
Theorem C50_same_definition : forall g tg ag id rt,
  graph_wf g -> trace g = Done tg -> unique_ids g -> aggregate tg = Done ag ->
  oget id (ag_requirements ag) = Some rt -> first_of g id = Some (rt_requirement rt).
Proof. exact agg_first_rt. Qed.
Print Assumptions C50_same_definition.

(** In general it is the definition in the artefact with the largest id. *)
Theorem C50_largest : forall g tg ag id rt,
  graph_wf g -> trace g = Done tg -> aggregate tg = Done ag -> oget id (ag_requirements ag) = Some rt ->
  exists k, oget k (g_artefacts g) = Some (rt_artefact rt) /\ In (rt_requirement rt) (reqs_of g k) /\
    req_id (rt_requirement rt) = id /\
    forall k' r', In r' (reqs_of g k') -> req_id r' = id -> cmp k' k <> Gt.
Proof. exact agg_last_rt. Qed.
Print Assumptions C50_largest.

(** With duplicate ids it is not: the tracer uses the first definition, the aggregator the last. *)
Theorem C50_same_definition_refuted :
  ~ forall g tg ag id rt, graph_wf g -> trace g = Done tg -> aggregate tg = Done ag ->
      oget id (ag_requirements ag) = Some rt -> first_of g id = Some (rt_requirement rt).
Proof.
  intros H.
  assert (HT : exists tg, trace dup_dangling = Done tg) by (vm_compute; eexists; reflexivity).
  destruct HT as [tg HT].
  assert (HA : exists ag rt, aggregate tg = Done ag /\ oget (L "X") (ag_requirements ag) = Some rt /\
             req_covers (rt_requirement rt) = [rref "MISSING" None 2]).
  { vm_compute in HT. inversion HT. vm_compute. do 2 eexists. repeat split. }
  destruct HA as (ag & rt & HA & Hrt & Hc).
  specialize (H _ tg ag _ rt dup_dangling_wf HT HA Hrt).
  assert (HF : option_map req_covers (first_of dup_dangling (L "X")) = Some [rref "R" None 2])
    by (vm_compute; reflexivity).
  rewrite H in HF. cbn [option_map] in HF. rewrite Hc in HF. vm_compute in HF. discriminate.
Qed.
Print Assumptions C50_same_definition_refuted.

Example C50_example : exists ag rt, aggregate sample_traced = Done ag /\
  oget (L "S3") (ag_requirements ag) = Some rt /\ art_id (rt_artefact rt) = L "C".
Proof. vm_compute. do 2 eexists. repeat split. Qed.
