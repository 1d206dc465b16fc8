(** Properties C01 - C13: tracing.  Vocabulary: TraceSpec.v; model: Tracer.v. *)
From Verif Require Import Base OMap Models Tracer TraceSpec TraceFacts TraceCor TraceExamples.
From Coq Require Import Permutation.

(** C01 *)
Theorem C01_coverage_is_links : forall g tg tr c,
  graph_wf g -> trace g = Done tg -> In tr (tg_relations tg) ->
  In (tr_relation tr) (g_relations g) /\
  (In c (tr_covered tr) <-> exists l, is_link g (tr_relation tr) l /\ link_coverage l = c).
Proof. intros g tg tr c WF TR. exact (coverage_exact g WF tg TR tr c). Qed.
Print Assumptions C01_coverage_is_links.

Theorem C01_coverage_order : forall g tg,
  graph_wf g -> trace g = Done tg ->
  map tr_covered (tg_relations tg) = map (fun rel => map link_coverage (links g rel)) (g_relations g).
Proof. intros g tg WF. exact (coverage_list g WF tg). Qed.
Print Assumptions C01_coverage_order.

Theorem C01_links_complete : forall g rel l, In l (links g rel) <-> is_link g rel l.
Proof. exact in_links. Qed.
Print Assumptions C01_links_complete.

Example C01_example :
  map tr_covered (tg_relations sample_traced) =
  [[mkCoverage (L "R1") (L "S1") (at_line 2) Downwards;
    mkCoverage (L "R1") (L "S1") (at_line 2) Upwards;
    mkCoverage (L "R2") (L "S2") (at_line 6) Upwards]; []].
Proof. vm_compute. reflexivity. Qed.

(** C02 *)
Theorem C02_uncovered_exact : forall g tg tr,
  graph_wf g -> trace g = Done tg -> In tr (tg_relations tg) ->
  ssorted (tr_uncovered tr) /\
  forall id, In id (tr_uncovered tr) <->
    In id (map req_id (reqs_of g (rel_upper (tr_relation tr)))) /\
    ~ exists c, In c (tr_covered tr) /\ cov_upper c = id.
Proof. intros g tg tr WF TR. exact (uncovered_exact g WF tg TR tr). Qed.
Print Assumptions C02_uncovered_exact.

Example C02_example :
  map tr_uncovered (tg_relations sample_traced) = [[L "R3"]; [L "R1"; L "R2"; L "R3"]].
Proof. vm_compute. reflexivity. Qed.

(** C03 *)
Theorem C03_derived_exact : forall g tg k a,
  graph_wf g -> trace g = Done tg -> oget k (g_artefacts g) = Some a ->
  exists d, oget k (tg_derived tg) = Some d /\ ssorted d /\
    forall id, In id d <->
      art_ignore_derived a = false /\
      exists r, In r (first_defs g k) /\ req_id r = id /\ ~ covers_something g k r.
Proof. intros g tg k a WF TR. exact (derived_exact g WF tg TR k a). Qed.
Print Assumptions C03_derived_exact.

Example C03_example :
  tg_derived sample_traced = [(L "A", []); (L "B", [L "S3"]); (L "C", [L "T1"])].
Proof. vm_compute. reflexivity. Qed.

(** C04 *)
Theorem C04_covers_unknown_exact : forall g tg,
  graph_wf g -> trace g = Done tg ->
  (forall low u loc,
     In (ECoversUnknownRequirement low u loc) (tg_errors tg) <->
     dangling_covers g u (req_id low) /\ first_of g (req_id low) = Some low /\
     first_location u (req_covers low) = Some loc) /\
  NoDup (filter is_covers_unknown (tg_errors tg)).
Proof. intros g tg WF. exact (covers_unknown_exact g WF tg). Qed.
Print Assumptions C04_covers_unknown_exact.

Theorem C04_depends_unknown_exact : forall g tg,
  graph_wf g -> trace g = Done tg ->
  (forall up l loc,
     In (EDependOnUnknownRequirement up l loc) (tg_errors tg) <->
     dangling_depends g (req_id up) l /\ first_of g (req_id up) = Some up /\
     first_location l (req_depends up) = Some loc) /\
  NoDup (filter is_depends_unknown (tg_errors tg)).
Proof. intros g tg WF. exact (depends_unknown_exact g WF tg). Qed.
Print Assumptions C04_depends_unknown_exact.

Example C04_example :
  map (fun e => match e with
                | ECoversUnknownRequirement r id loc => Some (true, req_id r, id, loc)
                | EDependOnUnknownRequirement r id loc => Some (false, req_id r, id, loc)
                | _ => None
                end)
      (filter (fun e => is_covers_unknown e || is_depends_unknown e) (tg_errors sample_traced)) =
  [Some (true, L "S2", L "GONE", at_line 7); Some (false, L "R2", L "NOPE", at_line 6)].
Proof. vm_compute. reflexivity. Qed.

(** C05 *)
Theorem C05_wrong_title_exact : forall g tg,
  graph_wf g -> trace g = Done tg ->
  filter is_wrong_title (tg_errors tg) =
  flat_map (fun rel => flat_map wrong_title_errors (links g rel)) (g_relations g).
Proof. intros g tg WF. exact (errors_wrong_title g WF tg). Qed.
Print Assumptions C05_wrong_title_exact.

Example C05_example : length (filter is_wrong_title (tg_errors sample_traced)) = 1%nat.
Proof. vm_compute. reflexivity. Qed.

(** C06 *)
Theorem C06_missing_title_exact : forall g tg,
  graph_wf g -> trace g = Done tg ->
  filter is_missing_title (tg_errors tg) =
  flat_map (fun rel => flat_map (missing_title_errors g rel) (links g rel)) (g_relations g).
Proof. intros g tg WF. exact (errors_missing_title g WF tg). Qed.
Print Assumptions C06_missing_title_exact.

Example C06_example : length (filter is_missing_title (tg_errors sample_traced)) = 1%nat.
Proof. vm_compute. reflexivity. Qed.

(** C07 *)
Theorem C07_duplicates_exact : forall g tg,
  graph_wf g -> trace g = Done tg ->
  filter is_dup (tg_errors tg) = dup_errors g.
Proof. intros g tg WF. exact (errors_dup g WF tg). Qed.
Print Assumptions C07_duplicates_exact.

Theorem C07_first_definition : forall g id r,
  graph_wf g ->
  (first_of g id = Some r <->
   req_id r = id /\ exists k a, In (k, a) (g_artefacts g) /\ In r (first_defs g k)).
Proof. intros g id r WF. exact (first_of_spec g WF id r). Qed.
Print Assumptions C07_first_definition.

(** The lower requirement of a coverage is always a first definition, in a lower artefact of the
    relation ... *)
Theorem C07_lower_is_first : forall g tg tr c,
  graph_wf g -> trace g = Done tg -> In tr (tg_relations tg) -> In c (tr_covered tr) ->
  exists la low, In la (rel_lower (tr_relation tr)) /\ In low (reqs_of g la) /\
    first_of g (cov_lower c) = Some low /\ defined_before g la (cov_lower c) = false.
Proof. intros g tg tr c WF TR. exact (coverage_first g WF tg TR tr c). Qed.
Print Assumptions C07_lower_is_first.

(** ... and so is the lower requirement of a wrong title ... *)
Theorem C07_titles_of_first : forall g tg e low,
  graph_wf g -> trace g = Done tg -> In e (tg_errors tg) ->
  (exists up t loc, e = EDependWithWrongTitle up low t loc \/ e = ECoveredWithWrongTitle up low t loc) ->
  first_of g (req_id low) = Some low.
Proof. intros g tg e low WF TR. exact (wrong_title_first g WF tg TR e low). Qed.
Print Assumptions C07_titles_of_first.

(** ... but a `covers` reference can be resolved to a later definition: here it is compared with
    the title of the second one and reported, although it gives the title of the first one. *)
Theorem C07_covers_to_first_refuted :
  ~ forall g tg up low t loc,
      graph_wf g -> trace g = Done tg -> In (ECoveredWithWrongTitle up low t loc) (tg_errors tg) ->
      first_of g (req_id up) = Some up.
Proof.
  intros H.
  assert (E : exists tg up low t loc, trace dup_upper = Done tg /\
            In (ECoveredWithWrongTitle up low t loc) (tg_errors tg) /\
            option_map req_location (first_of dup_upper (req_id up)) <> Some (req_location up)).
  { do 5 eexists. split; [vm_compute; reflexivity|]. split; [right; left; reflexivity|]. vm_compute. discriminate. }
  destruct E as (tg & up & low & t & loc & E1 & E2 & E3).
  rewrite (H dup_upper tg up low t loc dup_upper_wf E1 E2) in E3. apply E3. reflexivity.
Qed.
Print Assumptions C07_covers_to_first_refuted.

Example C07_lower_example :
  match trace dup_lower with
  | Done tg => map (fun tr => map cov_lower (tr_covered tr)) (tg_relations tg) = [[L "X"]; []] /\
      length (filter is_wrong_title (tg_errors tg)) = 1%nat
  | Panic => False
  end.
Proof. vm_compute. split; reflexivity. Qed.

Example C07_example :
  map (fun e => match e with EDuplicateRequirement a b => Some (req_location a, req_location b)
                        | _ => None end)
      (filter is_dup (tg_errors sample_traced)) = [Some (at_line 9, at_line 1)].
Proof. vm_compute. reflexivity. Qed.

(** C08 *)
Theorem C08_unused_exact : forall g tg,
  graph_wf g -> trace g = Done tg ->
  filter is_unused (tg_errors tg) =
  map EUnusedRelation (filter (fun rel => is_nil (links g rel)) (g_relations g)).
Proof. intros g tg WF. exact (errors_unused g WF tg). Qed.
Print Assumptions C08_unused_exact.

Theorem C08_unused_count : forall g tg rel,
  graph_wf g -> trace g = Done tg ->
  length (filter (fun e => match e with EUnusedRelation r => eqb r rel | _ => false end) (tg_errors tg)) =
  (if is_nil (links g rel) then count_occ relation_eq_dec (g_relations g) rel else 0)%nat.
Proof. intros g tg rel WF TR. exact (unused_count g WF tg TR rel). Qed.
Print Assumptions C08_unused_count.

Example C08_example : filter is_unused (tg_errors sample_traced) = [EUnusedRelation AC].
Proof. vm_compute. reflexivity. Qed.

(** C05 - C08: there are no other tracing errors. *)
Theorem C08_errors_classified : forall g tg e,
  graph_wf g -> trace g = Done tg -> In e (tg_errors tg) ->
  is_dup e || is_wrong_title e || is_missing_title e || is_unused e ||
  is_covers_unknown e || is_depends_unknown e = true.
Proof. intros g tg e WF TR. exact (errors_classified g WF tg TR e). Qed.
Print Assumptions C08_errors_classified.

(** C09 *)
Theorem C09_panic_exact : forall g,
  graph_wf g ->
  ((exists tg, trace g = Done tg) <-> (forall rel, In rel (g_relations g) -> relation_ok g rel)).
Proof. exact trace_total_iff. Qed.
Print Assumptions C09_panic_exact.

Example C09_example : trace (rgraph [upper_art] [AB]) = Panic.
Proof. vm_compute. reflexivity. Qed.
Example C09_example_empty_upper : exists tg, trace (rgraph [rart "A" true true []] [AB]) = Done tg.
Proof. vm_compute. eexists. reflexivity. Qed.

(** C10 *)
Theorem C10_relation_order : forall arts rels rels' tg,
  graph_wf (mkGraph arts rels) -> Permutation rels rels' ->
  trace (mkGraph arts rels) = Done tg ->
  exists tg', trace (mkGraph arts rels') = Done tg' /\
    tg_artefacts tg' = tg_artefacts tg /\
    tg_derived tg' = tg_derived tg /\
    map tr_relation (tg_relations tg') = rels' /\
    Permutation (tg_relations tg) (tg_relations tg') /\
    Permutation (tg_errors tg) (tg_errors tg').
Proof. exact trace_permutation. Qed.
Print Assumptions C10_relation_order.

Example C10_example : exists tg, trace (mkGraph (g_artefacts sample) [AC; AB]) = Done tg /\
  map tr_relation (tg_relations tg) = [AC; AB].
Proof. vm_compute. eexists. split; reflexivity. Qed.

(** C11 *)
Theorem C11_structure : forall g tg,
  graph_wf g -> trace g = Done tg ->
  tg_artefacts tg = g_artefacts g /\
  map tr_relation (tg_relations tg) = g_relations g /\
  okeys (tg_derived tg) = okeys (g_artefacts g).
Proof.
  intros g tg WF TR. destruct (trace_done g WF tg TR) as (pc & pd & A1 & A2 & (_ & A4 & _) & _).
  rewrite A2, map_map. cbn. rewrite map_id. auto.
Qed.
Print Assumptions C11_structure.

Example C11_example : map tr_relation (tg_relations sample_traced) = [AB; AC].
Proof. vm_compute. reflexivity. Qed.

(** C12 *)
Theorem C12_more_relations : forall arts rels1 rel rels2 tg tg',
  graph_wf (mkGraph arts (rels1 ++ rels2)) ->
  trace (mkGraph arts (rels1 ++ rels2)) = Done tg -> trace (mkGraph arts (rels1 ++ rel :: rels2)) = Done tg' ->
  (exists trs1 tr trs2, tg_relations tg = trs1 ++ trs2 /\ tg_relations tg' = trs1 ++ tr :: trs2 /\
     map tr_relation trs1 = rels1 /\ tr_relation tr = rel) /\
  (forall k d d' id, oget k (tg_derived tg) = Some d -> oget k (tg_derived tg') = Some d' ->
                     In id d' -> In id d) /\
  (forall e, In e (tg_errors tg') -> unknown_reference e = true -> In e (tg_errors tg)) /\
  (exists es1 es es2, filter (fun e => negb (unknown_reference e)) (tg_errors tg) = es1 ++ es2 /\
     filter (fun e => negb (unknown_reference e)) (tg_errors tg') = es1 ++ es ++ es2).
Proof. exact trace_add_relation. Qed.
Print Assumptions C12_more_relations.

Example C12_example :
  exists tg tg', trace (mkGraph (g_artefacts sample) ([] ++ [])) = Done tg /\
                 trace (mkGraph (g_artefacts sample) ([] ++ AB :: [])) = Done tg' /\
                 oget (L "B") (tg_derived tg) = Some [L "S1"; L "S2"; L "S3"] /\
                 oget (L "B") (tg_derived tg') = Some [L "S3"].
Proof. vm_compute. do 2 eexists. repeat split; reflexivity. Qed.

(** C13: with unique ids every reference is accounted for. *)
Theorem C13_covers_checked : forall g tg k r c,
  graph_wf g -> trace g = Done tg -> unique_ids g -> In r (reqs_of g k) -> In c (req_covers r) ->
  (exists tr, In tr (tg_relations tg) /\
     In (mkCoverage (ref_id c) (req_id r) (ref_location c) Upwards) (tr_covered tr)) \/
  (exists loc, In (ECoversUnknownRequirement r (ref_id c) loc) (tg_errors tg) /\
               first_location (ref_id c) (req_covers r) = Some loc).
Proof. intros g tg k r c WF TR. exact (covers_checked g WF tg TR k r c). Qed.
Print Assumptions C13_covers_checked.

Theorem C13_depends_checked : forall g tg k r d,
  graph_wf g -> trace g = Done tg -> unique_ids g -> In r (reqs_of g k) -> In d (req_depends r) ->
  (exists tr, In tr (tg_relations tg) /\
     In (mkCoverage (req_id r) (ref_id d) (ref_location d) Downwards) (tr_covered tr)) \/
  (exists loc, In (EDependOnUnknownRequirement r (ref_id d) loc) (tg_errors tg) /\
               first_location (ref_id d) (req_depends r) = Some loc).
Proof. intros g tg k r d WF TR. exact (depends_checked g WF tg TR k r d). Qed.
Print Assumptions C13_depends_checked.

Definition all_references_checked : Prop := forall g tg k r c,
  graph_wf g -> trace g = Done tg -> In r (reqs_of g k) -> In c (req_covers r) ->
  (exists tr cov, In tr (tg_relations tg) /\ In cov (tr_covered tr) /\
                  cov_upper cov = ref_id c /\ cov_lower cov = req_id r) \/
  (exists loc, In (ECoversUnknownRequirement r (ref_id c) loc) (tg_errors tg)).

(** The second definition's dangling reference is never reported. *)
Theorem C13_all_references_checked_refuted : ~ all_references_checked.
Proof.
  intros H.
  assert (HT : exists tg, trace dup_dangling = Done tg) by (vm_compute; eexists; reflexivity).
  destruct HT as [tg HT].
  specialize (H dup_dangling tg (L "C") (rreq "X" None 1 [rref "MISSING" None 2] [])
                (rref "MISSING" None 2) dup_dangling_wf HT).
  vm_compute in HT. inversion HT; subst tg. clear HT.
  destruct H as [(tr & cov & Htr & Hcov & Hu & _)|(loc & Hin)].
  - vm_compute. left. reflexivity.
  - vm_compute. left. reflexivity.
  - cbn in Htr. destruct Htr as [<-|[<-|[]]]; cbn in Hcov.
    + destruct Hcov as [<-|[]]. vm_compute in Hu. discriminate.
    + destruct Hcov.
  - cbn in Hin. repeat (destruct Hin as [Hin|Hin]; [discriminate|]). destruct Hin.
Qed.
Print Assumptions C13_all_references_checked_refuted.

(** The dangling reference of the first definition of "R" is masked by the second one. *)
Definition first_references_checked : Prop := forall g tg rel r d,
  graph_wf g -> trace g = Done tg -> first_of g (req_id r) = Some r -> In d (req_depends r) ->
  (forall k, In r (first_defs g k) -> rel_upper rel <> k) ->
  g_relations g = [rel] ->
  exists loc, In (EDependOnUnknownRequirement r (ref_id d) loc) (tg_errors tg).

Theorem C13_masked_dangling_refuted : ~ first_references_checked.
Proof.
  intros H.
  assert (HT : exists tg, trace dup_masked = Done tg) by (vm_compute; eexists; reflexivity).
  destruct HT as [tg HT].
  specialize (H dup_masked tg (mkRelation (L "A2") [L "B"]) (rreq "R" None 1 [] [rref "S" None 2])
                (rref "S" None 2) dup_masked_wf HT).
  destruct H as (loc & Hin).
  - vm_compute. reflexivity.
  - left. reflexivity.
  - intros k Hk He. cbn in He. subst k. vm_compute in Hk. exact Hk.
  - reflexivity.
  - vm_compute in HT. inversion HT; subst tg. cbn in Hin.
    repeat (destruct Hin as [Hin|Hin]; [discriminate|]). destruct Hin.
Qed.
Print Assumptions C13_masked_dangling_refuted.

Example C13_example_unique : unique_ids (rgraph [upper_art; lower_art] [AB]).
Proof.
  unfold unique_ids. vm_compute.
  repeat (constructor; [cbn; intuition discriminate|]). constructor.
Qed.
