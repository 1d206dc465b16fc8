(** C94: artefacts may be stored in other forms.
    Vocabulary: SameSpec.v, SameCtlSpec.v, CtlSpec.v, RoundSpec.v ([exportable]); models: Tracer.v, Controller.v, Formatters.v,
    MdParser.v, Serialize.v. *)
From Verif Require Import Base OMap Models Unicode Utf8 Paths MdParser Show Sort Tracer TraceSpec Serialize MdFmt Formatters
  RustParser Controller CtlSpec CtlExamples FmtCor RoundSpec SameSpec Same SameCtlSpec SameCtl.
Open Scope N_scope.

(** C94: tracing looks at ids, titles, references, relations and the options of artefacts only. *)
Theorem C94_same_graph : forall g h, graph_wf g -> graph_wf h -> same_facts g h ->
  match trace g, trace h with
  | Done s, Done t => same_findings s t
  | Panic, Panic => True
  | _, _ => False
  end.
Proof. exact same_trace. Qed.
Print Assumptions C94_same_graph.

(** Projects whose files say the same have the same findings, and the same jobs succeed. *)
Theorem C94_same_project : forall {U : UnicodeTables} {D : Debug} {I : Inputs} cf cf' base,
  same_project base cf cf' ->
  match controller_new cf base, controller_new cf' base with
  | Done c, Done c' => same_findings (ctl_traced c) (ctl_traced c') /\ forall q, clean c q <-> clean c' q
  | Panic, Panic => True
  | _, _ => False
  end.
Proof. intros U D I cf cf' base. exact (same_controller cf cf' base). Qed.
Print Assumptions C94_same_project.

(** An artefact can be replaced by its Markdown export. *)
Theorem C94_markdown : forall {U : UnicodeTables} {D : Debug} {I : Inputs} {US : UnstableSort} {CT : CaseTables} {J : JsonText}
    cf base pre ac post c c0 file text,
  cf_artefacts cf = pre ++ ac :: post -> controller_new cf base = Done c ->
  controller_new (alone ac) base = Done c0 -> clean c0 QParse -> Forall exportable (all_reqs (ctl_graph c0)) ->
  fmt_requirements (ctl_graph c0) Markdown = Done text -> forallb scalar text = true ->
  in_open (path_join base file) = inl (mkReader (encode text) None) ->
  exists c', controller_new (with_artefacts cf (pre ++ moved ac PMarkdown file :: post)) base = Done c' /\
    same_findings (ctl_traced c) (ctl_traced c') /\ forall q, clean c q <-> clean c' q.
Proof. intros U D I US CT J. exact markdown_form. Qed.
Print Assumptions C94_markdown.

(** Or by a JSON file with the array of its requirements. *)
Theorem C94_json : forall {U : UnicodeTables} {D : Debug} {I : Inputs} cf base pre ac post c c0 file r,
  cf_artefacts cf = pre ++ ac :: post -> controller_new cf base = Done c ->
  controller_new (alone ac) base = Done c0 -> clean c0 QParse -> Forall fits (all_reqs (ctl_graph c0)) ->
  in_open (path_join base file) = inl r -> in_json r = Some (JArr (map json_requirement (all_reqs (ctl_graph c0)))) ->
  exists c', controller_new (with_artefacts cf (pre ++ moved ac PJson file :: post)) base = Done c' /\
    same_findings (ctl_traced c) (ctl_traced c') /\ forall q, clean c q <-> clean c' q.
Proof. intros U D I. exact json_form. Qed.
Print Assumptions C94_json.

#[local] Existing Instance ascii_tables.
#[local] Existing Instance ascii_case.
#[local] Existing Instance sample_debug.
#[local] Existing Instance sample_json.
#[local] Existing Instance stable_is_unstable.

(** A JSON artefact B with one requirement, and its other forms. *)
Definition low (id : string) : requirement :=
  mkRequirement (L id) (Some (L "Low")) (mkLocation (L "b.json") (Some (LocString (L "1st"))))
    [mkReference (L "TOP_A") None (mkLocation (L "b.json") None)] [] [L "tag"] [(L "Comment", L "see there")].
Definition forms (id : string) : Inputs := {|
  in_open := fun p =>
    if eqb p (L "/p/a.md") then inl (mkReader (L "# TOP_A: Top
") None)
    else if eqb p (L "/p/b.md") then inl (mkReader (encode (md_requirement (low id))) None)
    else inl (mkReader (L "JSON") None);
  in_glob := fun _ => inl [];
  in_syn := fun _ => inl (NOther []);
  in_debug_tokens := fun _ => [];
  in_json := fun _ => Some (JArr [json_requirement (low id)]);
  in_json_error := fun _ => L "no JSON"
|}.
Definition ac_a := mkArtefactConfig (L "A") [L "a.md"] PMarkdown None None.
Definition ac_b := mkArtefactConfig (L "B") [L "b.json"] PJson None None.
Definition ab_project := mkConfig None [ac_a; ac_b] [mkRelation (L "A") [L "B"]] None None.
Definition result_of (o : outcome controller) : option (list (list coverage) * list (list requirement_id) * nat) :=
  match o with
  | Done c => Some (map tr_covered (tg_relations (ctl_traced c)), map tr_uncovered (tg_relations (ctl_traced c)), length (tg_errors (ctl_traced c)))
  | Panic => None
  end.

Lemma low_exportable : exportable (low "LOW_A").
Proof.
  assert (HI : forall c w, xid_start c = true -> w <> [] -> forallb xid_continue w = true -> good_id (c :: w))
    by (intros c w; exists c, w; auto).
  split; [apply HI; [reflexivity|discriminate|reflexivity]|].
  split; [eexists; split; [reflexivity|]; split; [vm_compute; split; reflexivity|vm_compute; intuition discriminate]|].
  split; [constructor; [|constructor]; split; [apply HI; [reflexivity|discriminate|reflexivity]|exact Logic.I]|].
  split; [constructor|]. split; [split; vm_compute; intuition discriminate|]. split; [repeat constructor|].
  constructor; [|constructor]. unfold good_attribute. cbn [fst snd low req_attributes]. 
  change (eqb (L "Comment") (L "Description")) with false. cbn [andb].
  split; [exists 67, (L "omment"); repeat split; [discriminate]|]. split; [discriminate|]. split; [discriminate|].
  split; [discriminate|]. intros l Hl. vm_compute in Hl. destruct Hl as [<-|[]]. split; vm_compute; reflexivity.
Qed.

Example C94_example :
  (exists c0 text, controller_new (I := forms "LOW_A") (alone ac_b) (L "/p") = Done c0 /\ clean c0 QParse /\
     Forall exportable (all_reqs (ctl_graph c0)) /\ Forall fits (all_reqs (ctl_graph c0)) /\
     fmt_requirements (ctl_graph c0) Markdown = Done text /\ forallb scalar text = true /\
     in_open (Inputs := forms "LOW_A") (path_join (L "/p") (L "b.md")) = inl (mkReader (encode text) None) /\
     in_json (Inputs := forms "LOW_A") (mkReader (L "JSON") None) = Some (JArr (map json_requirement (all_reqs (ctl_graph c0))))) /\
  result_of (controller_new (I := forms "LOW_A") ab_project (L "/p")) =
    Some ([[mkCoverage (L "TOP_A") (L "LOW_A") (mkLocation (L "b.json") None) Upwards]], [[]], 0%nat) /\
  result_of (controller_new (I := forms "LOW_A") (with_artefacts ab_project [ac_a; moved ac_b PMarkdown (L "b.md")]) (L "/p")) =
    Some ([[mkCoverage (L "TOP_A") (L "LOW_A") (mkLocation (L "/p/b.md") (Some (Line 7))) Upwards]], [[]], 0%nat) /\
  result_of (controller_new (I := forms "LOW_A") (with_artefacts ab_project [ac_a; moved ac_b PJson (L "c.json")]) (L "/p")) =
    Some ([[mkCoverage (L "TOP_A") (L "LOW_A") (mkLocation (L "b.json") None) Upwards]], [[]], 0%nat).
Proof.
  split; [|split; [|split]; vm_compute; reflexivity].
  eexists; eexists. split; [vm_compute; reflexivity|]. split; [intros a [<-|[]]; reflexivity|].
  split; [constructor; [exact low_exportable|constructor]|].
  split; [constructor; [|constructor]; repeat split; repeat constructor|].
  split; [vm_compute; reflexivity|]. repeat split; vm_compute; reflexivity.
Qed.

(** Other ids than those of the Markdown parser get lost in the export. *)
Theorem C94_any_id_refuted :
  ~ (forall {U : UnicodeTables} {D : Debug} {I : Inputs} {US : UnstableSort} {CT : CaseTables} {J : JsonText}
       cf base pre ac post c c0 file text,
     cf_artefacts cf = pre ++ ac :: post -> controller_new cf base = Done c ->
     controller_new (alone ac) base = Done c0 -> clean c0 QParse ->
     fmt_requirements (ctl_graph c0) Markdown = Done text -> forallb scalar text = true ->
     in_open (path_join base file) = inl (mkReader (encode text) None) ->
     exists c', controller_new (with_artefacts cf (pre ++ moved ac PMarkdown file :: post)) base = Done c' /\
       same_findings (ctl_traced c) (ctl_traced c')).
Proof.
  intros H.
  specialize (H ascii_tables sample_debug (forms "LOW-A") stable_is_unstable ascii_case sample_json ab_project (L "/p") [ac_a] ac_b []).
  destruct (controller_new (I := forms "LOW-A") ab_project (L "/p")) as [c|] eqn:E1; [|vm_compute in E1; discriminate].
  destruct (controller_new (I := forms "LOW-A") (alone ac_b) (L "/p")) as [c0|] eqn:E2; [|vm_compute in E2; discriminate].
  specialize (H c c0 (L "b.md") (md_requirement (low "LOW-A"))).
  vm_compute in E1. injection E1 as <-. vm_compute in E2. injection E2 as <-.
  destruct H as (c' & E3 & F & _).
  - reflexivity.
  - reflexivity.
  - reflexivity.
  - intros a [<-|[]]. reflexivity.
  - vm_compute. reflexivity.
  - vm_compute. reflexivity.
  - vm_compute. reflexivity.
  - vm_compute in E3. injection E3 as <-. cbn [ctl_traced tg_relations] in F. inversion F as [|? ? ? ? (_ & _ & X)]. discriminate X.
Qed.
Print Assumptions C94_any_id_refuted.
