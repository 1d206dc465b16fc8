(** C95: the report of a job says whether the job succeeds.
    Vocabulary: AgreeSpec.v, GnuReadSpec.v, OutlineSpec.v, JsonGrammar.v, JsonSpec.v, CtlSpec.v; models: Controller.v, Formatters.v,
    GnuErr.v, MdFmt.v, Serialize.v, SerdeJson.v, Tags.v. *)
From Verif Require Import Base OMap Models Unicode Utf8 Paths Location Show Sort Tracer TraceSpec
  GnuErr MdFmt Formatters Serialize FmtSpec MdParser RustParser Controller CtlSpec CtlFacts JobFacts CtlExamples
  SerdeJson JsonGrammar SerdeFacts GnuReadSpec OutlineSpec JsonSpec AgreeSpec Agree.
Open Scope N_scope.

(** C95: a trace job succeeds exactly if the GNU report has no messages. *)
Theorem C95_gnu : forall {U : UnicodeTables} {I : Inputs} {O : Outputs} {D : Debug} {US : UnstableSort} {CT : CaseTables} {J : JsonText}
    cf base c j h h' s text,
  controller_new cf base = Done c -> debug_one_line -> readable (ctl_graph c) ->
  job_query j = QTrace -> job_format j = GnuError -> run c j h = (h', ROkay s) -> wrote h h' text ->
  (s = Success <-> gnu_silent text).
Proof.
  intros U I O D US CT J cf base c j h h' s text HC. exact (gnu_agrees c j h h' s text (controller_well_made cf base c HC)).
Qed.
Print Assumptions C95_gnu.

(** Exactly if the Markdown report has no other headline than "Requirements". *)
Theorem C95_markdown : forall {U : UnicodeTables} {I : Inputs} {O : Outputs} {D : Debug} {US : UnstableSort} {CT : CaseTables} {J : JsonText}
    cf base c j h h' s text,
  controller_new cf base = Done c -> unique_ids (ctl_graph c) -> plain_texts (ctl_graph c) ->
  job_query j = QTrace -> job_format j = Markdown -> run c j h = (h', ROkay s) -> wrote h h' text ->
  (s = Success <-> trace_page_silent text).
Proof.
  intros U I O D US CT J cf base c j h h' s text HC. exact (page_agrees c j h h' s text (controller_well_made cf base c HC)).
Qed.
Print Assumptions C95_markdown.

(** Exactly if the lists of the JSON report are empty. *)
Theorem C95_json : forall {U : UnicodeTables} {I : Inputs} {O : Outputs} {D : Debug} {US : UnstableSort} {CT : CaseTables}
    c j h h' s text,
  job_query j = QTrace -> job_format j = Json -> run (J := serde_json) c j h = (h', ROkay s) -> wrote h h' text ->
  exists b, json_answer trace_value_silent text b /\ (s = Success <-> b = true).
Proof. intros U I O D US CT. exact json_agrees. Qed.
Print Assumptions C95_json.

(** Exports of requirements: no headline, an empty list of errors. *)
Theorem C95_export_markdown : forall {U : UnicodeTables} {I : Inputs} {O : Outputs} {D : Debug} {US : UnstableSort} {CT : CaseTables} {J : JsonText}
    cf base c j h h' s text,
  controller_new cf base = Done c -> plain_texts (ctl_graph c) ->
  job_query j = QParse -> job_format j = Markdown -> run c j h = (h', ROkay s) -> wrote h h' text ->
  (s = Success <-> export_page_silent text).
Proof.
  intros U I O D US CT J cf base c j h h' s text HC. exact (export_page_agrees c j h h' s text (controller_well_made cf base c HC)).
Qed.
Print Assumptions C95_export_markdown.

Theorem C95_export_json : forall {U : UnicodeTables} {I : Inputs} {O : Outputs} {D : Debug} {US : UnstableSort} {CT : CaseTables}
    c j h h' s text,
  job_query j = QParse -> job_format j = Json -> run (J := serde_json) c j h = (h', ROkay s) -> wrote h h' text ->
  exists b, json_answer export_value_silent text b /\ (s = Success <-> b = true).
Proof. intros U I O D US CT. exact export_json_agrees. Qed.
Print Assumptions C95_export_json.

#[local] Existing Instance ascii_tables.
#[local] Existing Instance ascii_case.
#[local] Existing Instance stable_is_unstable.
#[local] Existing Instance sample_inputs.
#[local] Existing Instance sample_outputs.
Definition flat_debug : Debug := {| debug_str := fun s => filter (fun c => negb (c =? NL)) s; debug_error := fun _ => L "error" |}.
#[local] Existing Instance flat_debug.
#[local] Existing Instance serde_json.

Lemma flat_debug_ok : @debug_one_line flat_debug.
Proof.
  split; cbn.
  - intros s H. apply filter_In in H. destruct H as [_ H]. discriminate.
  - intros e H. vm_compute in H. repeat (destruct H as [H|H]; [discriminate|]). exact H.
Qed.

(** What the five jobs say for a project: results, and what is read from their reports. *)
Definition report_of (c : controller) (q : query) (f : format) : option (job_success * str) :=
  match run c (mkJob q f (L "-") None) [] with
  | ([EvWrite Stdout t None], ROkay s) => Some (s, t)
  | _ => None
  end.
Definition read_gnu (t : str) : list entry :=
  filter (fun e => match e with At _ _ => true | Head _ => false end) (map read_line (removelast (split_on NL t))).
Definition headlines (t : str) : list str := map snd (filter (fun e => Nat.eqb (fst e) 1) (outline t)).
Definition answer (q : json -> option bool) (t : str) : option bool := match read_json t with Some v => q v | None => None end.
Definition reading {A} (f : str -> A) (o : option (job_success * str)) : option (job_success * A) :=
  match o with Some (s, t) => Some (s, f t) | None => None end.
Definition readings (cf : config) :=
  match controller_new cf (L "/p") with
  | Done c => Some (reading read_gnu (report_of c QTrace GnuError), reading headlines (report_of c QTrace Markdown),
                    reading (answer trace_value_silent) (report_of c QTrace Json),
                    reading headlines (report_of c QParse Markdown), reading (answer export_value_silent) (report_of c QParse Json))
  | Panic => None
  end.

Example C95_example :
  readings good_config = Some
    (Some (Success, []), Some (Success, [L "Requirements"]), Some (Success, Some true), Some (Success, []), Some (Success, Some true)) /\
  readings (sample_config [a_config; b_config; md_artefact_config "C" "none.md" None] [mkRelation (L "B") [L "A"]]) = Some
    (Some (ErrorsDetected, [At (L "/p/none.md") (L "IO Error: No such file"); At (L "Error in config file") (L "error");
                            At (L "/p/b.md:3") (L "REQ_B Covers unknown requirement REQ_A");
                            At (L "/p/b.md:1") (L "REQ_B Uncovered"); At (L "/p/a.md:1") (L "REQ_A Derived")]),
     Some (ErrorsDetected, [L "Input Errors"; L "Tracing Errors"; L "Uncovered Requirements"; L "Derived Requirements"; L "Requirements"]),
     Some (ErrorsDetected, Some false), Some (ErrorsDetected, [L "Input Errors"]), Some (ErrorsDetected, Some false)).
Proof. vm_compute. split; reflexivity. Qed.

Ltac texts := intros X; vm_compute in X; repeat (destruct X as [X|X]; [discriminate|]); exact X.
Ltac ok := repeat first [apply conj | apply Forall_cons | apply Forall_nil | exact I | discriminate | reflexivity | texts].

(** The premises hold for the first of these projects. *)
Example C95_premises : exists c, controller_new good_config (L "/p") = Done c /\ @debug_one_line flat_debug /\
  readable (ctl_graph c) /\ unique_ids (ctl_graph c) /\ plain_texts (ctl_graph c).
Proof.
  eexists. split; [vm_compute; reflexivity|]. split; [exact flat_debug_ok|]. split; [|split].
  - split; [|split; [|split]].
    + intros r [<-|[<-|[]]]; unfold requirement_ok, location_ok, file_ok, reference_ok, one_line; ok.
    + intros e [].
    + intros rel [<-|[]]. unfold one_line. ok.
    + intros k [<-|[<-|[]]]; texts.
  - repeat constructor; intros X; repeat (destruct X as [X|X]; [discriminate|]); exact X.
  - split; [|split; [|split]].
    + intros r [<-|[<-|[]]]; (split; [unfold requirement_line, title_line, location_line, reference_line, one_line; ok|intros k v []]).
    + intros e [].
    + intros rel [<-|[]]. unfold relation_line, one_line. ok.
    + intros k [<-|[<-|[]]]; texts.
Qed.

(** Tags tell nothing about errors. *)
Theorem C95_tags_refuted :
  ~ (exists silent : str -> Prop,
     forall (U : UnicodeTables) (I : Inputs) (O : Outputs) (D : Debug) (US : UnstableSort) (CT : CaseTables) (J : JsonText)
       cf base c j h h' s text,
     controller_new cf base = Done c -> job_query j = QParse -> job_format j = Tags -> run c j h = (h', ROkay s) -> wrote h h' text ->
     (s = Success <-> silent text)).
Proof.
  intros (silent & H).
  specialize (H ascii_tables sample_inputs sample_outputs flat_debug stable_is_unstable ascii_case serde_json).
  assert (H1 : forall acs c h' s text, controller_new (sample_config acs []) (L "/p") = Done c ->
                run c (mkJob QParse Tags (L "-") None) [] = (h', ROkay s) -> wrote [] h' text -> (s = Success <-> silent text)).
  { intros acs c h' s text HC HR HW. exact (H _ _ c (mkJob QParse Tags (L "-") None) [] h' s text HC eq_refl eq_refl HR HW). }
  destruct (controller_new (sample_config [a_config] []) (L "/p")) as [c1|] eqn:E1; [|vm_compute in E1; discriminate].
  destruct (controller_new (sample_config [a_config; md_artefact_config "C" "none.md" None] []) (L "/p")) as [c2|] eqn:E2;
    [|vm_compute in E2; discriminate].
  pose proof (H1 _ _ (fst (run c1 (mkJob QParse Tags (L "-") None) [])) Success
                (match report_of c1 QParse Tags with Some (_, t) => t | None => [] end) E1) as A.
  pose proof (H1 _ _ (fst (run c2 (mkJob QParse Tags (L "-") None) [])) ErrorsDetected
                (match report_of c2 QParse Tags with Some (_, t) => t | None => [] end) E2) as B.
  vm_compute in E1. injection E1 as <-. vm_compute in E2. injection E2 as <-.
  assert (X : ErrorsDetected = Success).
  { apply B; [vm_compute; reflexivity|exists [], Stdout; vm_compute; reflexivity|].
    apply A; [vm_compute; reflexivity|exists [], Stdout; vm_compute; reflexivity|reflexivity]. }
  discriminate X.
Qed.
Print Assumptions C95_tags_refuted.
