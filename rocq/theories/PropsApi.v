(** C96: [Controller::run_jobs] as a function of the library; C97: lists of errors in JSON; C98: the builder of the unit tests.
    Vocabulary: ApiSpec.v, CtlSpec.v, JsonGrammar.v, JsonSpec.v; models: Api.v, Controller.v, Serialize.v, SerdeJson.v, Location.v. *)
From Coq Require Import Permutation.
From Verif Require Import Base OMap Models Unicode Location Show Sort Serialize MdFmt Formatters RustParser Controller CtlSpec CtlExamples
  SerdeJson JsonGrammar SerdeFacts JsonSpec Api ApiSpec ApiFacts.
Open Scope N_scope.

(** C96: with as many names as jobs, all jobs run in order, up to the first that fails. *)
Theorem C96_all : forall {D : Debug} {US : UnstableSort} {CT : CaseTables} {J : JsonText} {O : Outputs} c jobs names h h' r,
  (length jobs <= length names)%nat ->
  run_jobs_with_names c jobs names h = (h', r) <->
  match r with
  | ROkay s => exists ss, all_run c jobs h ss h' /\ (s = ErrorsDetected <-> some_detected jobs ss)
  | _ => exists pre j post ss h1, jobs = pre ++ j :: post /\ all_run c pre h ss h1 /\ run c j h1 = (h', r)
  end.
Proof.
  intros D US CT J O c jobs names h h' r HL. pose proof (firstn_all2 jobs HL) as E.
  destruct r as [s|e|]; [rewrite jobs_ok|rewrite jobs_fail by exact I|rewrite jobs_fail by exact I]; rewrite E; reflexivity.
Qed.
Print Assumptions C96_all.

(** With fewer names only as many jobs run; the others are left out without a message. *)
Theorem C96_fewer : forall {D : Debug} {US : UnstableSort} {CT : CaseTables} {J : JsonText} {O : Outputs} c jobs names h,
  run_jobs_with_names c jobs names h = run_jobs_with_names c (firstn (length names) jobs) names h.
Proof.
  intros D US CT J O c jobs names h. unfold run_jobs_with_names. rewrite !combine_firsts, firstn_firstn, PeanoNat.Nat.min_id. reflexivity.
Qed.
Print Assumptions C96_fewer.

(** The program calls it with the jobs of the names. *)
Theorem C96_by_name : forall {D : Debug} {US : UnstableSort} {CT : CaseTables} {J : JsonText} {O : Outputs} c names h js,
  jobs_named c names js -> run_jobs_by_name c names h = run_jobs_with_names c js names h.
Proof. intros D US CT J O. exact by_name_with_names. Qed.
Print Assumptions C96_by_name.

#[local] Existing Instance ascii_tables.
#[local] Existing Instance ascii_case.
#[local] Existing Instance sample_debug.
#[local] Existing Instance sample_json.
#[local] Existing Instance stable_is_unstable.
#[local] Existing Instance sample_inputs.
#[local] Existing Instance sample_outputs.

Definition a_controller : controller :=
  match controller_new (sample_config [a_config] []) (L "/p") with Done c => c | Panic => mkController [] (mkGraph [] []) (mkTracedGraph [] [] [] []) [] [] end.
Definition tags_job := mkJob QParse Tags (L "-") None.
Definition bad_job := mkJob QTrace Tags (L "-") None.

Example C96_example :
  length (fst (run_jobs_with_names a_controller [tags_job; tags_job] [L "a"; L "b"] [])) = 2%nat /\
  snd (run_jobs_with_names a_controller [tags_job; bad_job] [L "a"; L "b"] []) = RPanic /\
  length (fst (run_jobs_with_names a_controller [tags_job; bad_job] [L "a"] [])) = 1%nat /\
  snd (run_jobs_with_names a_controller [tags_job; bad_job] [L "a"] []) = ROkay Success.
Proof. vm_compute. repeat split. Qed.

(** Success does not mean that all jobs have run. *)
Theorem C96_any_names_refuted :
  ~ (forall (D : Debug) (US : UnstableSort) (CT : CaseTables) (J : JsonText) (O : Outputs) c jobs names h h' s,
     run_jobs_with_names c jobs names h = (h', ROkay s) -> exists ss, all_run c jobs h ss h').
Proof.
  intros H.
  destruct (H sample_debug stable_is_unstable ascii_case sample_json sample_outputs a_controller [bad_job] [] [] [] Success eq_refl) as (ss & X).
  inversion X; subst. match goal with E : run _ _ _ = _ |- _ => vm_compute in E; discriminate E end.
Qed.
Print Assumptions C96_any_names_refuted.

(** C97: a list of errors is written as JSON with all errors sorted by their texts, and can be read again. *)
Theorem C97_errors : forall {D : Debug} {US : UnstableSort} errs,
  exists sorted, (exists v, json_document (json_pretty (JsonText := serde_json) (json_errors errs)) v) /\
    (forall v, json_document (json_pretty (JsonText := serde_json) (json_errors errs)) v -> an_error_list v = Some (0, sorted)) /\
    Permutation errs sorted /\ sorted_by show_error sorted.
Proof. intros D US. exact errors_text. Qed.
Print Assumptions C97_errors.

Example C97_example :
  match read_json (json_pretty (JsonText := serde_json) (json_errors [EConfig (L "b"); EEmptyGraph; EConfig (L "a")])) with
  | Some v => an_error_list v = Some (0, [EConfig (L "a"); EConfig (L "b"); EEmptyGraph]) /\
              length (json_pretty (JsonText := serde_json) (json_errors [EEmptyGraph])) = 54%nat
  | None => False
  end.
Proof. vm_compute. split; reflexivity. Qed.

(** C98: what a chain of calls builds.  References of [depends] become references of [covers]. *)
Theorem C98_builder : forall {U : UnicodeTables} id calls,
  if forallb call_ok calls then
    exists r, builder id calls = Done (inl r) /\ req_id r = id /\ req_title r = last_of (titles calls) /\
      req_location r = match last_of (locations calls) with Some x => x | None => mkLocation (L "no Location") None end /\
      req_covers r = either_calls calls /\ req_depends r = [] /\ req_tags r = tag_calls calls /\
      osorted (req_attributes r) /\ forall k, oget k (req_attributes r) = oget k (rev (attribute_calls calls))
  else exists e, builder id calls = Done (inr e).
Proof. intros U. exact builder_spec. Qed.
Print Assumptions C98_builder.

Example C98_example :
  builder (L "R") [CallTitle (L "t"); CallCovers (L "A") None (L "f:1"); CallTag (L "x"); CallAttribute (L "k") (L "1"); CallAttribute (L "k") (L "2")] =
  Done (inl (mkRequirement (L "R") (Some (L "t")) (mkLocation (L "no Location") None)
    [mkReference (L "A") None (mkLocation (L "f") (Some (Line 1)))] [] [L "x"] [(L "k", L "2")])) /\
  builder (L "R") [CallLocation []] = Done (inr (L "Invalid Location")).
Proof. vm_compute. split; reflexivity. Qed.

Theorem C98_depends_refuted :
  ~ (forall (U : UnicodeTables) id calls r, builder id calls = Done (inl r) ->
     req_covers r = covers_calls calls /\ req_depends r = depends_calls calls).
Proof.
  intros H.
  destruct (H ascii_tables (L "R") [CallDepends (L "A") None (L "f:1")]
    (mkRequirement (L "R") None (mkLocation (L "no Location") None) [mkReference (L "A") None (mkLocation (L "f") (Some (Line 1)))] [] [] []))
    as [X _]; [vm_compute; reflexivity|]. vm_compute in X. discriminate X.
Qed.
Print Assumptions C98_depends_refuted.
