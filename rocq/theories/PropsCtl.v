(** Properties C31-C41, C55-C58: reading artefacts, running jobs, exit status.
    Vocabulary: CtlSpec.v, TraceSpec.v, FmtSpec.v; model: Controller.v.  File contents, glob
    results, the outcome of every write operation, the Unicode tables, the syntax trees of Rust
    files and the text form of JSON are arbitrary. *)
From Verif Require Import Base OMap Models Unicode Utf8 Paths MdParser MonoParser RustParser Tracer
  TraceSpec Aggregator Show Sort Serialize Tags MdFmt Formatters Controller FmtSpec CtlSpec
  CtlFacts JobFacts JobCor CtlCor CtlExamples.
Open Scope N_scope.

#[local] Existing Instance sample_debug.
#[local] Existing Instance sample_json.
#[local] Existing Instance sample_inputs.
#[local] Existing Instance sample_outputs.
#[local] Existing Instance ascii_case.

Definition sample_ctl (cf : config) : option controller :=
  match controller_new cf (L "/p") with Done c => Some c | Panic => None end.

(** C31: what the parser returns is stored or reported. *)
Theorem C31_nothing_lost : forall {U : UnicodeTables} {D : Debug} {I : Inputs} ac base files m errs,
  parse_from_config ac base = Done (files, m, errs) ->
  exists reqs es dups,
    sources base ac files reqs es /\ errs = es ++ dups /\
    (forall l1 r l2, reqs = l1 ++ r :: l2 ->
       (~ In (req_id r) (map req_id l1) /\ oget (req_id r) m = Some r) \/
       (exists old, In old l1 /\ req_id old = req_id r /\ oget (req_id r) m = Some old /\
          In (EDuplicateRequirement old r) dups)) /\
    (forall id r, oget id m = Some r -> req_id r = id /\ In r reqs) /\
    (forall e, In e dups -> exists old r, e = EDuplicateRequirement old r /\ In r reqs /\ oget (req_id r) m = Some old) /\
    (length m + length dups = length reqs)%nat.
Proof. intros U D I. exact nothing_lost. Qed.
Print Assumptions C31_nothing_lost.

Example C31_example :
  match parse_from_config (md_artefact_config "A" "twice.md" None) (L "/p") with
  | Done (_, m, [EDuplicateRequirement old new]) =>
      map req_title (ovalues m) = [Some (L "First"); Some (L "Other")] /\
      req_title old = Some (L "First") /\ req_title new = Some (L "Second")
  | _ => False
  end.
Proof. vm_compute. auto. Qed.

(** C32 *)
Theorem C32_ignore_derived : forall {U : UnicodeTables} {D : Debug} {I : Inputs} cf base c id a ac,
  controller_new cf base = Done c -> oget id (g_artefacts (ctl_graph c)) = Some a -> last_config cf id = Some ac ->
  match ac_ignore_derived ac with
  | Some b => art_ignore_derived a = b
  | None => art_ignore_derived a = true <-> ~ exists rel, In rel (cf_relations cf) /\ In id (rel_lower rel)
  end /\
  art_reference_with_title a = match ac_reference_with_title ac with Some b => b | None => false end.
Proof. intros U D I. exact ignore_default. Qed.
Print Assumptions C32_ignore_derived.

Example C32_example :
  option_map (fun c => map art_ignore_derived (ovalues (g_artefacts (ctl_graph c)))) (sample_ctl good_config) =
  Some [true; false].
Proof. vm_compute. reflexivity. Qed.

(** C33: exactly the requirements without title, in id order after the other errors. *)
Theorem C33_untitled : forall {U : UnicodeTables} {D : Debug} {I : Inputs} cf base c id a,
  controller_new cf base = Done c -> oget id (g_artefacts (ctl_graph c)) = Some a ->
  forall r, In (ERequirementWithoutTitle r) (art_errors a) <->
    art_reference_with_title a = true /\ In r (ovalues (art_requirements a)) /\ req_title r = None.
Proof. intros U D I. exact untitled_exact. Qed.
Print Assumptions C33_untitled.

Theorem C33_order : forall {U : UnicodeTables} {D : Debug} {I : Inputs} cf base c id a,
  controller_new cf base = Done c -> oget id (g_artefacts (ctl_graph c)) = Some a ->
  exists ac reqs errs,
    last_config cf id = Some ac /\ sources base ac (art_files a) reqs errs /\
    art_errors a = errs ++ repeats [] reqs ++
      (if art_reference_with_title a
       then map ERequirementWithoutTitle (filter (fun r => match req_title r with None => true | Some _ => false end)
                                            (ovalues (art_requirements a)))
       else []).
Proof. intros U D I. exact titles_reported. Qed.
Print Assumptions C33_order.

(** An unreadable file and a MonoRequirement file without title, titles being mandatory. *)
Example C33_example :
  let world := {| in_open := fun p => if eqb p (L "/p/REQ_M.md") then inl (mkReader [] None) else inr (L "none");
                  in_glob := fun _ => inl []; in_syn := fun _ => inl (NOther []); in_debug_tokens := fun _ => [];
                  in_json := fun _ => None; in_json_error := fun _ => [] |} in
  let cf := sample_config [mkArtefactConfig (L "M") [L "REQ_M.md"] PMonoRequirement None (Some true)] [] in
  match @controller_new _ _ world cf (L "/p") with
  | Done c => match g_artefacts (ctl_graph c) with
              | [(_, a)] => match art_errors a with [ERequirementWithoutTitle r] => req_id r = L "REQ_M" | _ => False end
              | _ => False
              end
  | Panic => False
  end.
Proof. vm_compute. reflexivity. Qed.

(** C34 *)
Theorem C34_panics : forall {U : UnicodeTables} {D : Debug} {I : Inputs} cf base,
  controller_new cf base = Panic <->
  ~ relations_known cf \/
  exists ac f, In ac (cf_artefacts cf) /\ opened base ac f /\ file_panics (ac_parser ac) f.
Proof. intros U D I. exact controller_panics. Qed.
Print Assumptions C34_panics.

Theorem C34_traced : forall {U : UnicodeTables} {D : Debug} {I : Inputs} cf base c,
  controller_new cf base = Done c ->
  graph_wf (ctl_graph c) /\ g_relations (ctl_graph c) = cf_relations cf /\
  trace (ctl_graph c) = Done (ctl_traced c).
Proof.
  intros U D I cf base c H. pose proof (controller_new_spec cf base) as HS. rewrite H in HS.
  destruct HS as (_ & HB & HT & _). split; [exact (graph_built_wf cf base _ HB)|]. split; [exact (proj1 HB)|exact HT].
Qed.
Print Assumptions C34_traced.

Example C34_example_unknown : sample_ctl (sample_config [a_config] [sample_relation]) = None.
Proof. vm_compute. reflexivity. Qed.
Example C34_example_parser : sample_ctl (sample_config [md_artefact_config "A" "bad.md" None] []) = None.
Proof. vm_compute. reflexivity. Qed.
Example C34_example_done : sample_ctl good_config <> None.
Proof. vm_compute. discriminate. Qed.

(** C35: each id once; the last configuration counts. *)
Theorem C35_present : forall {U : UnicodeTables} {D : Debug} {I : Inputs} cf base c,
  controller_new cf base = Done c ->
  NoDup (okeys (g_artefacts (ctl_graph c))) /\
  (forall id, In id (okeys (g_artefacts (ctl_graph c))) <-> In id (map ac_id (cf_artefacts cf))) /\
  (forall id a, In (id, a) (g_artefacts (ctl_graph c)) -> art_id a = id).
Proof. intros U D I. exact configured_once. Qed.
Print Assumptions C35_present.

Theorem C35_last_counts : forall {U : UnicodeTables} {D : Debug} {I : Inputs} cf base c id,
  controller_new cf base = Done c ->
  match last_config cf id with
  | Some ac => exists a, oget id (g_artefacts (ctl_graph c)) = Some a /\ built cf base ac a
  | None => oget id (g_artefacts (ctl_graph c)) = None
  end.
Proof. intros U D I. exact controller_artefact. Qed.
Print Assumptions C35_last_counts.

(** So not every requirement of every configured artefact is there: of an artefact configured
    twice, the first is silently dropped. *)
Theorem C35_all_present_refuted :
  ~ forall (U : UnicodeTables) (D : Debug) (I : Inputs) cf base c ac files m errs r,
      controller_new cf base = Done c -> In ac (cf_artefacts cf) ->
      parse_from_config ac base = Done (files, m, errs) -> In r (ovalues m) ->
      In r (all_reqs (ctl_graph c)) \/ (exists a, In a (ovalues (g_artefacts (ctl_graph c))) /\ art_errors a <> []).
Proof.
  intros H.
  set (cf := sample_config [md_artefact_config "A" "a.md" None; md_artefact_config "A" "b.md" None] []).
  assert (E : exists c files m r, controller_new cf (L "/p") = Done c /\
            parse_from_config (md_artefact_config "A" "a.md" None) (L "/p") = Done (files, m, []) /\ In r (ovalues m) /\
            forallb (fun x => negb (eqb (req_id x) (req_id r))) (all_reqs (ctl_graph c)) = true /\
            forallb (fun a => is_nil (art_errors a)) (ovalues (g_artefacts (ctl_graph c))) = true).
  { vm_compute. do 4 eexists. split; [reflexivity|]. split; [reflexivity|]. split; [left; reflexivity|].
    split; reflexivity. }
  destruct E as (c & files & m & r & E1 & E2 & E3 & E4 & E5).
  specialize (H ascii_tables sample_debug sample_inputs cf (L "/p") c (md_artefact_config "A" "a.md" None) files m [] r
                E1 (or_introl eq_refl) E2 E3).
  rewrite forallb_forall in E4, E5. destruct H as [H|(a & Ha & HN)].
  - specialize (E4 r H). rewrite eqb_refl in E4. discriminate.
  - specialize (E5 a Ha). destruct (art_errors a); [apply HN; reflexivity|discriminate].
Qed.
Print Assumptions C35_all_present_refuted.

(** C36: an unknown name is found before any job runs. *)
Theorem C36_unknown_job : forall {D : Debug} {US : UnstableSort} {CT : CaseTables} {J : JsonText} {O : Outputs} c names n h,
  first_unknown c names n -> run_jobs_by_name c names h = (h, RFail (CUnknownJob n)).
Proof.
  intros D US CT J O c names n h H.
  exact (proj2 (by_name_fails c names h h (RFail (CUnknownJob n)) Logic.I) (or_introl (ex_intro _ n (conj H (conj eq_refl eq_refl))))).
Qed.
Print Assumptions C36_unknown_job.

Example C36_example :
  main_rc (Some good_config) (L "/p") [L "gnu"; L "nojob"; L "other"] = ([], Exit 2).
Proof. vm_compute. reflexivity. Qed.

(** C37: in order, up to the first failure. *)
Theorem C37_all_run : forall {D : Debug} {US : UnstableSort} {CT : CaseTables} {J : JsonText} {O : Outputs} c names h h' s,
  run_jobs_by_name c names h = (h', ROkay s) <->
  exists js ss, jobs_named c names js /\ all_run c js h ss h' /\ (s = ErrorsDetected <-> some_detected js ss).
Proof. intros D US CT J O. exact by_name_ok. Qed.
Print Assumptions C37_all_run.

Theorem C37_stops : forall {D : Debug} {US : UnstableSort} {CT : CaseTables} {J : JsonText} {O : Outputs} c names h h' r,
  failed r ->
  (run_jobs_by_name c names h = (h', r) <->
   (exists n, first_unknown c names n /\ h' = h /\ r = RFail (CUnknownJob n)) \/
   (exists js pre j post ss h1, jobs_named c names js /\ js = pre ++ j :: post /\
      all_run c pre h ss h1 /\ run c j h1 = (h', r))).
Proof. intros D US CT J O. exact by_name_fails. Qed.
Print Assumptions C37_stops.

(** A job fails with the message of the operation that failed, and only then. *)
Theorem C37_io_error : forall {D : Debug} {US : UnstableSort} {CT : CaseTables} {J : JsonText} {O : Outputs} c j h h' r,
  run c j h = (h', r) ->
  exists evs, h' = h ++ evs /\
    (forall ev m, In ev evs -> event_failed ev = Some m -> exists p, r = RFail (CIo p m)) /\
    (forall e, r = RFail e -> exists ev p m, e = CIo p m /\ In ev evs /\ event_failed ev = Some m).
Proof. intros D US CT J O. exact run_io. Qed.
Print Assumptions C37_io_error.

(** The job after the failing one does not run. *)
Example C37_example :
  main_rc (Some good_config) (L "/p") [L "locked"; L "gnu"] =
  ([EvMakeDirs (L "/p/out") None; EvCreate (L "/p/locked") (Some (L "denied"))], Exit 2).
Proof. vm_compute. reflexivity. Qed.

(** C38 *)
Theorem C38_success : forall {D : Debug} {US : UnstableSort} {CT : CaseTables} {J : JsonText} {O : Outputs} c j h h' s,
  run c j h = (h', ROkay s) ->
  (s = Success <->
   match job_query j with
   | QParse => forall a, In a (ovalues (g_artefacts (ctl_graph c))) -> art_errors a = []
   | QTrace =>
       tg_errors (ctl_traced c) = [] /\
       (forall a, In a (ovalues (tg_artefacts (ctl_traced c))) -> art_errors a = []) /\
       (forall t, In t (tg_relations (ctl_traced c)) -> tr_uncovered t = []) /\
       (forall d, In d (ovalues (tg_derived (ctl_traced c))) -> d = [])
   end).
Proof. intros D US CT J O. exact run_success. Qed.
Print Assumptions C38_success.

Definition job_status (cf : config) (name : string) : option job_success :=
  match sample_ctl cf with
  | Some c => match oget (L name) (ctl_jobs c) with
              | Some j => match run c j [] with (_, ROkay s) => Some s | _ => None end
              | None => None
              end
  | None => None
  end.
Example C38_example_success : job_status good_config "gnu" = Some Success.
Proof. vm_compute. reflexivity. Qed.
(** without B, REQ_A is fine; with an unreadable B it is not *)
Example C38_example_detected :
  job_status (sample_config [a_config; md_artefact_config "B" "missing.md" None] [sample_relation]) "gnu" =
  Some ErrorsDetected.
Proof. vm_compute. reflexivity. Qed.

(** C39: the exit status. *)
Theorem C39_exit_0 : forall {U : UnicodeTables} {D : Debug} {US : UnstableSort} {CT : CaseTables} {J : JsonText}
    {I : Inputs} {O : Outputs} cf base jobs h,
  main_rc cf base jobs = (h, Exit 0) <->
  exists c ctl js ss, usable cf c /\ controller_new c base = Done ctl /\ chosen ctl jobs <> [] /\
    jobs_named ctl (chosen ctl jobs) js /\ all_run ctl js [] ss h /\
    forall j, In j js -> counts j -> clean ctl (job_query j).
Proof. intros U D US CT J I O. exact exit_0. Qed.
Print Assumptions C39_exit_0.

Theorem C39_exit_1 : forall {U : UnicodeTables} {D : Debug} {US : UnstableSort} {CT : CaseTables} {J : JsonText}
    {I : Inputs} {O : Outputs} cf base jobs h,
  main_rc cf base jobs = (h, Exit 1) <->
  exists c ctl js ss, usable cf c /\ controller_new c base = Done ctl /\ chosen ctl jobs <> [] /\
    jobs_named ctl (chosen ctl jobs) js /\ all_run ctl js [] ss h /\
    exists j, In j js /\ counts j /\ ~ clean ctl (job_query j).
Proof. intros U D US CT J I O. exact exit_1. Qed.
Print Assumptions C39_exit_1.

Theorem C39_exit_2 : forall {U : UnicodeTables} {D : Debug} {US : UnstableSort} {CT : CaseTables} {J : JsonText}
    {I : Inputs} {O : Outputs} cf base jobs h,
  main_rc cf base jobs = (h, Exit 2) <->
  (h = [] /\ ~ exists c, usable cf c) \/
  exists c ctl, usable cf c /\ controller_new c base = Done ctl /\
    ((h = [] /\ chosen ctl jobs = []) \/
     (h = [] /\ exists n, first_unknown ctl (chosen ctl jobs) n) \/
     (exists js pre j post ss h1 e, jobs_named ctl (chosen ctl jobs) js /\ js = pre ++ j :: post /\
        all_run ctl pre [] ss h1 /\ run ctl j h1 = (h, RFail e))).
Proof. intros U D US CT J I O. exact exit_fail. Qed.
Print Assumptions C39_exit_2.

Theorem C39_no_other : forall {U : UnicodeTables} {D : Debug} {US : UnstableSort} {CT : CaseTables} {J : JsonText}
    {I : Inputs} {O : Outputs} cf base jobs, exists h,
  main_rc cf base jobs = (h, Exit 0) \/ main_rc cf base jobs = (h, Exit 1) \/
  main_rc cf base jobs = (h, Exit 2) \/ main_rc cf base jobs = (h, Panicked).
Proof. intros U D US CT J I O. exact exit_cases. Qed.
Print Assumptions C39_no_other.

Example C39_example_0 : snd (main_rc (Some good_config) (L "/p") []) = Exit 0.
Proof. vm_compute. reflexivity. Qed.
Example C39_example_1 :
  snd (main_rc (Some (sample_config [a_config; md_artefact_config "B" "missing.md" None] [sample_relation])) (L "/p") []) = Exit 1.
Proof. vm_compute. reflexivity. Qed.
(** a job with set_return_code = false does not count *)
Example C39_example_uncounted :
  snd (main_rc (Some (sample_config [a_config; md_artefact_config "B" "missing.md" None] [sample_relation])) (L "/p") [L "tags"]) = Exit 0.
Proof. vm_compute. reflexivity. Qed.
Example C39_example_version :
  main_rc (Some (mkConfig (Some 1) [] [] (Some sample_jobs) (Some [L "gnu"]))) (L "/p") [] = ([], Exit 2).
Proof. vm_compute. reflexivity. Qed.

(** C40: exit status 0 is sound... *)
Theorem C40_sound : forall {U : UnicodeTables} {D : Debug} {US : UnstableSort} {CT : CaseTables} {J : JsonText}
    {I : Inputs} {O : Outputs} cf base jobs h c ctl,
  main_rc cf base jobs = (h, Exit 0) ->
  usable cf c -> controller_new c base = Done ctl ->
  (exists n j, In n (chosen ctl jobs) /\ oget n (ctl_jobs ctl) = Some j /\ job_query j = QTrace /\ counts j) ->
  sound_project (ctl_graph ctl).
Proof. intros U D US CT J I O. exact exit_0_sound. Qed.
Print Assumptions C40_sound.

(** ... and success of a Trace job says exactly that the project is sound. *)
Theorem C40_exact : forall {U : UnicodeTables} {D : Debug} {I : Inputs} cf base c,
  controller_new cf base = Done c -> (clean c QTrace <-> sound_project (ctl_graph c)).
Proof. intros U D I cf base c H. exact (clean_trace c (controller_well_made cf base c H)). Qed.
Print Assumptions C40_exact.

Example C40_example : exists c ctl, usable (Some good_config) c /\ controller_new c (L "/p") = Done ctl /\
  (exists n j, In n (chosen ctl []) /\ oget n (ctl_jobs ctl) = Some j /\ job_query j = QTrace /\ counts j) /\
  length (all_reqs (ctl_graph ctl)) = 2%nat.
Proof.
  exists good_config. destruct (controller_new good_config (L "/p")) as [ctl|] eqn:E; [|vm_compute in E; discriminate].
  exists ctl. split; [split; [reflexivity|right; reflexivity]|]. split; [reflexivity|].
  vm_compute in E. injection E as <-. split; [|reflexivity].
  exists (L "gnu"), (mkJob QTrace GnuError (L "-") None). split; [right; left; reflexivity|].
  split; [reflexivity|]. split; [reflexivity|discriminate].
Qed.

(** C41: a job panics exactly if its output can be opened and the combination is not supported... *)
Theorem C41_panics : forall {U : UnicodeTables} {D : Debug} {US : UnstableSort} {CT : CaseTables} {J : JsonText}
    {I : Inputs} {O : Outputs} cf base c j h h',
  controller_new cf base = Done c ->
  (run c j h = (h', RPanic) <->
   ~ supported (job_query j) (job_format j) /\ exists k, open_output c j h = (h', ROkay k)).
Proof. intros U D US CT J I O cf base c j h h' H. exact (run_panics c j h h' (controller_well_made cf base c H)). Qed.
Print Assumptions C41_panics.

(** ... and then its output file has just been emptied. *)
Theorem C41_truncates : forall {U : UnicodeTables} {D : Debug} {US : UnstableSort} {CT : CaseTables} {J : JsonText}
    {I : Inputs} {O : Outputs} cf base c j h h' r,
  controller_new cf base = Done c ->
  ~ supported (job_query j) (job_format j) -> job_file j <> L "-" -> run c j h = (h', r) ->
  (r = RPanic /\ exists pre, h' = h ++ pre ++ [EvCreate (output_path c j) None]) \/ (exists e, r = RFail e).
Proof.
  intros U D US CT J I O cf base c j h h' r H HN HF HR.
  exact (unsupported_truncates c j h (controller_well_made cf base c H) HN HF h' r HR).
Qed.
Print Assumptions C41_truncates.

Example C41_example :
  main_rc (Some good_config) (L "/p") [L "bad"] =
  ([EvMakeDirs (L "/p/out") None; EvCreate (L "/p/tags") None], Panicked).
Proof. vm_compute. reflexivity. Qed.

(** C55: the requirements and errors of an artefact are exactly those of its files. *)
Theorem C55_sources : forall {U : UnicodeTables} {D : Debug} {I : Inputs} ac base,
  match parse_files ac base with
  | Done (files, reqs, errs) => sources base ac files reqs errs
  | Panic => exists f, opened base ac f /\ file_panics (ac_parser ac) f
  end.
Proof. intros U D I. exact parse_files_spec. Qed.
Print Assumptions C55_sources.

Theorem C55_sources_unique : forall {U : UnicodeTables} {D : Debug} {I : Inputs} base ac f r e f' r' e',
  sources base ac f r e -> sources base ac f' r' e' -> f = f' /\ r = r' /\ e = e'.
Proof. intros U D I. exact sources_unique. Qed.
Print Assumptions C55_sources_unique.

Example C55_example_files :
  let world := {| in_open := fun p => if eqb p (L "/p/x.rs") then inr (L "denied") else inl (mkReader [] None);
                  in_glob := fun pat => if eqb pat (L "/p/src/a") then inl [inl (L "/p/x.rs"); inl (L "/p/y.rs")] else inl [inl (L "/p/z.rs")];
                  in_syn := fun _ => inr ((3, 4), L "oops"); in_debug_tokens := fun _ => [];
                  in_json := fun _ => None; in_json_error := fun _ => [] |} in
  @parse_files _ _ world (mkArtefactConfig (L "C") [L "src/a"; L "/abs"] PRust None None) (L "/p") =
  Done ([L "/p/x.rs"; L "/p/y.rs"; L "/p/z.rs"], [],
        [EIo (L "/p/x.rs") (L "denied"); EFormat (new_with_line_and_column (L "/p/y.rs") 3 4) (L "oops");
         EFormat (new_with_line_and_column (L "/p/z.rs") 3 4) (L "oops")]).
Proof. vm_compute. reflexivity. Qed.

(** C56: the process panics exactly on unknown artefacts, on files that make a parser panic, and on
    unsupported jobs that are reached and whose output can be opened. *)
Theorem C56_panics : forall {U : UnicodeTables} {D : Debug} {US : UnstableSort} {CT : CaseTables} {J : JsonText}
    {I : Inputs} {O : Outputs} cf base jobs,
  (exists h, main_rc cf base jobs = (h, Panicked)) <->
  exists c, usable cf c /\
    (~ relations_known c \/
     (exists ac f, In ac (cf_artefacts c) /\ opened base ac f /\ file_panics (ac_parser ac) f) \/
     (exists ctl js pre j post ss h1 h2 k, controller_new c base = Done ctl /\
        jobs_named ctl (chosen ctl jobs) js /\ js = pre ++ j :: post /\ all_run ctl pre [] ss h1 /\
        open_output ctl j h1 = (h2, ROkay k) /\ ~ supported (job_query j) (job_format j))).
Proof. intros U D US CT J I O. exact process_panics. Qed.
Print Assumptions C56_panics.

(** The three ways. *)
Example C56_example :
  snd (main_rc (Some (sample_config [a_config] [sample_relation])) (L "/p") []) = Panicked /\
  snd (main_rc (Some (sample_config [md_artefact_config "A" "bad.md" None] [])) (L "/p") []) = Panicked /\
  snd (main_rc (Some good_config) (L "/p") [L "gnu"; L "bad"]) = Panicked.
Proof. vm_compute. auto. Qed.

(** C57: a job that returns has opened its output and written exactly its report. *)
Theorem C57_report : forall {U : UnicodeTables} {D : Debug} {US : UnstableSort} {CT : CaseTables} {J : JsonText}
    {I : Inputs} {O : Outputs} cf base c j h h' s,
  controller_new cf base = Done c -> run c j h = (h', ROkay s) ->
  exists ev k text, h' = h ++ ev ++ [EvWrite k text None] /\ opens c j ev (ROkay k) /\
    is_report c (job_query j) (job_format j) text.
Proof. intros U D US CT J I O cf base c j h h' s H. exact (run_writes c j h h' s (controller_well_made cf base c H)). Qed.
Print Assumptions C57_report.

Example C57_example :
  match sample_ctl good_config with
  | Some c => run c (mkJob QParse Tags (L "tags") None) [] =
      ([EvMakeDirs (L "/p/out") None; EvCreate (L "/p/tags") None;
        EvWrite (ToFile (L "/p/tags"))
          (TAGS_HEADER ++ L "REQ_A" ++ [9] ++ L "/p/a.md" ++ [9] ++ L "1;" ++ [34; 9] ++ L "r" ++ [NL] ++
           L "REQ_B" ++ [9] ++ L "/p/b.md" ++ [9] ++ L "1;" ++ [34; 9] ++ L "r" ++ [NL]) None], ROkay Success)
  | None => False
  end.
Proof. vm_compute. reflexivity. Qed.

(** C58: only the outputs of the selected jobs are touched, whatever happens. *)
Theorem C58_only_outputs : forall {U : UnicodeTables} {D : Debug} {US : UnstableSort} {CT : CaseTables} {J : JsonText}
    {I : Inputs} {O : Outputs} cf base jobs h x,
  main_rc cf base jobs = (h, x) ->
  faithful [] h /\
  (h = [] \/ exists c ctl, usable cf c /\ controller_new c base = Done ctl /\
     Forall (fun e => exists n j, In n (chosen ctl jobs) /\ oget n (ctl_jobs ctl) = Some j /\ concerns ctl j e) h).
Proof. intros U D US CT J I O. exact process_history. Qed.
Print Assumptions C58_only_outputs.

Example C58_example :
  map (fun e => match e with EvMakeDirs p _ => p | EvCreate p _ => p | EvWrite (ToFile p) _ _ => p | EvWrite Stdout _ _ => L "-" end)
    (fst (main_rc (Some good_config) (L "/p") [])) = [L "/p/out"; L "/p/tags"; L "/p/tags"; L "-"].
Proof. vm_compute. reflexivity. Qed.
