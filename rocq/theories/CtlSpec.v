(** Specification of the controller: where requirements come from, how artefacts are built, what
    jobs do. *)
From Verif Require Import Base OMap Models Unicode Utf8 Paths MdParser MonoParser RustParser Tracer
  TraceSpec Aggregator Show Sort Serialize JsonValues Tags MdFmt Formatters Controller FmtSpec.
From Coq Require Import Permutation.
Open Scope N_scope.

(** ** Artefacts *)
(** The first requirement with a given id. *)
Definition first_with (id : requirement_id) (l : list requirement) : option requirement :=
  find (fun r => eqb (req_id r) id) l.

(** The reports for ids that occur again: the first requirement with the id and the repeated one. *)
Fixpoint repeats (before l : list requirement) : list error :=
  match l with
  | [] => []
  | r :: l' =>
      match first_with (req_id r) before with
      | Some first => [EDuplicateRequirement first r]
      | None => []
      end ++ repeats (before ++ [r]) l'
  end.

(** No relation lists the artefact as lower. *)
Definition is_root (cf : config) (id : artefact_id) : Prop :=
  ~ exists rel, In rel (cf_relations cf) /\ In id (rel_lower rel).

Definition untitled (l : list requirement) : list requirement :=
  filter (fun r => match req_title r with None => true | Some _ => false end) l.

Section CtlSpec.
  Context {U : UnicodeTables} {D : Debug} {I : Inputs}.

  (** What one file contributes. *)
  Inductive file_result : parser -> path -> list requirement * list error -> Prop :=
  | fr_unreadable ps p m : in_open p = inr m -> file_result ps p ([], [EIo p m])
  | fr_markdown p r x : in_open p = inl r -> md_parse p r = Done x -> file_result PMarkdown p x
  | fr_mono p r x : in_open p = inl r -> mono_parse p r = Done x -> file_result PMonoRequirement p x
  | fr_rust p r x : in_open p = inl r -> rust_parse in_syn in_debug_tokens p r = Done x ->
      file_result PRust p x
  | fr_json p r v reqs : in_open p = inl r -> in_json r = Some v -> requirements_value v reqs ->
      file_result PJson p (reqs, [])
  | fr_json_bad p r : in_open p = inl r ->
      (forall v, in_json r = Some v -> ~ exists reqs, requirements_value v reqs) ->
      file_result PJson p ([], [EFormat (new_with_no_pos p) (in_json_error r)]).

  (** The parser panics on a file. *)
  Inductive file_panics : parser -> path -> Prop :=
  | fp_markdown p r : in_open p = inl r -> md_parse p r = Panic -> file_panics PMarkdown p
  | fp_mono p r : in_open p = inl r -> mono_parse p r = Panic -> file_panics PMonoRequirement p
  | fp_rust p r : in_open p = inl r -> rust_parse in_syn in_debug_tokens p r = Panic -> file_panics PRust p.

  (** The glob pattern for a configured path. *)
  Definition pattern_of (base : path) (p : str) : str := if is_absolute p then p else base ++ L "/" ++ p.

  (** Patterns that can be expanded completely: the files, in order. *)
  Inductive expands (base : path) : list str -> list path -> Prop :=
  | ex_nil : expands base [] []
  | ex_cons p ps fs gs :
      in_glob (pattern_of base p) = inl (map inl fs) -> expands base ps gs ->
      expands base (p :: ps) (fs ++ gs).
  (** The first failure of an expansion. *)
  Inductive expansion_fails (base : path) : list str -> error -> Prop :=
  | xf_pattern p ps m : in_glob (pattern_of base p) = inr m -> expansion_fails base (p :: ps) (EIo p m)
  | xf_entry p ps fs q m rest :
      in_glob (pattern_of base p) = inl (map inl fs ++ inr (q, m) :: rest) ->
      expansion_fails base (p :: ps) (EIo q m)
  | xf_later p ps fs e :
      in_glob (pattern_of base p) = inl (map inl fs) -> expansion_fails base ps e ->
      expansion_fails base (p :: ps) e.

  Definition one_file (ps : parser) : Prop := ps <> PRust.

  (** A parser and a list of texts in a message. *)
  Definition parser_text (ps : parser) : str :=
    L match ps with
      | PMarkdown => "Markdown"
      | PRust => "Rust"
      | PMonoRequirement => "MonoRequirement"
      | PJson => "Json"
      end.
  Fixpoint comma_texts (l : list str) : str :=
    match l with [] => [] | s :: l' => L ", " ++ debug_str s ++ comma_texts l' end.
  Definition texts (l : list str) : str :=
    match l with
    | [] => L "[]"
    | s :: l' => L "[" ++ debug_str s ++ comma_texts l' ++ L "]"
    end.

  (** The files of an artefact and what they contribute, in order. *)
  Inductive sources (base : path) (ac : artefact_config)
    : list path -> list requirement -> list error -> Prop :=
  | so_single p x :
      one_file (ac_parser ac) -> ac_paths ac = [p] -> file_result (ac_parser ac) (path_join base p) x ->
      sources base ac [path_join base p] (fst x) (snd x)
  | so_count :
      one_file (ac_parser ac) -> length (ac_paths ac) <> 1%nat ->
      sources base ac [] []
        [EConfig (L "Expected only 1 file for artefact " ++ ac_id ac ++ L " with parser " ++
                  parser_text (ac_parser ac) ++ L ", got " ++ texts (ac_paths ac))]
  | so_none :
      ac_parser ac = PRust -> ac_paths ac = [] ->
      sources base ac [] [] [EConfig (L "No Paths for artefact " ++ ac_id ac)]
  | so_fails e :
      ac_parser ac = PRust -> expansion_fails base (ac_paths ac) e ->
      sources base ac (ac_paths ac) [] [e]
  | so_many files xs :
      ac_parser ac = PRust -> ac_paths ac <> [] -> expands base (ac_paths ac) files ->
      Forall2 (file_result PRust) files xs ->
      sources base ac files (flat_map fst xs) (flat_map snd xs).

  (** The files of an artefact that are opened. *)
  Definition opened (base : path) (ac : artefact_config) (f : path) : Prop :=
    (one_file (ac_parser ac) /\ exists p, ac_paths ac = [p] /\ f = path_join base p) \/
    (ac_parser ac = PRust /\ exists files, expands base (ac_paths ac) files /\ In f files).

  (** An artefact as configured. *)
  Definition built (cf : config) (base : path) (ac : artefact_config) (a : artefact) : Prop :=
    exists reqs errs,
      sources base ac (art_files a) reqs errs /\
      art_id a = ac_id ac /\
      match ac_ignore_derived ac with
      | Some b => art_ignore_derived a = b
      | None => art_ignore_derived a = true <-> is_root cf (ac_id ac)
      end /\
      art_reference_with_title a = opt_default (ac_reference_with_title ac) false /\
      osorted (art_requirements a) /\
      (forall id, oget id (art_requirements a) = first_with id reqs) /\
      art_errors a = errs ++ repeats [] reqs ++
        (if art_reference_with_title a then map ERequirementWithoutTitle (untitled (ovalues (art_requirements a)))
         else []).

  (** The last configuration of an artefact id. *)
  Definition last_config (cf : config) (id : artefact_id) : option artefact_config :=
    find (fun ac => eqb (ac_id ac) id) (rev (cf_artefacts cf)).

  (** All artefacts a relation names are configured. *)
  Definition relations_known (cf : config) : Prop :=
    forall rel, In rel (cf_relations cf) ->
      forall id, id = rel_upper rel \/ In id (rel_lower rel) -> In id (map ac_id (cf_artefacts cf)).
End CtlSpec.

(** ** Jobs *)
Section JobSpec.
  Context {D : Debug} {US : UnstableSort} {CT : CaseTables} {J : JsonText} {O : Outputs}.

  (** All jobs run one after the other without failure. *)
  Inductive all_run (c : controller) : list job -> history -> list job_success -> history -> Prop :=
  | ar_nil h : all_run c [] h [] h
  | ar_cons j js h s h1 ss h2 :
      run c j h = (h1, ROkay s) -> all_run c js h1 ss h2 -> all_run c (j :: js) h (s :: ss) h2.

  (** The job sets the return code. *)
  Definition counts (j : job) : Prop := job_set_return_code j <> Some false.

  (** Some job that sets the return code detected errors. *)
  Definition some_detected (js : list job) (ss : list job_success) : Prop :=
    exists j, In (j, ErrorsDetected) (combine js ss) /\ counts j.

  (** A failure other than success. *)
  Definition failed {A} (r : result A) : Prop := match r with ROkay _ => False | _ => True end.

  (** The jobs with the given names. *)
  Definition jobs_named (c : controller) : list str -> list job -> Prop :=
    Forall2 (fun n j => oget n (ctl_jobs c) = Some j).
  (** The first name that is not a job. *)
  Definition first_unknown (c : controller) (names : list str) (n : str) : Prop :=
    exists pre post, names = pre ++ n :: post /\
      (forall m, In m pre -> exists j, oget m (ctl_jobs c) = Some j) /\ oget n (ctl_jobs c) = None.

  (** Nothing to complain about. *)
  Definition clean (c : controller) (q : query) : Prop :=
    match q with
    | QParse => forall a, In a (ovalues (g_artefacts (ctl_graph c))) -> art_errors a = []
    | QTrace =>
        tg_errors (ctl_traced c) = [] /\
        (forall a, In a (ovalues (tg_artefacts (ctl_traced c))) -> art_errors a = []) /\
        (forall t, In t (tg_relations (ctl_traced c)) -> tr_uncovered t = []) /\
        (forall d, In d (ovalues (tg_derived (ctl_traced c))) -> d = [])
    end.

  (** Supported combinations. *)
  Definition supported (q : query) (f : format) : Prop :=
    match q, f with
    | QParse, Tags | QParse, Markdown | QParse, Json => True
    | QTrace, GnuError | QTrace, Markdown | QTrace, Json => True
    | _, _ => False
    end.

  Definition output_path (c : controller) (j : job) : path :=
    if is_absolute (job_file j) then job_file j else path_join (ctl_base c) (job_file j).

  (** What opening the output of a job does, and its result. *)
  Inductive opens (c : controller) (j : job) : list event -> result sink -> Prop :=
  | op_stdout : job_file j = L "-" -> opens c j [] (ROkay Stdout)
  | op_dirs d m :
      job_file j <> L "-" -> out_parent (output_path c j) = Some d ->
      opens c j [EvMakeDirs d (Some m)] (RFail (CIo d m))
  | op_create pre r :
      job_file j <> L "-" ->
      (pre = [] /\ out_parent (output_path c j) = None) \/
      (exists d, out_parent (output_path c j) = Some d /\ pre = [EvMakeDirs d None]) ->
      opens c j (pre ++ [EvCreate (output_path c j) r])
        (match r with None => ROkay (ToFile (output_path c j)) | Some m => RFail (CIo (output_path c j) m) end).

  (** What running a job does, and its result. *)
  Inductive effects (c : controller) (j : job) : list event -> result job_success -> Prop :=
  | ef_open_fails ev e : opens c j ev (RFail e) -> effects c j ev (RFail e)
  | ef_unsupported ev k : opens c j ev (ROkay k) -> job_text c j = Panic -> effects c j ev RPanic
  | ef_write_fails ev k text n m :
      opens c j ev (ROkay k) -> job_text c j = Done text ->
      effects c j (ev ++ [EvWrite k (firstn n text) (Some m)]) (RFail (CIo (job_file j) m))
  | ef_written ev k text s :
      opens c j ev (ROkay k) -> job_text c j = Done text -> (s = Success <-> clean c (job_query j)) ->
      effects c j (ev ++ [EvWrite k text None]) (ROkay s).

  (** The results of the operations are those of the world. *)
  Definition answered (h : history) (e : event) : Prop :=
    match e with
    | EvMakeDirs d r => out_make_dirs h d = r
    | EvCreate p r => out_create h p = r
    | EvWrite k t None => out_write h k t = None
    | EvWrite k t (Some m) => exists text n, out_write h k text = Some (n, m) /\ t = firstn n text
    end.
  Inductive faithful : history -> list event -> Prop :=
  | fa_nil h : faithful h []
  | fa_cons h e ev : answered h e -> faithful (h ++ [e]) ev -> faithful h (e :: ev).

  (** Controllers made by [controller_new]. *)
  Definition well_made (c : controller) : Prop :=
    graph_wf (ctl_graph c) /\ trace (ctl_graph c) = Done (ctl_traced c) /\
    forall rel la, In rel (g_relations (ctl_graph c)) -> In la (rel_lower rel) ->
      In la (okeys (g_artefacts (ctl_graph c))).

  (** The text of a job's output. *)
  Inductive is_report (c : controller) : query -> format -> str -> Prop :=
  | ir_tags lines :
      Permutation (tags_of (all_reqs (ctl_graph c))) lines -> sorted_by (fun l => l) lines ->
      is_report c QParse Tags (TAGS_HEADER ++ concat lines)
  | ir_parse_md reqs :
      Permutation (all_reqs (ctl_graph c)) reqs -> sorted_by req_id reqs ->
      (forall id, filter (fun r => eqb (req_id r) id) reqs =
                  filter (fun r => eqb (req_id r) id) (all_reqs (ctl_graph c))) ->
      is_report c QParse Markdown (md_export (ctl_graph c) reqs)
  | ir_parse_json reqs errs :
      Permutation (all_reqs (ctl_graph c)) reqs -> sorted_by req_id reqs ->
      (forall id, filter (fun r => eqb (req_id r) id) reqs =
                  filter (fun r => eqb (req_id r) id) (all_reqs (ctl_graph c))) ->
      Permutation (all_errors (ctl_graph c)) errs -> sorted_by show_error errs ->
      is_report c QParse Json
        (json_pretty (JObj [(L "version", JNum 0); (L "requirements", JArr (map json_requirement reqs));
                            (L "errors", JArr (map json_error errs))]))
  | ir_gnu : is_report c QTrace GnuError (gnu_report (ctl_graph c) (tg_errors (ctl_traced c)))
  | ir_trace_md ag :
      aggregate (ctl_traced c) = Done ag ->
      is_report c QTrace Markdown (md_report (ctl_graph c) (ctl_traced c) ag)
  | ir_trace_json :
      is_report c QTrace Json
        (json_pretty (JObj [(L "version", JNum 0); (L "trace", json_traced_graph (ctl_traced c))])).

  (** The message of an operation that failed. *)
  Definition event_failed (e : event) : option str :=
    match e with EvMakeDirs _ f | EvCreate _ f | EvWrite _ _ f => f end.

  (** Operations that only concern the output of the job. *)
  Definition concerns (c : controller) (j : job) (e : event) : Prop :=
    match e with
    | EvMakeDirs d _ => job_file j <> L "-" /\ out_parent (output_path c j) = Some d
    | EvCreate p _ => job_file j <> L "-" /\ p = output_path c j
    | EvWrite Stdout _ _ => job_file j = L "-"
    | EvWrite (ToFile p) _ _ => job_file j <> L "-" /\ p = output_path c j
    end.
End JobSpec.

(** ** A project without findings, in terms of the graph *)
Record sound_project (g : graph) : Prop := {
  so_parsed : forall a, In a (ovalues (g_artefacts g)) -> art_errors a = [];
  so_unique : unique_ids g;
  so_covered : forall rel r, In rel (g_relations g) -> In r (reqs_of g (rel_upper rel)) -> covered_along g rel r;
  so_used : forall rel, In rel (g_relations g) -> exists l, is_link g rel l;
  so_covers : forall k r c, In r (reqs_of g k) -> In c (req_covers r) -> linked g Upwards (ref_id c) (req_id r);
  so_depends : forall k r d, In r (reqs_of g k) -> In d (req_depends r) -> linked g Downwards (req_id r) (ref_id d);
  so_titles : forall rel l, In rel (g_relations g) -> is_link g rel l ->
    match ref_title (lk_ref l) with
    | Some t => req_title (referenced l) = Some t
    | None => wants_title g (referenced_artefact rel l) = false
    end;
  so_underived : forall k a r, oget k (g_artefacts g) = Some a -> art_ignore_derived a = false ->
    In r (reqs_of g k) -> covers_something g k r
}.

(** ** The process *)
(** A configuration of a known version. *)
Definition usable (cf : option config) (c : config) : Prop :=
  cf = Some c /\ (cf_version c = None \/ cf_version c = Some 0).
(** The jobs to run. *)
Definition chosen (c : controller) (jobs : list str) : list str :=
  match jobs with [] => ctl_default_jobs c | _ => jobs end.
