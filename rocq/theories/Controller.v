(** Model of /repo/src/controller.rs.

    The world: file contents and glob results are fixed while the artefacts are read; the outcome
    of every write operation may depend on all write operations before it ([history]).
    Simplifications: log output and timing are left out; the result of writing the whole text of
    a job is asked for at once (the parts are written one after the other, the text before a
    failure is a prefix of the whole); text is cut between characters, not bytes. *)
From Verif Require Import Base OMap Models Unicode Utf8 Paths MdParser MonoParser RustParser Tracer
  Show Sort Serialize MdFmt Formatters.
Open Scope N_scope.

(** models.rs:56-62 *)
Inductive parser := PMarkdown | PRust | PMonoRequirement | PJson.

(** models.rs:64-75 *)
Record artefact_config := mkArtefactConfig {
  ac_id : artefact_id;
  ac_paths : list str;
  ac_parser : parser;
  ac_ignore_derived : option bool;
  ac_reference_with_title : option bool
}.

(** models.rs:95-101 *)
Record job := mkJob {
  job_query : query;
  job_format : format;
  job_file : path;
  job_set_return_code : option bool
}.

(** models.rs:77-84 *)
Record config := mkConfig {
  cf_version : option N;
  cf_artefacts : list artefact_config;
  cf_relations : list relation;
  cf_jobs : option (omap str job);
  cf_default_jobs : option (list str)
}.

(** controller.rs:17-26 *)
Inductive controller_error :=
| CConfig (msg : str)
| CUnknownJob (name : str)
| CIo (p : path) (msg : str).

(** controller.rs:28-35 *)
Inductive job_success := Success | ErrorsDetected.

(** What is read from the world. *)
Class Inputs := {
  in_open : path -> reader + str;                          (* fs::File::open *)
  in_glob : str -> list (path + (path * str)) + str;       (* glob::glob and its iterator *)
  in_syn : str -> node + (span_pos * str);                 (* syn::parse_file *)
  in_debug_tokens : list token -> str;                     (* {:?} of tokens *)
  in_json : reader -> option json;                         (* text to JSON value, by serde_json *)
  in_json_error : reader -> str                            (* display text of serde_json's error *)
}.

Section Reading.
  Context {U : UnicodeTables} {D : Debug} {I : Inputs}.

  (** controller.rs:47-50: the entries up to the first error *)
  Fixpoint glob_entries (l : list (path + (path * str))) : list path + error :=
    match l with
    | [] => inl []
    | inl p :: l' => match glob_entries l' with inl ps => inl (p :: ps) | inr e => inr e end
    | inr (p, m) :: _ => inr (EIo p m)
    end.

  (** controller.rs:37-54 *)
  Fixpoint glob_paths (base : path) (paths : list str) : list path + error :=
    match paths with
    | [] => inl []
    | p :: paths' =>
        match in_glob (if is_absolute p then p else base ++ L "/" ++ p) with
        | inr m => inr (EIo p m)
        | inl entries =>
            match glob_entries entries with
            | inr e => inr e
            | inl ps => match glob_paths base paths' with inl qs => inl (ps ++ qs) | inr e => inr e end
            end
        end
    end.

  (** `{:?}` *)
  Definition debug_parser (p : parser) : str :=
    match p with
    | PMarkdown => L "Markdown"
    | PRust => L "Rust"
    | PMonoRequirement => L "MonoRequirement"
    | PJson => L "Json"
    end.
  Definition debug_strs (l : list str) : str := L "[" ++ join (L ", ") (map debug_str l) ++ L "]".

  Definition parsed : Type := (list path * list requirement * list error)%type.

  (** controller.rs:83-92 *)
  Definition json_parse (p : path) (r : reader) : list requirement * list error :=
    let failed := ([], [EFormat (new_with_no_pos p) (in_json_error r)]) in
    match in_json r with
    | Some v => match unjson_requirements v with Some reqs => (reqs, []) | None => failed end
    | None => failed
    end.

  (** controller.rs:56-98 *)
  Definition parse_single_file (ac : artefact_config) (base : path) : outcome parsed :=
    match ac_paths ac with
    | [p0] =>
        let p := path_join base p0 in
        match in_open p with
        | inr m => Done ([p], [], [EIo p m])
        | inl r =>
            let* res := match ac_parser ac with
                        | PMarkdown => md_parse p r
                        | PMonoRequirement => mono_parse p r
                        | PJson => Done (json_parse p r)
                        | PRust => Panic
                        end in
            Done ([p], fst res, snd res)
        end
    | _ =>
        Done ([], [], [EConfig (L "Expected only 1 file for artefact " ++ ac_id ac ++ L " with parser " ++
                                debug_parser (ac_parser ac) ++ L ", got " ++ debug_strs (ac_paths ac))])
    end.

  (** controller.rs:119-138: the loop over the files *)
  Definition parse_next_file (ac : artefact_config) (s : list requirement * list error) (p : path)
    : outcome (list requirement * list error) :=
    match in_open p with
    | inr m => Done (fst s, snd s ++ [EIo p m])
    | inl r =>
        let* res := match ac_parser ac with
                    | PRust => rust_parse in_syn in_debug_tokens p r
                    | _ => Panic
                    end in
        Done (fst s ++ fst res, snd s ++ snd res)
    end.

  (** controller.rs:100-142 *)
  Definition parse_multiple_files (ac : artefact_config) (base : path) : outcome parsed :=
    if is_nil (ac_paths ac) then
      Done ([], [], [EConfig (L "No Paths for artefact " ++ ac_id ac)])
    else
      match glob_paths base (ac_paths ac) with
      | inr e => Done (ac_paths ac, [], [e])
      | inl paths =>
          let* s := for_each paths (parse_next_file ac) ([], []) in
          Done (paths, fst s, snd s)
      end.

  (** controller.rs:154-159 *)
  Definition parse_files (ac : artefact_config) (base : path) : outcome parsed :=
    match ac_parser ac with
    | PRust => parse_multiple_files ac base
    | PJson | PMarkdown | PMonoRequirement => parse_single_file ac base
    end.

  (** controller.rs:162-173: one requirement *)
  Definition store (s : omap requirement_id requirement * list error) (r : requirement)
    : omap requirement_id requirement * list error :=
    match oget (req_id r) (fst s) with
    | Some old => (fst s, snd s ++ [EDuplicateRequirement old r])
    | None => (oins (req_id r) r (fst s), snd s)
    end.

  (** controller.rs:144-177 *)
  Definition parse_from_config (ac : artefact_config) (base : path)
    : outcome (list path * omap requirement_id requirement * list error) :=
    let* x := parse_files ac base in
    let '(paths, reqs, errs) := x in
    let s := fold_left store reqs ([], errs) in
    Done (paths, fst s, snd s).

  (** controller.rs:194-195 *)
  Definition roots_init (acs : list artefact_config) : omap artefact_id bool :=
    ocollect (map (fun ac => (ac_id ac, true)) acs).

  (** controller.rs:206-215: a lower artefact *)
  Definition roots_lower (m : omap artefact_id bool) (la : artefact_id) : outcome (omap artefact_id bool) :=
    match oget la m with
    | None => Panic (* todo!() *)
    | Some _ => Done (oins la false m)
    end.
  (** controller.rs:197-216: a relation *)
  Definition roots_relation (m : omap artefact_id bool) (rel : relation) : outcome (omap artefact_id bool) :=
    match oget (rel_upper rel) m with
    | None => Panic (* todo!() *)
    | Some _ => for_each (rel_lower rel) roots_lower m
    end.

  (** controller.rs:218-241: one artefact *)
  Definition add_artefact (roots : omap artefact_id bool) (base : path)
    (arts : omap artefact_id artefact) (ac : artefact_config) : outcome (omap artefact_id artefact) :=
    let* root := unwrap (oget (ac_id ac) roots) in
    let ignore := opt_default (ac_ignore_derived ac) root in
    let with_title := opt_default (ac_reference_with_title ac) false in
    let* x := parse_from_config ac base in
    let '(files, reqs, errs) := x in
    let untitled := map ERequirementWithoutTitle
                      (filter (fun r => match req_title r with None => true | Some _ => false end) (ovalues reqs)) in
    let errs' := if with_title then errs ++ untitled else errs in
    Done (oins (ac_id ac) (mkArtefact (ac_id ac) files ignore with_title reqs errs') arts).

  (** controller.rs:179-186 *)
  Record controller := mkController {
    ctl_base : path;
    ctl_graph : graph;
    ctl_traced : traced_graph;
    ctl_jobs : omap str job;
    ctl_default_jobs : list str
  }.

  (** controller.rs:189-259 *)
  Definition controller_new (cf : config) (base : path) : outcome controller :=
    let* roots := for_each (cf_relations cf) roots_relation (roots_init (cf_artefacts cf)) in
    let* arts := for_each (cf_artefacts cf) (add_artefact roots base) [] in
    let g := mkGraph arts (cf_relations cf) in
    let* tg := trace g in
    Done (mkController base g tg (opt_default (cf_jobs cf) []) (opt_default (cf_default_jobs cf) [])).
End Reading.

(** ** Running jobs *)
(** Where a job writes to. *)
Inductive sink := Stdout | ToFile (p : path).

(** A write operation and its result: [None], or the error text. *)
Inductive event :=
| EvMakeDirs (p : path) (failed : option str)
| EvCreate (p : path) (failed : option str)   (* creates the file or empties it *)
| EvWrite (s : sink) (text : str) (failed : option str). (* [text] has been written *)
(** Oldest first. *)
Definition history := list event.

Class Outputs := {
  out_parent : path -> option path;                          (* Path::parent *)
  out_make_dirs : history -> path -> option str;             (* fs::create_dir_all *)
  out_create : history -> path -> option str;                (* fs::File::create *)
  out_write : history -> sink -> str -> option (nat * str)   (* failure: characters written, error *)
}.

(** A result with the history; a panic keeps the history. *)
Inductive result (A : Type) := ROkay (a : A) | RFail (e : controller_error) | RPanic.
Arguments ROkay {A} a.
Arguments RFail {A} e.
Arguments RPanic {A}.

Section Running.
  Context {D : Debug} {US : UnstableSort} {CT : CaseTables} {J : JsonText} {O : Outputs}.

  (** controller.rs:324-342: open the output *)
  Definition open_output (c : controller) (j : job) (h : history) : history * result sink :=
    if eqb (job_file j) (L "-") then (h, ROkay Stdout)
    else
      let p := if is_absolute (job_file j) then job_file j else path_join (ctl_base c) (job_file j) in
      let '(h1, dirs) :=
        match out_parent p with
        | Some d => let r := out_make_dirs h d in
                    (h ++ [EvMakeDirs d r], match r with Some m => Some (d, m) | None => None end)
        | None => (h, None)
        end in
      match dirs with
      | Some (d, m) => (h1, RFail (CIo d m))
      | None =>
          let r := out_create h1 p in
          (h1 ++ [EvCreate p r], match r with Some m => RFail (CIo p m) | None => ROkay (ToFile p) end)
      end.

  (** controller.rs:344-376, 378-390 *)
  Definition errors_detected (c : controller) (q : query) : bool :=
    match q with
    | QTrace =>
        let tg := ctl_traced c in
        negb (is_nil (tg_errors tg)) ||
        existsb (fun a => negb (is_nil (art_errors a))) (ovalues (tg_artefacts tg)) ||
        existsb (fun t => negb (is_nil (tr_uncovered t))) (tg_relations tg) ||
        existsb (fun d => negb (is_nil d)) (ovalues (tg_derived tg))
    | QParse => existsb (fun a => negb (is_nil (art_errors a))) (ovalues (g_artefacts (ctl_graph c)))
    end.

  Definition job_text (c : controller) (j : job) : outcome str :=
    match job_query j with
    | QTrace => fmt_tracing (ctl_traced c) (job_format j)
    | QParse => fmt_requirements (ctl_graph c) (job_format j)
    end.

  (** controller.rs:319-408 *)
  Definition run (c : controller) (j : job) (h : history) : history * result job_success :=
    match open_output c j h with
    | (h1, RFail e) => (h1, RFail e)
    | (h1, RPanic) => (h1, RPanic)
    | (h1, ROkay s) =>
        match job_text c j with
        | Panic => (h1, RPanic)
        | Done text =>
            match out_write h1 s text with
            | Some (n, m) => (h1 ++ [EvWrite s (firstn n text) (Some m)], RFail (CIo (job_file j) m))
            | None => (h1 ++ [EvWrite s text None],
                       ROkay (if errors_detected c (job_query j) then ErrorsDetected else Success))
            end
        end
    end.

  (** controller.rs:296-307 *)
  Fixpoint run_jobs (c : controller) (jobs : list job) (success : job_success) (h : history)
    : history * result job_success :=
    match jobs with
    | [] => (h, ROkay success)
    | j :: jobs' =>
        match run c j h with
        | (h1, ROkay Success) => run_jobs c jobs' success h1
        | (h1, ROkay ErrorsDetected) =>
            run_jobs c jobs' (if opt_default (job_set_return_code j) true then ErrorsDetected else success) h1
        | (h1, r) => (h1, r)
        end
    end.

  (** controller.rs:261-263, 277-286: all names are looked up first *)
  Fixpoint find_jobs (c : controller) (names : list str) : list job + controller_error :=
    match names with
    | [] => inl []
    | n :: names' =>
        match oget n (ctl_jobs c) with
        | None => inr (CUnknownJob n)
        | Some j => match find_jobs c names' with inl js => inl (j :: js) | inr e => inr e end
        end
    end.

  (** controller.rs:276-288 *)
  Definition run_jobs_by_name (c : controller) (names : list str) (h : history)
    : history * result job_success :=
    match find_jobs c names with
    | inr e => (h, RFail e)
    | inl jobs => run_jobs c jobs Success h
    end.

  (** controller.rs:265-274 *)
  Definition run_default_jobs (c : controller) (h : history) : history * result job_success :=
    if is_nil (ctl_default_jobs c) then (h, RFail (CConfig (L "no default_jobs configured")))
    else run_jobs_by_name c (ctl_default_jobs c) h.
End Running.

(** Model of /repo/src/main.rs.  The command line has been parsed by clap; [cf] is what reading
    and decoding the configuration file gives; that and the messages on stderr are in Config.v. *)
Inductive exit := Exit (status : N) | Panicked.

Section Main.
  Context {U : UnicodeTables} {D : Debug} {US : UnstableSort} {CT : CaseTables} {J : JsonText}
    {I : Inputs} {O : Outputs}.

  (** main.rs:15 *)
  Definition CONFIG_VERSION : N := 0.

  (** main.rs:60-95; the error text is not kept *)
  Definition get_config (cf : option config) : option config :=
    match cf with
    | None => None
    | Some c => match cf_version c with
                | Some v => if CONFIG_VERSION <? v then None else Some c
                | None => Some c
                end
    end.

  (** main.rs:97-110 *)
  Definition run_cli_jobs (c : controller) (jobs : list str) (h : history) : history * result job_success :=
    if is_nil jobs then run_default_jobs c h else run_jobs_by_name c jobs h.

  (** main.rs:112-134 *)
  Definition main_rc (cf : option config) (base : path) (jobs : list str) : history * exit :=
    match get_config cf with
    | None => ([], Exit 2)
    | Some c =>
        match controller_new c base with
        | Panic => ([], Panicked)
        | Done ctl =>
            match run_cli_jobs ctl jobs [] with
            | (h, ROkay Success) => (h, Exit 0)
            | (h, ROkay ErrorsDetected) => (h, Exit 1)
            | (h, RFail _) => (h, Exit 2)
            | (h, RPanic) => (h, Panicked)
            end
        end
    end.
End Main.
