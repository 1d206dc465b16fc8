(** Vocabulary for statements about a whole run: from the files of a project to the exit status. *)
From Verif Require Import Base OMap Models Unicode Utf8 Paths MdSyntax MdParser MdSpec MdFacts MdLines MdCor MdCor2 RustParser RustSpec Formatters
  Controller TraceSpec FmtSpec CtlSpec.
Open Scope N_scope.

(** A Trace job that sets the return code is among the jobs to run. *)
Definition traces (cf : config) (jobs : list str) : Prop :=
  exists n j, In n (match jobs with [] => opt_default (cf_default_jobs cf) [] | _ => jobs end) /\
    oget n (opt_default (cf_jobs cf) []) = Some j /\ job_query j = QTrace /\ counts j.

Section E2ESpec.
  Context {U : UnicodeTables} {I : Inputs}.

  (** The file of a Markdown artefact can be read and has the content [r]. *)
  Definition markdown_file (cf : config) (base : path) (id : artefact_id) (p : path) (r : reader) : Prop :=
    exists ac q, last_config cf id = Some ac /\ ac_parser ac = PMarkdown /\ ac_paths ac = [q] /\
      p = path_join base q /\ in_open p = inl r.
  Definition is_rust (cf : config) (id : artefact_id) : Prop :=
    exists ac, last_config cf id = Some ac /\ ac_parser ac = PRust.

  (** File [f] of a Rust artefact has the syntax tree [tree]. *)
  Definition rust_file (cf : config) (base : path) (id : artefact_id) (f : path) (tree : node) : Prop :=
    exists ac files r source, last_config cf id = Some ac /\ ac_parser ac = PRust /\
      expands base (ac_paths ac) files /\ In f files /\ in_open f = inl r /\
      read_to_string r = ROk source /\ in_syn source = inl tree.

  (** No heading other than those of requirements follows the last requirement of a file. *)
  Definition ends_in_requirement (r : reader) : Prop :=
    ~ exists n l, In (n, l) (doc_lines r) /\ plain_heading l /\ after_headings (doc_lines r) n.

  (** A requirement of the file with the given id names [other] in its (last) Depends attribute. *)
  Definition depends_on (p : path) (r : reader) (id other : requirement_id) : Prop :=
    exists s be d, In s (doc_sections r) /\ section_ok s be /\ snd (fst (section_head s)) = id /\
      In d (current p false (fst be)) /\ ref_id d = other.

  (** The reference of a mark names a requirement; its title, if there is one, is right. *)
  Definition names (m : mark) (id title : str) : Prop :=
    refers (mk_tokens m) id None \/ refers (mk_tokens m) id (Some title).
End E2ESpec.
