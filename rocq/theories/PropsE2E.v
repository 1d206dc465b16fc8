(** Property C60: from the source files to the exit status.
    Vocabulary: E2ESpec.v, CtlSpec.v, MdSpec.v, RustSpec.v; model: Controller.v. *)
From Verif Require Import Base OMap Models Unicode Utf8 Paths MdSyntax MdParser MdSpec MdFacts MdCor MdCor2 MdRefs RustParser RustSpec Tracer
  TraceSpec Aggregator Show Sort Serialize Tags MdFmt Formatters Controller FmtSpec CtlSpec E2ESpec E2E CtlExamples.
Open Scope N_scope.

(** C60: if the process ends with status 0 after a Trace job, every requirement heading of a
    Markdown file above Rust sources has a call of `requirement_covered!` in one of them, with the
    right title if any, or depends on a scope that has such a call ... *)
Theorem C60_headings_covered : forall {U : UnicodeTables} {D : Debug} {US : UnstableSort} {CT : CaseTables} {J : JsonText}
    {I : Inputs} {O : Outputs} cf base jobs h c rel p r n id t,
  main_rc cf base jobs = (h, Exit 0) -> usable cf c -> traces c jobs ->
  In rel (cf_relations c) -> markdown_file c base (rel_upper rel) p r -> ends_in_requirement r ->
  (forall la, In la (rel_lower rel) -> is_rust c la) ->
  In (n, id, t) (headings (doc_lines r)) ->
  exists la f tree m, In la (rel_lower rel) /\ rust_file c base la f tree /\ In m (marks [] tree) /\
    (names m id t \/ depends_on p r id (mark_id m)).
Proof. intros U D US CT J I O. exact headings_covered. Qed.
Print Assumptions C60_headings_covered.

(** ... and every such call in a Rust file refers to a requirement heading. *)
Theorem C60_marks_known : forall {U : UnicodeTables} {D : Debug} {US : UnstableSort} {CT : CaseTables} {J : JsonText}
    {I : Inputs} {O : Outputs} cf base jobs h c la f tree m,
  main_rc cf base jobs = (h, Exit 0) -> usable cf c -> traces c jobs ->
  rust_file c base la f tree -> In m (marks [] tree) ->
  exists rel id t, In rel (cf_relations c) /\ In la (rel_lower rel) /\ refers (mk_tokens m) id t /\
    forall p r, markdown_file c base (rel_upper rel) p r ->
      exists n title, In (n, id, title) (headings (doc_lines r)) /\ (t = None \/ t = Some title).
Proof. intros U D US CT J I O. exact marks_known. Qed.
Print Assumptions C60_marks_known.

(** A project: a Markdown file, a Rust file. *)
Definition e2e_inputs (text : string) (tree : node) : Inputs := {|
  in_open := fun p => if eqb p (L "/p/req.md") then inl (mkReader (L text) None)
                      else if eqb p (L "/p/src/main.rs") then inl (mkReader [] None) else inr (L "No such file");
  in_glob := fun _ => inl [inl (L "/p/src/main.rs")];
  in_syn := fun _ => inl tree;
  in_debug_tokens := fun _ => [];
  in_json := fun _ => None;
  in_json_error := fun _ => []
|}.
Definition e2e_config : config :=
  sample_config [mkArtefactConfig (L "REQ") [L "req.md"] PMarkdown None None;
                 mkArtefactConfig (L "SRC") [L "src/*.rs"] PRust None None] [mkRelation (L "REQ") [L "SRC"]].
Definition e2e_run (text : string) (tree : node) : exit :=
  snd (@main_rc ascii_tables sample_debug stable_is_unstable ascii_case sample_json (e2e_inputs text tree) sample_outputs
         (Some e2e_config) (L "/p") [L "gnu"]).
Definition call (id : string) (line : N) : node :=
  NExprMacro [(L "requirement_covered", (line, 4))] [TokIdent (L id) (line, 24)].
Definition main_fn (kids : list node) : node := NOther [NScope KFn (L "main") (1, 3) kids].
Definition one_requirement : string := "# REQ_A: Do it
".

Example C60_example :
  e2e_run one_requirement (main_fn [call "REQ_A" 2]) = Exit 0 /\
  e2e_run one_requirement (main_fn []) = Exit 1 /\
  e2e_run one_requirement (main_fn [call "REQ_A" 2; call "REQ_B" 3]) = Exit 1 /\
  traces e2e_config [L "gnu"] /\
  @markdown_file (e2e_inputs one_requirement (main_fn [])) e2e_config (L "/p") (L "REQ") (L "/p/req.md")
    (mkReader (L one_requirement) None) /\
  @headings ascii_tables (doc_lines (mkReader (L one_requirement) None)) = [(1, L "REQ_A", L "Do it")] /\
  @ends_in_requirement ascii_tables (mkReader (L one_requirement) None).
Proof.
  split; [vm_compute; reflexivity|]. split; [vm_compute; reflexivity|]. split; [vm_compute; reflexivity|].
  split; [|split; [|split]].
  - exists (L "gnu"), (mkJob QTrace GnuError (L "-") None). split; [left; reflexivity|].
    split; [vm_compute; reflexivity|]. split; [reflexivity|discriminate].
  - eexists _, (L "req.md"). split; [vm_compute; reflexivity|]. repeat split; vm_compute; reflexivity.
  - vm_compute. reflexivity.
  - intros (n & l & Hin & (HH & _) & _). vm_compute in Hin. destruct Hin as [E|[]]. inversion E; subst.
    vm_compute in HH. discriminate.
Qed.

(** Without the condition on the end of the file it is false: the requirement before the heading
    "Appendix" is dropped, and nobody notices that it is not covered. *)
Definition with_appendix : string := "# REQ_A: Do it

# REQ_B: And that

# Appendix
".
Theorem C60_headings_covered_refuted :
  ~ forall (U : UnicodeTables) (D : Debug) (US : UnstableSort) (CT : CaseTables) (J : JsonText)
      (I : Inputs) (O : Outputs) cf base jobs h c rel p r n id t,
    main_rc cf base jobs = (h, Exit 0) -> usable cf c -> traces c jobs ->
    In rel (cf_relations c) -> markdown_file c base (rel_upper rel) p r ->
    (forall la, In la (rel_lower rel) -> is_rust c la) ->
    In (n, id, t) (headings (doc_lines r)) ->
    exists la f tree m, In la (rel_lower rel) /\ rust_file c base la f tree /\ In m (marks [] tree) /\
      (names m id t \/ depends_on p r id (mark_id m)).
Proof.
  intros H.
  set (tree := main_fn [call "REQ_A" 2]).
  destruct (@main_rc ascii_tables sample_debug stable_is_unstable ascii_case sample_json (e2e_inputs with_appendix tree)
              sample_outputs (Some e2e_config) (L "/p") [L "gnu"]) as [h x] eqn:E.
  assert (Ex : x = Exit 0).
  { change x with (snd (h, x)). rewrite <- E. vm_compute. reflexivity. }
  subst x.
  specialize (H ascii_tables sample_debug stable_is_unstable ascii_case sample_json (e2e_inputs with_appendix tree)
                sample_outputs (Some e2e_config) (L "/p") [L "gnu"] h e2e_config (mkRelation (L "REQ") [L "SRC"])
                (L "/p/req.md") (mkReader (L with_appendix) None) 3 (L "REQ_B") (L "And that") E).
  destruct H as (la & f & t & m & Hla & HR & Hm & HN).
  - split; [reflexivity|right; reflexivity].
  - exists (L "gnu"), (mkJob QTrace GnuError (L "-") None). split; [left; reflexivity|].
    split; [vm_compute; reflexivity|]. split; [reflexivity|discriminate].
  - left. reflexivity.
  - eexists _, (L "req.md"). split; [vm_compute; reflexivity|]. repeat split; vm_compute; reflexivity.
  - intros la [<-|[]]. eexists. split; vm_compute; reflexivity.
  - vm_compute. right. left. reflexivity.
  - destruct HR as (ac & files & r & source & _ & _ & _ & _ & _ & _ & ES). cbn [in_syn e2e_inputs] in ES.
    inversion ES; subst t. clear ES. vm_compute in Hm. destruct Hm as [<-|[]].
    destruct HN as [[HN|HN]|(s & be & d & Hs & Hok & Hid & Hd & _)].
    + inversion HN.
    + inversion HN.
    + destruct (no_links _ _ _ _ _ Hok Hd) as (x & v & Hx & E1).
      vm_compute in Hs. destruct Hs as [<-|[<-|[]]]; cbn [snd] in Hx; repeat (destruct Hx as [<-|Hx]; [vm_compute in E1; discriminate|]); destruct Hx.
Qed.
Print Assumptions C60_headings_covered_refuted.
