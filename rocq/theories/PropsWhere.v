(** Property C105: where files are.
    Vocabulary: Where.v ([seen_from], [pattern_from], [steps]), CtlSpec.v ([file_result], [file_panics]), [only_in] of
    WhereFacts.v; model: Controller.v.  Opening and finding files are arbitrary. *)
From Verif Require Import Base OMap Models Unicode Utf8 Paths MdParser MonoParser RustParser Tracer
  Show Sort Serialize Tags MdFmt Formatters Controller FmtSpec CtlSpec CtlExamples Where WhereFacts.
Open Scope N_scope.

#[local] Existing Instance sample_debug.
#[local] Existing Instance sample_json.
#[local] Existing Instance sample_inputs.
#[local] Existing Instance sample_outputs.
#[local] Existing Instance ascii_case.

(** C105: the file of an artefact other than Rust is the configured path as seen from the base directory. *)
Theorem C105_reads : forall {U : UnicodeTables} {D : Debug} {I : Inputs} ac base p q,
  ac_parser ac <> PRust -> ac_paths ac = [p] -> seen_from base p q ->
  match parse_files ac base with
  | Done (files, reqs, errs) => files = [q] /\ file_result (ac_parser ac) q (reqs, errs)
  | Panic => file_panics (ac_parser ac) q
  end.
Proof. intros U D I. exact reads_seen. Qed.
Print Assumptions C105_reads.

(** The output of a job goes to its file as seen from the base directory, and nowhere else. *)
Theorem C105_writes : forall {U : UnicodeTables} {D : Debug} {US : UnstableSort} {CT : CaseTables} {J : JsonText}
    {I : Inputs} {O : Outputs} cf base c j h h' r q,
  controller_new cf base = Done c -> job_file j <> L "-" -> seen_from base (job_file j) q -> run c j h = (h', r) ->
  exists ev, h' = h ++ ev /\ Forall (only_in q) ev.
Proof.
  intros U D US CT J I O cf base c j h h' r q HC HF HS. apply (writes_seen c j h h' r q HF).
  rewrite (controller_base cf base c HC). exact HS.
Qed.
Print Assumptions C105_writes.

(** For a Rust artefact, the base directory, a slash and the path are given to glob. *)
Theorem C105_patterns : forall {U : UnicodeTables} {D : Debug} {I : Inputs} ac base p q,
  ac_parser ac = PRust -> ac_paths ac = [p] -> pattern_from base p q ->
  (forall m, in_glob q = inr m -> parse_files ac base = Done ([p], [], [EIo p m])) /\
  (forall fs files reqs errs, in_glob q = inl (map inl fs) -> parse_files ac base = Done (files, reqs, errs) -> files = fs).
Proof. intros U D I. exact patterns_seen. Qed.
Print Assumptions C105_patterns.

(** What one sees from a directory: one path, which is absolute if the directory or the path is, and leads through
    the directory and then along the path. *)
Theorem C105_one : forall base p, exists q, seen_from base p q /\ forall q', seen_from base p q' -> q' = q.
Proof. exact seen_total. Qed.
Print Assumptions C105_one.
Theorem C105_absolute : forall base p q, seen_from base p q -> (absolute q <-> absolute p \/ absolute base).
Proof. exact seen_absolute. Qed.
Print Assumptions C105_absolute.
Theorem C105_leads : forall base p q l m,
  seen_from base p q \/ pattern_from base p q -> ~ absolute p -> steps base l -> steps p m -> steps q (l ++ m).
Proof. intros base p q l m [H|H]; [exact (seen_steps base p q l m H)|exact (pattern_steps base p q l m H)]. Qed.
Print Assumptions C105_leads.
Theorem C105_walk : forall p, exists l, steps p l /\ forall l', steps p l' -> l' = l.
Proof.
  intros p. destruct (steps_exist p) as (l & H). exists l. split; [exact H|]. intros l' H'. exact (steps_unique p l' l H' H).
Qed.
Print Assumptions C105_walk.

(** The same for patterns, if the base directory is not empty; otherwise the pattern starts at the root. *)
Theorem C105_pattern_absolute : forall base p q,
  pattern_from base p q -> base <> [] -> (absolute q <-> absolute p \/ absolute base).
Proof. exact pattern_absolute. Qed.
Print Assumptions C105_pattern_absolute.
Theorem C105_empty_base_refuted :
  ~ forall base p q, pattern_from base p q -> (absolute q <-> absolute p \/ absolute base).
Proof.
  intros H. destruct (H [] (L "src/a.rs") (L "/src/a.rs")) as [H1 _].
  - apply (pf_relative []). intros (q & E). discriminate.
  - destruct H1 as [(q & E)|(q & E)]; [exists (L "src/a.rs"); reflexivity|discriminate|discriminate].
Qed.
Print Assumptions C105_empty_base_refuted.

Example C105_example :
  seen_from (L "a/b/") (L "./c.md") (L "a/b/./c.md") /\ seen_from (L "/a") (L "c.md") (L "/a/c.md") /\
  seen_from (L "a") (L "/c.md") (L "/c.md") /\ steps (L "a/b/./c.md") [L "a"; L "b"; L "c.md"] /\
  pattern_from (L ".") (L "src/*.rs") (L "./src/*.rs") /\
  parse_files (U := ascii_tables) (mkArtefactConfig (L "A") [L "none.md"] PMarkdown None None) (L "/p/") =
    parse_files (U := ascii_tables) (mkArtefactConfig (L "A") [L "none.md"] PMarkdown None None) (L "/p").
Proof.
  assert (HR : forall c s, c <> 47 -> ~ absolute (c :: s)) by (intros c s Hc (q & E); injection E as -> _; apply Hc; reflexivity).
  split; [|split; [|split; [|split; [|split]]]].
  - apply (sf_slash (L "a/b")). apply HR. discriminate.
  - apply (sf_dir (L "/a")); [apply HR; discriminate|discriminate|]. intros b E.
    apply (f_equal (fun x => last x 0)) in E. change (L "/") with [47] in E. rewrite last_last in E. discriminate.
  - constructor. exists (L "c.md"). reflexivity.
  - apply (st_more (L "a") (L "b/./c.md") [L "b"; L "c.md"]); [cbn; intuition discriminate|].
    apply (st_more (L "b") (L "./c.md") [L "c.md"]); [cbn; intuition discriminate|].
    apply (st_more (L ".") (L "c.md") [L "c.md"]); [cbn; intuition discriminate|].
    apply (st_last (L "c.md")). cbn. intuition discriminate.
  - apply (pf_relative (L ".")). apply HR. discriminate.
  - vm_compute. reflexivity.
Qed.
