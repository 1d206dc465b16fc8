(** Properties C82 - C87: further promises of the user documentation.
    Vocabulary: MdSpec.v, MdAttr.v, TagRead.v (tags files), TraceChain.v (chains of coverages), CtlSpec.v; models:
    MdParser.v, MonoParser.v, RustParser.v, Serialize.v, Tags.v, Tracer.v, Controller.v. *)
From Coq Require Import Permutation Relations.
From Verif Require Import TraceExamples.
From Verif Require Import Base OMap Models Unicode Utf8 Paths MdSyntax MdParser MdSpec MdFacts MdLines MdCor MdCor2 MdAttr
  MdExamples MonoParser RustParser Tracer TraceSpec Aggregator Location Show Sort Serialize Tags MdFmt Formatters
  FmtSpec FmtCor TagRead Controller CtlSpec CtlExamples E2ESpec DocIds TraceChain SortFree SerdeJson CacheFacts.
Open Scope N_scope.

#[local] Existing Instance ascii_tables.
#[local] Existing Instance sample_debug.
#[local] Existing Instance sample_json.
#[local] Existing Instance sample_outputs.
#[local] Existing Instance ascii_case.

(** C82: an attribute line that follows the heading or an empty line starts an attribute; its value is
    the rest of the line and all lines up to the next heading or attribute line.  ([pre]: the lines of
    the requirement before it; they contain no heading and no format error.) *)
Theorem C82_text : forall {U : UnicodeTables} p r reqs errs s req pre n l rest a first,
  md_parse p r = Done (reqs, errs) -> In s (doc_sections r) -> snd s = pre ++ (n, l) :: rest ->
  content l -> scan_attribute l = Some (a, first) -> a <> COVERS -> a <> DEPENDS ->
  sep pre -> quiet pre ->
  (forall k m, In k (map fst pre) -> ~ In (EFormat (at_line p k) m) errs) ->
  (forall x v, In x rest -> scan_attribute (snd x) <> Some (a, v)) ->
  In req reqs -> req_location req = at_line p (fst (fst (section_head s))) ->
  oget a (req_attributes req) = Some (first ++ concat (text_run rest)).
Proof. intros U p. exact (md_attr_text p). Qed.
Print Assumptions C82_text.

Example C82_example : let doc := "# REQ_A: t

some text

Comment: one

   two
three
Note: four
# REQ_B: b
"%string in
  exists s req reqs errs pre n l rest,
  md doc = Done (reqs, errs) /\ In s (doc_sections (file doc)) /\ snd s = pre ++ (n, l) :: rest /\
  content l /\ scan_attribute l = Some (L "Comment", L "one") /\ sep pre /\ quiet pre /\ errs = [] /\
  (forall x v, In x rest -> scan_attribute (snd x) <> Some (L "Comment", v)) /\
  In req reqs /\ req_location req = at_line sample_path (fst (fst (section_head s))) /\
  oget (L "Comment") (req_attributes req) = Some (L "one
   two
three
").
Proof.
  cbn zeta.
  set (doc := "# REQ_A: t

some text

Comment: one

   two
three
Note: four
# REQ_B: b
"%string).
  destruct (md doc) as [[reqs errs]|] eqn:E; vm_compute in E; [|discriminate]. inversion E as [[H1 H2]].
  exists (nth 0 (doc_sections (file doc)) (0, [], [], [])).
  eexists. exists reqs, errs.
  exists [(2, [NL]); (3, L "some text
"); (4, [NL])], 5, (L "Comment: one
"), [(6, [NL]); (7, L "   two
"); (8, L "three
"); (9, L "Note: four
")].
  subst reqs errs.
  split; [reflexivity|].
  split; [vm_compute; left; reflexivity|].
  split; [vm_compute; reflexivity|].
  split; [split; [reflexivity|discriminate]|].
  split; [vm_compute; reflexivity|].
  split; [right; exists [(2, [NL]); (3, L "some text
")], 4; reflexivity|].
  split; [intros x [<-|[<-|[<-|[]]]] [_ H]; vm_compute in H; discriminate|].
  split; [reflexivity|].
  split; [intros x v [<-|[<-|[<-|[<-|[]]]]] H; vm_compute in H; discriminate|].
  split; [left; reflexivity|].
  split; vm_compute; reflexivity.
Qed.

(** The line break after the first line is lost: two words become one. *)
Definition two_lines : string := "# REQ_A: t
Comment: one
two
".
Theorem C82_joined_refuted :
  ~ exists r errs, md two_lines = Done ([r], errs) /\ oget (L "Comment") (req_attributes r) = Some (L "one
two
").
Proof. intros (r & errs & H & Hv). vm_compute in H. inversion H; subst r. vm_compute in Hv. discriminate. Qed.
Print Assumptions C82_joined_refuted.
Example C82_joined :
  match md two_lines with Done ([r], errs) => (oget (L "Comment") (req_attributes r), errs) | _ => (None, []) end =
  (Some (L "onetwo
"), []).
Proof. vm_compute. reflexivity. Qed.

(** Attributes are not only started by paragraphs: a line within a paragraph of an attribute is enough. *)
Definition within_paragraph : string := "# REQ_A: t

Comment: see
Section: four
".
Theorem C82_paragraph_refuted :
  ~ exists r errs, md within_paragraph = Done ([r], errs) /\ oget (L "Section") (req_attributes r) = None.
Proof. intros (r & errs & H & Hv). vm_compute in H. inversion H; subst r. vm_compute in Hv. discriminate. Qed.
Print Assumptions C82_paragraph_refuted.

(** Not every word followed by a colon starts an attribute: only a capital and small letters a - z. *)
Definition other_words : string := "# REQ_A: t

Comment: one

TODO: two

Review_by: three
".
Theorem C82_word_refuted :
  ~ exists r errs, md other_words = Done ([r], errs) /\
      okeys (req_attributes r) = [L "Comment"; L "Review_by"; L "TODO"].
Proof. intros (r & errs & H & Hv). vm_compute in H. inversion H; subst r. vm_compute in Hv. discriminate. Qed.
Print Assumptions C82_word_refuted.
Example C82_words :
  match md other_words with Done ([r], errs) => (okeys (req_attributes r), errs) | _ => ([], []) end =
  ([L "Comment"], []).
Proof. vm_compute. reflexivity. Qed.

(** C83: reading the tags file line by line, split at tabulators, gives name, file and line of every requirement with a
    line, sorted by name; all lines of the file are sorted.  (Ids and files without tabulators and line breaks, ids
    without characters up to the exclamation mark.) *)
Theorem C83_read : forall {D : Debug} {US : UnstableSort} {CT : CaseTables} {J : JsonText} g,
  (forall r, In r (all_reqs g) -> has_line r = true ->
     plain_text (req_id r) /\ plain_text (loc_file (req_location r)) /\ (forall c, In c (req_id r) -> 33 < c) /\
     req_id r <> []) ->
  exists text lines rs,
    fmt_requirements g Tags = Done text /\ split_lines text = header_lines ++ lines /\
    Forall2 says_tag lines (map entry_of rs) /\
    Permutation (filter has_line (all_reqs g)) rs /\ sorted_by req_id rs /\ sorted_by (fun l => l) (split_lines text).
Proof.
  intros D US CT J g H. destruct (tags_read g H) as (lines & rs & H'). exists (tags_requirements g), lines, rs.
  split; [reflexivity|exact H'].
Qed.
Print Assumptions C83_read.

Theorem C83_unambiguous : forall l e e', says_tag l e -> says_tag l e' -> e = e'.
Proof. exact says_tag_unique. Qed.
Print Assumptions C83_unambiguous.

Example C83_example :
  (forall r, In r (all_reqs TraceExamples.sample) -> has_line r = true ->
     plain_text (req_id r) /\ plain_text (loc_file (req_location r)) /\ (forall c, In c (req_id r) -> 33 < c) /\
     req_id r <> []) /\
  length (filter has_line (all_reqs TraceExamples.sample)) = 8%nat.
Proof.
  split; [|vm_compute; reflexivity]. intros r Hr _. vm_compute in Hr.
  repeat (destruct Hr as [<-|Hr]; [split; [split; vm_compute; intuition discriminate|];
    split; [split; vm_compute; intuition discriminate|];
    split; [|discriminate]; intros c Hc; vm_compute in Hc; intuition (subst; lia)|]). destruct Hr.
Qed.

(** Not every requirement has an entry: those without a line, as all requirements of mono artefacts, have none. *)
Definition no_line_graph : graph :=
  rgraph [rart "A" false false [mkRequirement (L "REQ") None (new_with_no_pos (L "REQ.md")) [] [] [] []]] [].
Theorem C83_all_refuted :
  ~ forall (g : graph) r, In r (all_reqs g) ->
      exists text l n, fmt_requirements g Tags = Done text /\ In l (split_lines text) /\
        says_tag l (req_id r, loc_file (req_location r), n).
Proof.
  intros H.
  destruct (H no_line_graph (mkRequirement (L "REQ") None (new_with_no_pos (L "REQ.md")) [] [] [] [])) as (text & l & n & E & Hl & d & Hd & _).
  - left. reflexivity.
  - vm_compute in E. inversion E; subst text. vm_compute in Hl.
    repeat destruct Hl as [<-|Hl]; try (vm_compute in Hd; discriminate). destruct Hl.
Qed.
Print Assumptions C83_all_refuted.

(** A tabulator in a file name shifts the fields. *)
Theorem C83_tab_refuted :
  ~ forall (g : graph) r, In r (all_reqs g) -> has_line r = true ->
      exists text l n, fmt_requirements g Tags = Done text /\ In l (split_lines text) /\
        says_tag l (req_id r, loc_file (req_location r), n).
Proof.
  intros H. set (q := mkRequirement (L "REQ") None (new_with_line_no [97; 9; 98] 1) [] [] [] []).
  destruct (H (rgraph [rart "A" false false [q]] []) q) as (text & l & n & E & Hl & d & Hd & _).
  - left. reflexivity.
  - reflexivity.
  - vm_compute in E. inversion E; subst text. vm_compute in Hl.
    repeat destruct Hl as [<-|Hl]; try (vm_compute in Hd; discriminate). destruct Hl.
Qed.
Print Assumptions C83_tab_refuted.

(** Tracing cannot be exported as tags: the program panics. *)
Theorem C83_trace_refuted :
  ~ forall tg, exists text, fmt_tracing (CT := ascii_case) tg Tags = Done text.
Proof. intros H. destruct (H (mkTracedGraph [] [] [] [])) as (text & E). discriminate. Qed.
Print Assumptions C83_trace_refuted.

(** The header: file is sorted, name, place and version of the program. *)
Theorem C83_header : forall {D : Debug} {US : UnstableSort} {CT : CaseTables} {J : JsonText} g text,
  fmt_requirements g Tags = Done text ->
  map fields (firstn 4 (split_lines text)) =
  [ [L "!_TAG_FILE_SORTED"; L "1"; L "/0=unsorted, 1=sorted, 2=foldcase/" ++ [NL]];
    [L "!_TAG_PROGRAM_NAME"; L "reqtrace/" ++ [NL]];
    [L "!_TAG_PROGRAM_URL"; L "https://github.com/wonkodv/reqtrace/" ++ [NL]];
    [L "!_TAG_PROGRAM_VERSION"; L "0"; L "//" ++ [NL]] ].
Proof. intros D US CT J g text H. injection H as <-. exact (header_fields g). Qed.
Print Assumptions C83_header.

(** In the tags format every line has three fields at least (name, value or file, `/comment/` or place). *)
Theorem C83_header_refuted :
  ~ forall (D : Debug) (US : UnstableSort) (CT : CaseTables) (J : JsonText) g text l, fmt_requirements g Tags = Done text ->
      In l (split_lines text) -> exists name value comment more, fields l = name :: value :: comment :: more.
Proof.
  intros H. pose (text := tags_requirements (mkGraph [] [])).
  destruct (H _ stable_is_unstable _ _ (mkGraph [] []) text (L "!_TAG_PROGRAM_NAME" ++ [TAB] ++ L "reqtrace/" ++ [NL]) eq_refl)
    as (a & b & c & m & E).
  - vm_compute. right. left. reflexivity.
  - vm_compute in E. discriminate.
Qed.
Print Assumptions C83_header_refuted.

(** C84: ids of Markdown requirements and of bullet references have the documented form. *)
Theorem C84_markdown : forall {U : UnicodeTables} {D : Debug} {I : Inputs} cf base c id a ac,
  controller_new cf base = Done c -> oget id (g_artefacts (ctl_graph c)) = Some a ->
  last_config cf id = Some ac -> ac_parser ac = PMarkdown ->
  forall q, In q (ovalues (art_requirements a)) ->
    valid_id (req_id q) /\
    forall x, In x (req_covers q ++ req_depends q) -> bullet_ref_wf x \/ inline_ref_wf x.
Proof. intros U D I. exact markdown_ids. Qed.
Print Assumptions C84_markdown.

Example C84_example : exists c a,
  @controller_new _ _ sample_inputs good_config (L "/p") = Done c /\
  oget (L "B") (g_artefacts (ctl_graph c)) = Some a /\
  last_config good_config (L "B") = Some b_config /\ ac_parser b_config = PMarkdown /\
  map (fun q => (req_id q, map ref_id (req_covers q))) (ovalues (art_requirements a)) = [(L "REQ_B", [L "REQ_A"])].
Proof.
  destruct (@controller_new _ _ sample_inputs good_config (L "/p")) as [c|] eqn:E; [|vm_compute in E; discriminate].
  vm_compute in E. injection E as <-. eexists _, _. repeat (split; [vm_compute; reflexivity|]). vm_compute. reflexivity.
Qed.

(** The documented form of ids. *)
Lemma not_valid_dash : ~ valid_id (L "a-b").
Proof. intros (c & w & E & _ & _ & H). inversion E; subst. vm_compute in H. discriminate. Qed.
Lemma not_valid_scope : ~ valid_id (L "m::foo").
Proof. intros (c & w & E & _ & _ & H). inversion E; subst. vm_compute in H. discriminate. Qed.

(** References in short lists need not have it, nor ids of the other artefacts. *)
Theorem C84_short_list_refuted :
  ~ forall p r reqs errs q x, md_parse p r = Done (reqs, errs) -> In q reqs -> In x (req_covers q) -> valid_id (ref_id x).
Proof.
  intros H. apply not_valid_dash.
  destruct (md "# REQ_A: t
Covers: a-b
") as [[reqs errs]|] eqn:E; [|vm_compute in E; discriminate].
  pose proof E as E'. vm_compute in E'. inversion E'; subst reqs errs.
  refine (H _ _ _ _ _ (mkReference (L "a-b") None _) E (or_introl eq_refl) _). left. reflexivity.
Qed.
Print Assumptions C84_short_list_refuted.
Theorem C84_mono_refuted :
  ~ forall p r reqs errs q, mono_parse p r = Done (reqs, errs) -> In q reqs -> valid_id (req_id q).
Proof.
  intros H. apply not_valid_dash.
  destruct (mono_parse (L "a-b.txt") (mkReader (L "Title") None)) as [[reqs errs]|] eqn:E; [|vm_compute in E; discriminate].
  pose proof E as E'. vm_compute in E'. inversion E'; subst reqs errs.
  exact (H _ _ _ _ _ E (or_introl eq_refl)).
Qed.
Print Assumptions C84_mono_refuted.
Theorem C84_rust_refuted :
  ~ forall syn dbg p r reqs errs q, rust_parse syn dbg p r = Done (reqs, errs) -> In q reqs -> valid_id (req_id q).
Proof.
  intros H. apply not_valid_scope.
  set (t := NOther [NScope KMod (L "m") (1, 1) [NScope KFn (L "foo") (2, 1)
              [NExprMacro [(L "requirement_covered", (3, 1))] [TokIdent (L "REQ_A") (3, 1)]]]]).
  destruct (rust_parse (fun _ => inl t) (fun _ => []) (L "f.rs") (mkReader [] None)) as [[reqs errs]|] eqn:E;
    [|vm_compute in E; discriminate].
  pose proof E as E'. vm_compute in E'. inversion E'; subst reqs errs.
  exact (H _ _ _ _ _ _ _ E (or_introl eq_refl)).
Qed.
Print Assumptions C84_rust_refuted.
Theorem C84_json_refuted :
  ~ forall v reqs q, unjson_requirements v = Some reqs -> In q reqs -> valid_id (req_id q).
Proof.
  intros H. apply not_valid_dash.
  set (q := mkRequirement (L "a-b") None (new_with_no_pos (L "f")) [] [] [] []).
  destruct (unjson_requirements (JArr [json_requirement q])) as [reqs|] eqn:E; [|vm_compute in E; discriminate].
  pose proof E as E'. vm_compute in E'. inversion E'; subst reqs.
  exact (H _ _ _ E (or_introl eq_refl)).
Qed.
Print Assumptions C84_json_refuted.

(** C85: in a graph without loops, if nothing is uncovered, a chain of coverages leads from every requirement to a
    requirement of an artefact that need not be covered ... *)
Theorem C85_down : forall g tg,
  graph_wf g -> trace g = Done tg -> no_loops g -> (forall tr, In tr (tg_relations tg) -> tr_uncovered tr = []) ->
  forall k r, In r (reqs_of g k) ->
  exists k' r', chain tg (req_id r) (req_id r') /\ In r' (reqs_of g k') /\ leaf g k'.
Proof. exact chain_down. Qed.
Print Assumptions C85_down.

(** ... and if nothing is derived, every requirement is reached by one from a requirement of an artefact whose derived
    requirements are ignored. *)
Theorem C85_up : forall g tg,
  graph_wf g -> trace g = Done tg -> no_loops g -> unique_ids g ->
  (forall k d, oget k (tg_derived tg) = Some d -> d = []) ->
  forall k r, In r (reqs_of g k) ->
  exists k' a' r', chain tg (req_id r') (req_id r) /\ oget k' (g_artefacts g) = Some a' /\
    In r' (ovalues (art_requirements a')) /\ art_ignore_derived a' = true.
Proof. exact chain_up. Qed.
Print Assumptions C85_up.

(** No chain leads back. *)
Theorem C85_no_way_back : forall g tg,
  graph_wf g -> trace g = Done tg -> no_loops g -> unique_ids g ->
  forall id, ~ clos_trans _ (covered_by tg) id id.
Proof. exact chain_irreflexive. Qed.
Print Assumptions C85_no_way_back.

(** All this holds if the process that traces a project without loops returns 0. *)
Theorem C85_exit_0 :
  forall {U : UnicodeTables} {D : Debug} {US : UnstableSort} {CT : CaseTables} {J : JsonText} {I : Inputs} {O : Outputs}
    cf base jobs h c,
  main_rc cf base jobs = (h, Exit 0) -> usable cf c -> traces c jobs ->
  exists ctl, controller_new c base = Done ctl /\
    (no_loops (ctl_graph ctl) -> forall k r, In r (reqs_of (ctl_graph ctl) k) ->
      (exists k' r', chain (ctl_traced ctl) (req_id r) (req_id r') /\ In r' (reqs_of (ctl_graph ctl) k') /\
         leaf (ctl_graph ctl) k') /\
      (exists k' a' r', chain (ctl_traced ctl) (req_id r') (req_id r) /\
         oget k' (g_artefacts (ctl_graph ctl)) = Some a' /\ In r' (ovalues (art_requirements a')) /\
         art_ignore_derived a' = true) /\
      ~ clos_trans _ (covered_by (ctl_traced ctl)) (req_id r) (req_id r)).
Proof. intros U D US CT J I O. exact exit_0_chains. Qed.
Print Assumptions C85_exit_0.

(** A project of two Markdown files; a run of it. *)
Definition chain_inputs : Inputs := {|
  in_open := fun p => inl (mkReader (L (if eqb p (L "/p/a.md") then "# REQ_A: Top
" else if eqb p (L "/p/b.md") then "# REQ_B: Low

Covers: REQ_A
" else "# REQ_C: Self

Covers: REQ_C
")%string) None);
  in_glob := fun _ => inl []; in_syn := fun _ => inl (NOther []); in_debug_tokens := fun _ => [];
  in_json := fun _ => None; in_json_error := fun _ => L "no JSON" |}.
#[local] Existing Instance chain_inputs.
Definition chain_config : config :=
  sample_config [mkArtefactConfig (L "A") [L "a.md"] PMarkdown (Some true) None; b_config] [sample_relation].
Definition loop_config : config :=
  sample_config [md_artefact_config "C" "c.md" None] [mkRelation (L "C") [L "C"]].

Example C85_example : exists c,
  snd (main_rc (Some chain_config) (L "/p") []) = Exit 0 /\ usable (Some chain_config) chain_config /\
  traces chain_config [] /\ controller_new chain_config (L "/p") = Done c /\ no_loops (ctl_graph c) /\
  map req_id (all_reqs (ctl_graph c)) = [L "REQ_A"; L "REQ_B"].
Proof.
  destruct (controller_new chain_config (L "/p")) as [c|] eqn:E; [|vm_compute in E; discriminate].
  exists c. split; [vm_compute; reflexivity|]. split; [split; [reflexivity|right; reflexivity]|].
  split; [exists (L "gnu"); eexists; split; [right; left; reflexivity|]; split; [vm_compute; reflexivity|]; split; [reflexivity|discriminate]|].
  split; [reflexivity|]. vm_compute in E. inversion E; subst c. split; [|vm_compute; reflexivity].
  intros k Hk.
  match type of Hk with clos_trans _ (above ?g) _ _ =>
    assert (H : forall a b, clos_trans _ (above g) a b -> a = L "A" /\ b = L "B") end.
  { clear k Hk. induction 1 as [a b (rel & [<-|[]] & <- & [<-|[]])|a b c _ [-> ->] _ [IH _]]; [split; reflexivity|discriminate]. }
  destruct (H k k Hk) as [-> H']. discriminate.
Qed.

(** With loops it is false, and loops are not reported: a requirement that covers itself is enough. *)
Theorem C85_loop_refuted :
  ~ forall cf base jobs h c ctl,
      main_rc cf base jobs = (h, Exit 0) -> usable cf c -> traces c jobs -> controller_new c base = Done ctl ->
      forall k r, In r (reqs_of (ctl_graph ctl) k) ->
      exists k' r', chain (ctl_traced ctl) (req_id r) (req_id r') /\ In r' (reqs_of (ctl_graph ctl) k') /\ leaf (ctl_graph ctl) k'.
Proof.
  intros H.
  destruct (controller_new loop_config (L "/p")) as [c|] eqn:E; [|vm_compute in E; discriminate].
  pose proof E as E'. vm_compute in E'. 
  destruct (main_rc (Some loop_config) (L "/p") []) as [h o] eqn:EM.
  assert (Eo : o = Exit 0) by (vm_compute in EM; congruence). subst o.
  assert (HT : traces loop_config []).
  { exists (L "gnu"). eexists. split; [right; left; reflexivity|]. split; [vm_compute; reflexivity|]. split; [reflexivity|discriminate]. }
  specialize (H _ _ _ _ _ c EM (conj eq_refl (or_intror eq_refl)) HT E (L "C")). clear EM E HT.
  inversion E'; subst c. cbn [ctl_graph ctl_traced] in H. destruct (H _ (or_introl eq_refl)) as (k' & r' & _ & Hr & Hl).
  destruct (list_eq_dec N.eq_dec k' (L "C")) as [->|Hk].
  - exact (Hl _ (or_introl eq_refl) eq_refl).
  - unfold reqs_of in Hr. cbn [g_artefacts oget] in Hr.
    match type of Hr with context [eqb ?a ?b] => destruct (eqb_spec a b) as [E|_] end; [exact (Hk E)|destruct Hr].
Qed.
Print Assumptions C85_loop_refuted.

(** C86: how the unstable sort arranges errors with equal texts makes no difference, unless a Parse job with format Json
    is run and there are different errors with equal texts. *)
Theorem C86_same :
  forall {U : UnicodeTables} {D : Debug} {CT : CaseTables} {J : JsonText} {I : Inputs} {O : Outputs}
    (US1 US2 : UnstableSort) cf base jobs,
  (forall c ctl, usable cf c -> controller_new c base = Done ctl ->
     told_apart (ctl_graph ctl) \/
     forall n j, In n (chosen ctl jobs) -> oget n (ctl_jobs ctl) = Some j -> ~ lists_errors j) ->
  @main_rc U D US1 CT J I O cf base jobs = @main_rc U D US2 CT J I O cf base jobs.
Proof. intros U D CT J I O. exact main_same. Qed.
Print Assumptions C86_same.

(** Three requirements with the same id are enough for two different errors with the same text. *)
Definition other_sort : UnstableSort := {|
  sort_errors := fun l => sort_by show_error (rev l);
  sort_errors_perm := fun l => perm_trans (Permutation_rev l) (sort_by_perm show_error (rev l));
  sort_errors_sorted := fun l => sort_by_sorted show_error (rev l) |}.
Definition thrice_inputs : Inputs := {|
  in_open := fun p => inl (mkReader (L "# REQ_A: a
# REQ_A: b
# REQ_A: c
") None);
  in_glob := fun _ => inl []; in_syn := fun _ => inl (NOther []); in_debug_tokens := fun _ => [];
  in_json := fun _ => None; in_json_error := fun _ => L "no JSON" |}.
Definition json_config : config :=
  mkConfig None [a_config] [] (Some [(L "json", mkJob QParse Json (L "-") None)]) None.
Theorem C86_same_refuted :
  ~ forall (US1 US2 : UnstableSort) cf base jobs,
      @main_rc ascii_tables sample_debug US1 ascii_case serde_json thrice_inputs sample_outputs cf base jobs =
      @main_rc ascii_tables sample_debug US2 ascii_case serde_json thrice_inputs sample_outputs cf base jobs.
Proof.
  intros H. specialize (H stable_is_unstable other_sort (Some json_config) (L "/p") [L "json"]).
  vm_compute in H. discriminate.
Qed.
Print Assumptions C86_same_refuted.

Example C86_example :
  (forall c ctl, usable (Some chain_config) c -> controller_new c (L "/p") = Done ctl ->
     told_apart (ctl_graph ctl) \/
     forall n j, In n (chosen ctl []) -> oget n (ctl_jobs ctl) = Some j -> ~ lists_errors j).
Proof.
  intros c ctl [Hc _] E. inversion Hc; subst c. vm_compute in E. inversion E; subst ctl.
  right. intros n j [<-|[<-|[]]] Hj [_ HF]; vm_compute in Hj; inversion Hj; subst j; discriminate.
Qed.

(** C87: if the files that were recorded have the same content and the patterns match the same files, another run
    has the same effects and the same status. *)
Theorem C87_cached :
  forall {U : UnicodeTables} {D : Debug} {US : UnstableSort} {CT : CaseTables} {J : JsonText} {O : Outputs}
    (I1 I2 : Inputs) cf base c jobs,
  same_libraries I1 I2 -> NoDup (map ac_id (cf_artefacts cf)) -> usable (Some cf) cf ->
  @controller_new U D I1 cf base = Done c -> same_matches I1 I2 cf base ->
  (forall a f, In a (ovalues (g_artefacts (ctl_graph c))) -> In f (art_files a) -> @in_open I1 f = @in_open I2 f) ->
  @main_rc U D US CT J I1 O (Some cf) base jobs = @main_rc U D US CT J I2 O (Some cf) base jobs.
Proof. intros U D US CT J O I1 I2 cf base c jobs HL. exact (cached_run I1 I2 HL cf base c jobs). Qed.
Print Assumptions C87_cached.

(** Whatever the configuration, the files that are opened and the matches decide. *)
Theorem C87_opened :
  forall {U : UnicodeTables} {D : Debug} (I1 I2 : Inputs) cf base,
  same_libraries I1 I2 -> same_matches I1 I2 cf base ->
  (forall ac f, In ac (cf_artefacts cf) -> @opened I1 base ac f -> @in_open I1 f = @in_open I2 f) ->
  @controller_new U D I1 cf base = @controller_new U D I2 cf base.
Proof. intros U D I1 I2 cf base HL. exact (controller_same I1 I2 HL cf base). Qed.
Print Assumptions C87_opened.

(** Two worlds: in the second there is another file, and the first file has more text before its requirement. *)
Definition world (extra : bool) (intro : string) : Inputs := {|
  in_open := fun p => inl (mkReader (if eqb p (L "/p/a.md") then L (intro ++ "# REQ_A: Top
")%string else []) None);
  in_glob := fun _ => inl (if extra then [inl (L "/p/new.rs")] else []);
  in_syn := fun _ => inl (NOther [NScope KFn (L "main") (1, 1)
              [NExprMacro [(L "requirement_covered", (2, 1))] [TokIdent (L "REQ_A") (2, 1)]]]);
  in_debug_tokens := fun _ => []; in_json := fun _ => None; in_json_error := fun _ => [] |}.
Definition cached_config : config :=
  mkConfig None [a_config; mkArtefactConfig (L "R") [L "src/*.rs"] PRust None None] [mkRelation (L "A") [L "R"]]
    (Some [(L "gnu", mkJob QTrace GnuError (L "-") None); (L "json", mkJob QTrace Json (L "-") None);
           (L "list", mkJob QParse Json (L "-") None); (L "md", mkJob QTrace Markdown (L "-") None);
           (L "mdlist", mkJob QParse Markdown (L "-") None); (L "tags", mkJob QParse Tags (L "-") None)]) None.

Example C87_example : let other : Inputs := {|
    in_open := fun p => if eqb p (L "/p/unused.md") then inr [] else @in_open (world false "") p;
    in_glob := fun _ => inl []; in_syn := @in_syn (world false ""); in_debug_tokens := fun _ => [];
    in_json := fun _ => None; in_json_error := fun _ => [] |} in
  exists c, @controller_new ascii_tables sample_debug (world false "") cached_config (L "/p") = Done c /\
    same_libraries (world false "") other /\ NoDup (map ac_id (cf_artefacts cached_config)) /\
    usable (Some cached_config) cached_config /\ same_matches (world false "") other cached_config (L "/p") /\
    (forall a f, In a (ovalues (g_artefacts (ctl_graph c))) -> In f (art_files a) ->
       @in_open (world false "") f = @in_open other f) /\
    map art_files (ovalues (g_artefacts (ctl_graph c))) = [[L "/p/a.md"]; []].
Proof.
  cbn zeta.
  destruct (@controller_new ascii_tables sample_debug (world false "") cached_config (L "/p")) as [c|] eqn:E;
    [|vm_compute in E; discriminate].
  exists c. split; [reflexivity|]. vm_compute in E. inversion E; subst c. clear E.
  split; [repeat split|]. split; [cbn; repeat constructor; cbn; intuition discriminate|].
  split; [split; [reflexivity|left; reflexivity]|]. split; [intros ac p _ _ _; reflexivity|].
  split; [|vm_compute; reflexivity].
  intros a f Ha Hf. vm_compute in Ha. destruct Ha as [<-|[<-|[]]]; cbn [art_files] in Hf; [|destruct Hf].
  destruct Hf as [<-|[]]. reflexivity.
Qed.

(** The recorded files alone do not tell: a new file that a pattern matches changes the result. *)
Theorem C87_recorded_refuted :
  ~ forall (I1 I2 : Inputs) cf base c jobs,
      same_libraries I1 I2 -> NoDup (map ac_id (cf_artefacts cf)) -> usable (Some cf) cf ->
      @controller_new ascii_tables sample_debug I1 cf base = Done c ->
      (forall a f, In a (ovalues (g_artefacts (ctl_graph c))) -> In f (art_files a) -> @in_open I1 f = @in_open I2 f) ->
      @main_rc _ _ _ ascii_case serde_json I1 sample_outputs (Some cf) base jobs =
      @main_rc _ _ _ ascii_case serde_json I2 sample_outputs (Some cf) base jobs.
Proof.
  intros H.
  destruct (@controller_new ascii_tables sample_debug (world false "") cached_config (L "/p")) as [c|] eqn:E;
    [|vm_compute in E; discriminate].
  specialize (H (world false "") (world true "") cached_config (L "/p") c [L "gnu"]).
  assert (HX : @main_rc ascii_tables sample_debug stable_is_unstable ascii_case serde_json (world false "") sample_outputs (Some cached_config) (L "/p") [L "gnu"] =
               @main_rc ascii_tables sample_debug stable_is_unstable ascii_case serde_json (world true "") sample_outputs (Some cached_config) (L "/p") [L "gnu"]).
  { apply H; try exact E.
    - repeat split.
    - cbn; repeat constructor; cbn; intuition discriminate.
    - split; [reflexivity|left; reflexivity].
    - intros a f _ _. reflexivity. }
  vm_compute in HX. discriminate.
Qed.
Print Assumptions C87_recorded_refuted.

(** The reports do not identify the versions of the inputs (REQ_IDENTIFIEABLE): different files, same reports. *)
Theorem C87_identifiable_refuted :
  ~ forall (I1 I2 : Inputs) cf base f ac,
      In ac (cf_artefacts cf) -> @opened I1 base ac f -> @opened I2 base ac f -> @in_open I1 f <> @in_open I2 f ->
      @main_rc ascii_tables sample_debug stable_is_unstable ascii_case serde_json I1 sample_outputs (Some cf) base
        [L "gnu"; L "json"; L "list"; L "md"; L "mdlist"; L "tags"] <>
      @main_rc ascii_tables sample_debug stable_is_unstable ascii_case serde_json I2 sample_outputs (Some cf) base
        [L "gnu"; L "json"; L "list"; L "md"; L "mdlist"; L "tags"].
Proof.
  set (cf := mkConfig None [a_config] [] (cf_jobs cached_config) None).
  intros H. apply (H (world false "Preface
# REQ_0: a
") (world false "Foreword
# REQ_0: a
") cf (L "/p") (L "/p/a.md") a_config).
  - left. reflexivity.
  - left. split; [discriminate|]. exists (L "a.md"). split; vm_compute; reflexivity.
  - left. split; [discriminate|]. exists (L "a.md"). split; vm_compute; reflexivity.
  - vm_compute. discriminate.
  - vm_compute. reflexivity.
Qed.
Print Assumptions C87_identifiable_refuted.
