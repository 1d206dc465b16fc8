(** Properties C70 - C77: what the user documentation (doc/requirements) promises about reading
    files and what holds.
    Vocabulary: Utf8.v (files), MdSpec.v, MdShift.v, MonoSpec.v, CtlSpec.v; models: MdParser.v,
    MonoParser.v, RustParser.v, Controller.v. *)
From Coq Require Import Permutation.
From Verif Require Import Base OMap Models Unicode Utf8 Paths MdSyntax MdParser MdSpec MdFacts MdCor MdShift MdExamples
  MonoParser MonoSpec MonoFacts RustParser Tracer TraceSpec Aggregator Show Sort Serialize Tags MdFmt Formatters
  Controller FmtSpec CtlSpec CtlFacts CtlCor CtlExamples DocFacts DocCtl
  SerdeJson JsonGrammar JsonSpec DocJson.
Open Scope N_scope.

#[local] Existing Instance sample_debug.
#[local] Existing Instance sample_inputs.
#[local] Existing Instance sample_json.
#[local] Existing Instance sample_outputs.
#[local] Existing Instance ascii_case.

(** C70: a line that is not UTF-8 ends the document, whatever follows it; the requirement before it
    is lost. *)
Theorem C70_cut : forall {U : UnicodeTables} p pre bad,
  text_lines pre -> ~ In NL bad -> decode (bad ++ [NL]) = None ->
  exists reqs errs extra,
    md_parse p (mkReader pre None) = Done (reqs ++ extra, errs) /\
    map head reqs = removelast (map (head_of p) (headings (lines_of pre))) /\
    forall rest fail, md_parse p (mkReader (pre ++ bad ++ [NL] ++ rest) fail) =
                      Done (reqs, errs ++ [EIo p (L "stream did not contain valid UTF-8")]).
Proof. intros U p. exact (bad_line p). Qed.
Print Assumptions C70_cut.

(** The documented replacement of encoding errors would never report them. *)
Theorem C70_replaced_refuted :
  ~ forall (U : UnicodeTables) p bs reqs errs,
      md_parse p (mkReader bs None) = Done (reqs, errs) -> forall m, ~ In (EIo p m) errs.
Proof.
  intros H.
  apply (H ascii_tables (L "a.md") (L "# REQ_A: t" ++ [10; 255; 10]) [] [EIo (L "a.md") invalid_utf8]) with (m := invalid_utf8).
  - vm_compute. reflexivity.
  - left. reflexivity.
Qed.
Print Assumptions C70_replaced_refuted.

Example C70_example : let pre := L "# REQ_A: a
# REQ_B: b
" in
  text_lines pre /\ ~ In NL [255] /\ decode ([255] ++ [NL]) = None /\
  match md_parse (L "a.md") (mkReader (pre ++ [255] ++ [NL] ++ L "# REQ_C: c
") None) with Done (reqs, errs) => (map req_id reqs, errs) | Panic => ([], []) end =
  ([L "REQ_A"], [EIo (L "a.md") invalid_utf8]).
Proof.
  cbn zeta. split; [|split; [|split]].
  - split; [vm_compute; discriminate|]. right. exists (L "# REQ_A: a
# REQ_B: b"). vm_compute. reflexivity.
  - intros [H|[]]. discriminate.
  - vm_compute. reflexivity.
  - vm_compute. reflexivity.
Qed.

(** C71: after a heading that starts no requirement nothing counts until the next requirement. *)
Theorem C71_ignored : forall {U : UnicodeTables} p pre mid1 mid2 doc fail n h,
  text_lines pre -> last (lines_of pre) (0, []) = (n, h) -> plain_heading h ->
  text_lines mid1 -> no_req_headings mid1 -> text_lines mid2 -> no_req_headings mid2 ->
  length (split_lines mid1) = length (split_lines mid2) ->
  md_parse p (mkReader (pre ++ mid1 ++ doc) fail) = md_parse p (mkReader (pre ++ mid2 ++ doc) fail).
Proof. intros U p. exact (skipped_lines p). Qed.
Print Assumptions C71_ignored.

(** The example of FORMATS.md gives no requirement at all. *)
Definition documented_example : string := "# Headline
## REQ_ID: Requirement Title
Description paragraph
### Heading in the description
another Description Paragraph

Covers: REQ_COV

## Headline outside the description
".
Theorem C71_documented_refuted :
  ~ exists r errs, md documented_example = Done ([r], errs) /\ req_id r = L "REQ_ID" /\
      map ref_id (req_covers r) = [L "REQ_COV"].
Proof. intros (r & errs & H & _). vm_compute in H. discriminate. Qed.
Print Assumptions C71_documented_refuted.

(** It gives no requirement and no error. *)
Theorem C71_documented_nothing : md documented_example = Done ([], []).
Proof. vm_compute. reflexivity. Qed.
Print Assumptions C71_documented_nothing.

(** The same document followed by a requirement: the covered id and the heading are gone. *)
Example C71_example_heading :
  match md (documented_example ++ "## REQ_OTHER: Next
")%string with
  | Done (reqs, errs) => (map (fun r => (req_id r, req_covers r, req_attributes r)) reqs, errs)
  | Panic => ([], []) end =
  ([(L "REQ_ID", [], [(L "Description", L "Description paragraph
")]); (L "REQ_OTHER", [], [])], []).
Proof. vm_compute. reflexivity. Qed.

Example C71_example : let pre := L "# REQ_A: a
## More
" in let mid1 := L "Covers: REQ_B
" in let mid2 := L "text
" in
  text_lines pre /\ last (lines_of pre) (0, []) = (2, L "## More
") /\ plain_heading (L "## More
") /\ text_lines mid1 /\ no_req_headings mid1 /\ text_lines mid2 /\ no_req_headings mid2 /\
  length (split_lines mid1) = length (split_lines mid2).
Proof.
  cbn zeta. split; [split; [vm_compute; discriminate|right; exists (L "# REQ_A: a
## More"); vm_compute; reflexivity]|].
  split; [vm_compute; reflexivity|]. split; [split; vm_compute; reflexivity|].
  split; [split; [vm_compute; discriminate|right; exists (L "Covers: REQ_B"); vm_compute; reflexivity]|].
  split; [intros x Hx; vm_compute in Hx; destruct Hx as [<-|[]]; vm_compute; reflexivity|].
  split; [split; [vm_compute; discriminate|right; exists (L "text"); vm_compute; reflexivity]|].
  split; [intros x Hx; vm_compute in Hx; destruct Hx as [<-|[]]; vm_compute; reflexivity|].
  vm_compute. reflexivity.
Qed.

(** C72: only JSON artefacts have requirements with tags. *)
Theorem C72_untagged : forall {U : UnicodeTables} {D : Debug} {I : Inputs} cf base c id a ac,
  controller_new cf base = Done c -> oget id (g_artefacts (ctl_graph c)) = Some a ->
  last_config cf id = Some ac -> ac_parser ac <> PJson ->
  forall q, In q (ovalues (art_requirements a)) -> req_tags q = [].
Proof. intros U D I. exact artefact_no_tags. Qed.
Print Assumptions C72_untagged.

(** The documented attribute [Tags] is a text attribute like any other. *)
Definition tagged : string := "# REQ_A: t

Tags: ONE, TWO
".
Theorem C72_documented_refuted :
  ~ exists r errs, md tagged = Done ([r], errs) /\ req_tags r = [L "ONE"; L "TWO"].
Proof. intros (r & errs & H & Ht). vm_compute in H. injection H as <- _. discriminate. Qed.
Print Assumptions C72_documented_refuted.

Example C72_example_attribute :
  match md tagged with Done (reqs, errs) => (map req_attributes reqs, errs) | Panic => ([], []) end =
  ([[(L "Tags", L "ONE, TWO")]], []).
Proof. vm_compute. reflexivity. Qed.
Example C72_example : exists c a,
  controller_new good_config (L "/p") = Done c /\ oget (L "A") (g_artefacts (ctl_graph c)) = Some a /\
  last_config good_config (L "A") = Some a_config /\ ac_parser a_config <> PJson /\
  ovalues (art_requirements a) <> [].
Proof.
  destruct (controller_new good_config (L "/p")) as [c|] eqn:E; [|vm_compute in E; discriminate].
  vm_compute in E. injection E as <-. eexists _, _. split; [reflexivity|]. split; [vm_compute; reflexivity|].
  split; [vm_compute; reflexivity|]. split; [discriminate|]. vm_compute. discriminate.
Qed.

(** C73: the references of a mono file are ids that follow an arrow, and its title is the first
    line. *)
Theorem C73_after_arrow : forall {U : UnicodeTables} p bs text reqs errs r x,
  decode bs = Some text -> mono_parse p (mkReader bs None) = Done (reqs, errs) -> In r reqs ->
  In x (req_depends r) ->
  exists w a ws b, In w (content_lines text) /\ w = a ++ arrow ++ ws ++ ref_id x ++ b /\ forallb is_ws ws = true.
Proof.
  intros U p bs text reqs errs r x Hd HM Hr Hx. rewrite (mono_exact p bs text Hd) in HM. inversion HM; subst.
  destruct Hr as [<-|[]]. destruct (arrows_copied p _ _ x Hx) as (w & a & ws & b & Hw & H).
  exists w, a, ws, b. split; [|exact H]. destruct (content_lines text); [destruct Hw|right; exact Hw].
Qed.
Print Assumptions C73_after_arrow.

(** The documented title: the first line with a word character, without what is around its words. *)
Definition documented_title {U : UnicodeTables} (text t : str) : Prop :=
  exists before a b after, content_lines text = before ++ (a ++ t ++ b) :: after /\
    (forall w c, In w before -> In c w -> xid_continue c = false) /\
    (forall c, In c (a ++ b) -> xid_continue c = false) /\
    (exists c t', t = c :: t' /\ xid_continue c = true) /\ (exists t' c, t = t' ++ [c] /\ xid_continue c = true).

Theorem C73_title : forall {U : UnicodeTables} p bs text reqs errs r t,
  decode bs = Some text -> mono_parse p (mkReader bs None) = Done (reqs, errs) -> In r reqs ->
  documented_title text t -> hd [] (content_lines text) = t -> req_title r = Some t.
Proof.
  intros U p bs text reqs errs r t Hd HM Hr (before & a & b & after & E & _) Hh.
  rewrite (mono_exact p bs text Hd) in HM. inversion HM; subst. destruct Hr as [<-|[]]. cbn [mono_requirement req_title].
  destruct (content_lines text) as [|w ws]; [destruct before; discriminate|]. reflexivity.
Qed.
Print Assumptions C73_title.

Definition headline : string := "# The Tool
text
".
Theorem C73_documented_title_refuted :
  ~ forall (U : UnicodeTables) p bs text reqs errs r t,
      decode bs = Some text -> mono_parse p (mkReader bs None) = Done (reqs, errs) -> In r reqs ->
      documented_title text t -> req_title r = Some t.
Proof.
  intros H.
  destruct (mono_parse (L "README.md") (mkReader (L headline) None)) as [[reqs errs]|] eqn:E; [|vm_compute in E; discriminate].
  vm_compute in E. injection E as <- <-.
  specialize (H ascii_tables (L "README.md") (L headline) (L headline) _ _ _ (L "The Tool")
    ltac:(vm_compute; reflexivity) ltac:(vm_compute; reflexivity) (or_introl eq_refl)).
  assert (HD : @documented_title ascii_tables (L headline) (L "The Tool")).
  { exists [], (L "# "), [], [L "text"]. split; [vm_compute; reflexivity|]. split; [intros w c []|].
    split; [|split].
    - intros c Hc. vm_compute in Hc. destruct Hc as [<-|[<-|[]]]; reflexivity.
    - exists 84, (L "he Tool"). split; vm_compute; reflexivity.
    - exists (L "The Too"), 108. split; vm_compute; reflexivity. }
  specialize (H HD). vm_compute in H. discriminate.
Qed.
Print Assumptions C73_documented_title_refuted.

(** Not every id that follows an arrow is a reference. *)
Definition two_arrows : string := "The Tool => REQ_0
see => REQ_1 and => REQ_2
see => REQ_3.
".
Theorem C73_documented_arrows_refuted :
  ~ forall (U : UnicodeTables) p bs text reqs errs r w a id b,
      decode bs = Some text -> mono_parse p (mkReader bs None) = Done (reqs, errs) -> In r reqs ->
      In w (content_lines text) -> w = a ++ arrow ++ [32] ++ id ++ b -> is_id id -> hd 32 b <> COLON ->
      forallb xid_continue (firstn 1 b) && negb (is_nil b) = false ->
      In id (map ref_id (req_depends r)).
Proof.
  intros H.
  destruct (mono_parse (L "README.md") (mkReader (L two_arrows) None)) as [[reqs errs]|] eqn:E; [|vm_compute in E; discriminate].
  vm_compute in E. injection E as <- <-.
  specialize (H ascii_tables (L "README.md") (L two_arrows) (L two_arrows) _ _ _ (L "see => REQ_3.") (L "see ") (L "REQ_3") (L ".")
    ltac:(vm_compute; reflexivity) ltac:(vm_compute; reflexivity) (or_introl eq_refl)).
  assert (HI : In (L "REQ_3") (map ref_id [mkReference (L "REQ_2") None (new_with_line_no (L "README.md") 2)])).
  { apply H.
    - vm_compute. auto.
    - vm_compute. reflexivity.
    - exists 82, (L "EQ_3"). repeat split; try discriminate.
    - vm_compute. discriminate.
    - vm_compute. reflexivity. }
  vm_compute in HI. destruct HI as [HI|[]]. discriminate.
Qed.
Print Assumptions C73_documented_arrows_refuted.

Example C73_example :
  mono_parse (L "README.md") (mkReader (L two_arrows) None) =
  Done ([mkRequirement (L "README") (Some (L "The Tool => REQ_0")) (new_with_no_pos (L "README.md")) []
           [mkReference (L "REQ_2") None (new_with_line_no (L "README.md") 2)] [] []], []).
Proof. vm_compute. reflexivity. Qed.
Example C73_example_title : documented_title (L "Tool
") (L "Tool") /\ hd [] (content_lines (L "Tool
")) = L "Tool".
Proof.
  split; [|vm_compute; reflexivity]. exists [], [], [], []. split; [vm_compute; reflexivity|]. split; [intros w c []|].
  split; [intros c []|]. split; [exists 84, (L "ool")|exists (L "Too"), 108]; split; vm_compute; reflexivity.
Qed.

(** C74: ids are copied from the file, character by character. *)
Theorem C74_copied : forall {U : UnicodeTables} p r reqs errs q,
  md_parse p r = Done (reqs, errs) -> In q reqs ->
  exists n l a b, In (n, l) (doc_lines r) /\ req_location q = at_line p n /\ l = a ++ req_id q ++ COLON :: b.
Proof. intros U p. exact (md_ids_copied p). Qed.
Print Assumptions C74_copied.

(** A part of canonical equivalence: e with acute accent, composed and decomposed. *)
Inductive canonical : str -> str -> Prop :=
| ca_same s : canonical s s
| ca_acute a s t : canonical s t -> canonical (a ++ 233 :: s) (a ++ 101 :: 769 :: t).

(** Tables that know these characters. *)
Definition accent_tables : UnicodeTables.
Proof.
  refine {| xid_start := fun c => is_upper_ascii c || is_lower_ascii c || (c =? 233);
            xid_continue := fun c => is_upper_ascii c || is_lower_ascii c || is_digit_ascii c || (c =? 95) || (c =? 233) || (c =? 769);
            is_nd := is_digit_ascii |}.
  - intros c H. rewrite !orb_true_iff in *. tauto.
  - intros c H. unfold is_upper_ascii, is_lower_ascii, is_digit_ascii in H.
    assert (Hr : 48 <= c <= 122 \/ c = 233 \/ c = 769).
    { rewrite !orb_true_iff, !andb_true_iff, !N.leb_le, !N.eqb_eq in H. lia. }
    destruct Hr as [Hr|[->| ->]]; [|reflexivity|reflexivity].
    unfold is_ws. rewrite (proj2 (N.leb_gt c 13)), (proj2 (N.leb_gt 8192 c)) by lia.
    rewrite ?(proj2 (N.eqb_neq c _)) by lia. rewrite andb_false_r. reflexivity.
  - intros c H. rewrite (proj2 (N.eqb_neq c 233)) by lia. rewrite orb_false_r. reflexivity.
  - intros c H. rewrite (proj2 (N.eqb_neq c 233)), (proj2 (N.eqb_neq c 769)) by lia. rewrite !orb_false_r. reflexivity.
  - reflexivity.
Defined.

Theorem C74_normalised_refuted :
  ~ forall (U : UnicodeTables) p bs bs' text text' reqs errs reqs' errs',
      decode bs = Some text -> decode bs' = Some text' -> canonical text text' ->
      md_parse p (mkReader bs None) = Done (reqs, errs) -> md_parse p (mkReader bs' None) = Done (reqs', errs') ->
      map req_id reqs = map req_id reqs'.
Proof.
  intros H.
  pose (bs := L "# R" ++ [195; 169] ++ L ": t" ++ [10]). pose (bs' := L "# Re" ++ [204; 129] ++ L ": t" ++ [10]).
  destruct (@md_parse accent_tables (L "a.md") (mkReader bs None)) as [[reqs errs]|] eqn:E; [|vm_compute in E; discriminate].
  destruct (@md_parse accent_tables (L "a.md") (mkReader bs' None)) as [[reqs' errs']|] eqn:E'; [|vm_compute in E'; discriminate].
  specialize (H accent_tables (L "a.md") bs bs' (L "# R" ++ [233] ++ L ": t" ++ [10]) (L "# R" ++ [101; 769] ++ L ": t" ++ [10])
    reqs errs reqs' errs' ltac:(vm_compute; reflexivity) ltac:(vm_compute; reflexivity)
    (ca_acute (L "# R") (L ": t" ++ [10]) _ (ca_same _)) E E').
  vm_compute in E, E'. injection E as <- <-. injection E' as <- <-. vm_compute in H. discriminate.
Qed.
Print Assumptions C74_normalised_refuted.

Example C74_example : match md sample with Done (reqs, _) => map req_id reqs | Panic => [] end = [L "REQ_A"].
Proof. vm_compute. reflexivity. Qed.

(** C75: a file that is opened contributes its requirements and errors, whatever is wrong with the
    other files. *)
Theorem C75_contributes : forall {U : UnicodeTables} {D : Debug} {I : Inputs} base ac files reqs errs f x,
  parse_files ac base = Done (files, reqs, errs) -> opened base ac f -> file_result (ac_parser ac) f x ->
  incl (fst x) reqs /\ incl (snd x) errs.
Proof.
  intros U D I base ac files reqs errs f x H. pose proof (parse_files_spec ac base) as HS. rewrite H in HS.
  exact (file_contributes base ac files reqs errs f x HS).
Qed.
Print Assumptions C75_contributes.

(** A single file that cannot be opened is reported. *)
Theorem C75_missing : forall {U : UnicodeTables} {D : Debug} {I : Inputs} base ac p m,
  ac_parser ac <> PRust -> ac_paths ac = [p] -> in_open (path_join base p) = inr m ->
  parse_files ac base = Done ([path_join base p], [], [EIo (path_join base p) m]).
Proof.
  intros U D I base ac p m H1 H2 H3. pose proof (parse_files_spec ac base) as HS.
  destruct (parse_files ac base) as [[[files reqs] errs]|] eqn:E.
  - destruct (sources_unique _ _ _ _ _ _ _ _ HS (missing_single base ac p m H1 H2 H3)) as (-> & -> & ->). reflexivity.
  - destruct HS as (f & [(_ & q & Eq & ->)|(Hr & _)] & HP); [|elim (H1 Hr)].
    assert (q = p) by congruence. subst q. inversion HP; congruence.
Qed.
Print Assumptions C75_missing.

(** Not so for files whose pattern stands beside a bad one. *)
Definition one_bad : Inputs := {|
  in_open := fun p => inl (mkReader [] None);
  in_glob := fun pat => if eqb pat (L "/p/a.rs") then inl [inl (L "/p/a.rs")] else
                        if eqb pat (L "/p/none.rs") then inl [] else inr (L "bad pattern");
  in_syn := fun _ => inl (NScope KFn (L "f") (1, 3)
                            [NExprMacro [(L "requirement_covered", (1, 8))] [TokIdent (L "REQ_A") (1, 30)]]);
  in_debug_tokens := fun _ => []; in_json := fun _ => None; in_json_error := fun _ => [] |}.
Definition rust_config (paths : list str) : artefact_config := mkArtefactConfig (L "CODE") paths PRust None None.

Theorem C75_late_error_refuted :
  ~ forall (U : UnicodeTables) (D : Debug) (I : Inputs) base ac files reqs errs p fs f x,
      ac_parser ac = PRust -> parse_files ac base = Done (files, reqs, errs) ->
      In p (ac_paths ac) -> in_glob (pattern_of base p) = inl (map inl fs) -> In f fs ->
      file_result PRust f x -> incl (fst x) reqs.
Proof.
  intros H.
  destruct (@parse_files _ _ one_bad (rust_config [L "a.rs"; L "[["]) (L "/p")) as [[[files reqs] errs]|] eqn:E;
    [|vm_compute in E; discriminate].
  destruct (@rust_parse (@in_syn one_bad) (@in_debug_tokens one_bad) (L "/p/a.rs") (mkReader [] None)) as [x|] eqn:Ex;
    [|vm_compute in Ex; discriminate].
  specialize (H ascii_tables sample_debug one_bad (L "/p") (rust_config [L "a.rs"; L "[["]) files reqs errs (L "a.rs")
    [L "/p/a.rs"] (L "/p/a.rs") x eq_refl E (or_introl eq_refl) ltac:(vm_compute; reflexivity) (or_introl eq_refl)
    (@fr_rust _ one_bad (L "/p/a.rs") (mkReader [] None) x eq_refl Ex)).
  vm_compute in E. injection E as <- <- <-. vm_compute in Ex. injection Ex as <-.
  exact (H _ (or_introl eq_refl)).
Qed.
Print Assumptions C75_late_error_refuted.

(** A pattern without matches is no error. *)
Theorem C75_no_match_refuted :
  ~ forall (U : UnicodeTables) (D : Debug) (I : Inputs) base ac files reqs errs p,
      ac_parser ac = PRust -> parse_files ac base = Done (files, reqs, errs) ->
      In p (ac_paths ac) -> in_glob (pattern_of base p) = inl [] -> errs <> [].
Proof.
  intros H.
  apply (H ascii_tables sample_debug one_bad (L "/p") (rust_config [L "none.rs"]) [] [] [] (L "none.rs"));
    solve [vm_compute; reflexivity|left; reflexivity].
Qed.
Print Assumptions C75_no_match_refuted.

Example C75_example :
  match @parse_files _ _ one_bad (rust_config [L "a.rs"; L "none.rs"]) (L "/p") with
  | Done (files, reqs, errs) => (files, map req_id reqs, errs) | Panic => ([], [], []) end =
  ([L "/p/a.rs"], [L "f"], []) /\
  @parse_files _ _ one_bad (rust_config [L "a.rs"; L "[["]) (L "/p") =
  Done ([L "a.rs"; L "[["], [], [EIo (L "[[") (L "bad pattern")]) /\
  @opened one_bad (L "/p") (rust_config [L "a.rs"; L "none.rs"]) (L "/p/a.rs").
Proof.
  split; [vm_compute; reflexivity|]. split; [vm_compute; reflexivity|]. right. split; [reflexivity|].
  exists [L "/p/a.rs"]. split; [|left; reflexivity].
  apply (@ex_cons one_bad (L "/p") (L "a.rs") [L "none.rs"] [L "/p/a.rs"] []); [vm_compute; reflexivity|].
  apply (@ex_cons one_bad (L "/p") (L "none.rs") [] [] []); [vm_compute; reflexivity|constructor].
Qed.

(** C76: every file that is opened for an artefact is among the files of the artefact; if no pattern
    fails, no other file is. *)
Theorem C76_files : forall {U : UnicodeTables} {D : Debug} {I : Inputs} cf base c id a ac,
  controller_new cf base = Done c -> oget id (g_artefacts (ctl_graph c)) = Some a -> last_config cf id = Some ac ->
  (forall f, opened base ac f -> In f (art_files a)) /\
  ((forall e, ac_parser ac = PRust -> ~ expansion_fails base (ac_paths ac) e) ->
   forall f, In f (art_files a) -> opened base ac f).
Proof. intros U D I. exact artefact_files. Qed.
Print Assumptions C76_files.

(** The Trace/Json report lists them: who reads the report finds the artefact with its files. *)
Theorem C76_reported : forall {U : UnicodeTables} {D : Debug} {US : UnstableSort} {CT : CaseTables}
    {I : Inputs} cf base c id a ac,
  controller_new cf base = Done c -> oget id (g_artefacts (ctl_graph c)) = Some a -> last_config cf id = Some ac ->
  exists text, fmt_tracing (J := serde_json) (ctl_traced c) Json = Done text /\
    (exists v, json_document text v) /\
    forall v, json_document text v -> exists tg a', a_trace_report v = Some (0, tg) /\
      oget id (tg_artefacts tg) = Some a' /\ forall f, opened base ac f -> In f (art_files a').
Proof. intros U D US CT I. exact reported_files. Qed.
Print Assumptions C76_reported.

Example C76_example :
  match controller_new good_config (L "/p") with
  | Done c => map (fun x => art_files (snd x)) (g_artefacts (ctl_graph c))
  | Panic => [] end = [[L "/p/a.md"]; [L "/p/b.md"]].
Proof. vm_compute. reflexivity. Qed.

(** C77: the order of the artefacts in the configuration does not matter ... *)
Theorem C77_artefacts : forall {U : UnicodeTables} {D : Debug} {US : UnstableSort} {CT : CaseTables} {J : JsonText}
    {I : Inputs} {O : Outputs} acs acs' v rels jobs defaults base,
  Permutation acs acs' -> NoDup (map ac_id acs) ->
  controller_new (mkConfig v acs rels jobs defaults) base = controller_new (mkConfig v acs' rels jobs defaults) base /\
  forall selected, main_rc (Some (mkConfig v acs rels jobs defaults)) base selected =
                   main_rc (Some (mkConfig v acs' rels jobs defaults)) base selected.
Proof.
  intros U D US CT J I O acs acs' v rels jobs defaults base HP HN.
  pose proof (artefact_order acs acs' v rels jobs defaults base HP HN) as E. split; [exact E|].
  intros selected. unfold main_rc, get_config. cbn [cf_version].
  destruct v as [n|]; [destruct (CONFIG_VERSION <? n); [reflexivity|]|]; rewrite E; reflexivity.
Qed.
Print Assumptions C77_artefacts.

(** ... nor does, up to the order of errors and files, the order of the paths of an artefact with
    different ids. *)
Theorem C77_paths : forall {U : UnicodeTables} {D : Debug} {I : Inputs} base ac paths files reqs errs,
  ac_parser ac = PRust -> Permutation (ac_paths ac) paths -> (forall e, ~ expansion_fails base (ac_paths ac) e) ->
  parse_files ac base = Done (files, reqs, errs) ->
  exists files' reqs' errs', parse_files (with_paths ac paths) base = Done (files', reqs', errs') /\
    Permutation files files' /\ Permutation reqs reqs' /\ Permutation errs errs' /\
    (NoDup (map req_id reqs) ->
     exists m, parse_from_config ac base = Done (files, m, errs) /\
               parse_from_config (with_paths ac paths) base = Done (files', m, errs')).
Proof. intros U D I. exact path_order_run. Qed.
Print Assumptions C77_paths.

Example C77_example : Permutation [a_config; b_config] [b_config; a_config] /\ NoDup (map ac_id [a_config; b_config]).
Proof.
  split; [apply perm_swap|]. repeat constructor; cbn; intuition discriminate.
Qed.
Example C77_example_paths : let ac := rust_config [L "a.rs"; L "none.rs"] in
  Permutation (ac_paths ac) [L "none.rs"; L "a.rs"] /\
  (forall e, ~ @expansion_fails one_bad (L "/p") (ac_paths ac) e) /\
  exists files reqs errs, @sources _ _ one_bad (L "/p") ac files reqs errs /\ reqs <> [] /\ NoDup (map req_id reqs).
Proof.
  cbn zeta. split; [apply perm_swap|]. split.
  - intros e H. apply (@expands_not_fails one_bad (L "/p") [L "a.rs"; L "none.rs"] [L "/p/a.rs"] e); [|exact H].
    apply (@ex_cons one_bad (L "/p") (L "a.rs") [L "none.rs"] [L "/p/a.rs"] []); [vm_compute; reflexivity|].
    apply (@ex_cons one_bad (L "/p") (L "none.rs") [] [] []); [vm_compute; reflexivity|constructor].
  - pose proof (@parse_files_spec _ _ one_bad (rust_config [L "a.rs"; L "none.rs"]) (L "/p")) as HS.
    destruct (@parse_files _ _ one_bad (rust_config [L "a.rs"; L "none.rs"]) (L "/p")) as [[[files reqs] errs]|] eqn:E;
      vm_compute in E; [|discriminate].
    injection E as <- <- <-. eexists _, _, _. split; [exact HS|]. split; [discriminate|].
    repeat constructor. intros [].
Qed.
