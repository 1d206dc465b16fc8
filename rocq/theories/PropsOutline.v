(** C93: the outline of the Markdown trace report.
    Vocabulary: OutlineSpec.v (headings of a page), FmtSpec.v, EntrySpec.v; models: MdFmt.v, Formatters.v, MdParser.v. *)
From Coq Require Import Permutation.
From Verif Require Import TraceExamples.
From Verif Require Import Base OMap Models Unicode Utf8 Location Show Sort Tracer TraceSpec TraceCor Aggregator AggSpec
  MdFmt Formatters GnuErr Serialize FmtSpec FmtFacts EntrySpec FmtCor CtlExamples MdParser MdFacts MdExamples GnuReadSpec OutlineSpec Outline.
Open Scope N_scope.

(** C93: the headings of the report, in order. *)
Theorem C93_outline : forall {D : Debug} {US : UnstableSort} {CT : CaseTables} {J : JsonText} g tg,
  graph_wf g -> trace g = Done tg -> unique_ids g -> plain_texts g ->
  (forall rel la, In rel (g_relations g) -> In la (rel_lower rel) -> In la (okeys (g_artefacts g))) ->
  exists text, fmt_tracing tg Markdown = Done text /\ outline text = report_outline g (tg_errors tg).
Proof.
  intros D US CT J g tg WF TR UN PT HL. destruct (md_possible g tg WF TR HL) as (ag & E1 & E2).
  exists (md_report g tg ag). split; [cbn [fmt_tracing]; rewrite E1; exact E2|].
  apply shows_outline. exact (report_shows g WF tg TR PT UN ag E1).
Qed.
Print Assumptions C93_outline.

(** The headlines tell whether there is something to report. *)
Theorem C93_headlines : forall {D : Debug} {US : UnstableSort} {CT : CaseTables} {J : JsonText} g tg text,
  graph_wf g -> trace g = Done tg -> unique_ids g -> plain_texts g ->
  (forall rel la, In rel (g_relations g) -> In la (rel_lower rel) -> In la (okeys (g_artefacts g))) ->
  fmt_tracing tg Markdown = Done text ->
  (In (1%nat, L "Input Errors") (outline text) <-> all_errors g <> []) /\
  (In (1%nat, L "Tracing Errors") (outline text) <-> tg_errors tg <> []) /\
  (In (1%nat, L "Uncovered Requirements") (outline text) <-> exists rel r, In rel (g_relations g) /\ In r (uncovered_reqs g rel)) /\
  (In (1%nat, L "Derived Requirements") (outline text) <-> exists k a r, In (k, a) (g_artefacts g) /\ In r (derived_reqs g k a)) /\
  (forall h, In (3%nat, h) (outline text) <-> exists r, In r (all_reqs g) /\ h = heading_of r).
Proof.
  intros D US CT J g tg text WF TR UN PT HL HF.
  destruct (C93_outline (D := D) (US := US) (CT := CT) (J := J) g tg WF TR UN PT HL) as (text' & H1 & H2).
  assert (text' = text) as -> by congruence. rewrite H2. exact (outline_headlines g (tg_errors tg)).
Qed.
Print Assumptions C93_headlines.

(** The export of the requirements: input errors, if there are any, and the requirements by id. *)
Theorem C93_export : forall {D : Debug} {US : UnstableSort} {CT : CaseTables} {J : JsonText} g,
  graph_wf g -> plain_texts g ->
  exists text rs, fmt_requirements g Markdown = Done text /\ Permutation (all_reqs g) rs /\ sorted_by req_id rs /\
    outline text = export_outline g rs.
Proof.
  intros D US CT J g WF PT. exists (md_requirements g), (sort_by req_id (all_reqs g)). split; [reflexivity|].
  split; [apply sort_by_perm|]. split; [apply sort_by_sorted|]. apply shows_outline. rewrite md_requirements_spec.
  apply export_shows; [exact WF|exact PT|]. intros r Hr. apply sort_by_In in Hr. exact Hr.
Qed.
Print Assumptions C93_export.

#[local] Existing Instance ascii_tables.
#[local] Existing Instance ascii_case.
#[local] Existing Instance sample_debug.
#[local] Existing Instance sample_json.
#[local] Existing Instance stable_is_unstable.

Ltac text := intros X; vm_compute in X; repeat (destruct X as [X|X]; [discriminate|]); exact X.
Ltac ok := repeat first [apply conj | apply Forall_cons | apply Forall_nil | exact I | reflexivity | text].

Definition described (id : string) (n : N) (refs : list reference) (attrs : omap str str) :=
  mkRequirement (L id) (Some (L "t")) (TraceExamples.at_line n) refs [] [] attrs.
Definition page (attrs : omap str str) := rgraph
  [ rart "A" true false [described "R1" 1 [] attrs; described "R2" 5 [] []];
    rart "B" false false [described "S1" 1 [rref "R1" None 2; rref "GONE" None 3] []] ] [AB].
Definition page_attrs : omap str str := ocollect [(L "Description", L "Some text
 with #1, #2"); (L "Comment", L "  none  ")].
Definition traced (g : graph) : traced_graph := match trace g with Done t => t | Panic => mkTracedGraph [] [] [] [] end.
Definition headings_of (o : outcome str) : list (nat * str) := match o with Done t => outline t | Panic => [] end.

Lemma page_wf attrs : graph_wf (page attrs).
Proof. apply rgraph_wf. intros a [<-|[<-|[]]]; apply rart_wf. Qed.
Lemma page_texts : plain_texts (page page_attrs).
Proof.
  split; [|split; [|split]].
  - assert (H : Forall (fun r => requirement_line r /\ body_ok r) (all_reqs (page page_attrs))).
    { vm_compute all_reqs. unfold requirement_line, title_line, location_line, reference_line, one_line, body_ok.
      repeat (apply Forall_cons || apply Forall_nil); (split; [ok|]); intros k v X; vm_compute in X;
        repeat (destruct X as [X|X]; [injection X as <- <-; vm_compute; repeat split; try (intros Y; repeat (destruct Y as [Y|Y]; [discriminate|]); exact Y)|]); destruct X. }
    intros r Hr. rewrite Forall_forall in H. exact (H r Hr).
  - intros e [].
  - intros rel [<-|[]]. unfold relation_line, one_line. ok.
  - assert (H : Forall one_line (okeys (g_artefacts (page page_attrs)))) by (vm_compute okeys; unfold one_line; ok).
    intros r Hr. rewrite Forall_forall in H. exact (H r Hr).
Qed.

Example C93_example : trace (page page_attrs) = Done (traced (page page_attrs)) /\ unique_ids (page page_attrs) /\
  plain_texts (page page_attrs) /\
  headings_of (fmt_tracing (traced (page page_attrs)) Markdown) =
  [(1%nat, L "Tracing Errors"); (1%nat, L "Uncovered Requirements"); (2%nat, L "A => [B]"); (1%nat, L "Requirements");
   (2%nat, L "A"); (3%nat, L "R1: t"); (3%nat, L "R2: t"); (2%nat, L "B"); (3%nat, L "S1: t")].
Proof.
  split; [vm_compute; reflexivity|]. split; [vm_compute; repeat constructor; cbn; intuition discriminate|].
  split; [exact page_texts|]. vm_compute. reflexivity.
Qed.

Example C93_export_example : plain_texts (page page_attrs) /\
  headings_of (fmt_requirements (page page_attrs) Markdown) = [(3%nat, L "R1: t"); (3%nat, L "R2: t"); (3%nat, L "S1: t")].
Proof. split; [exact page_texts|]. vm_compute. reflexivity. Qed.

(** Texts of attributes are not escaped: the value of an attribute in a Markdown file becomes a headline. *)
Definition forging : string := "# REQ_A: t
Comment: # Uncovered Requirements
".
Theorem C93_forged_refuted :
  ~ (forall {U : UnicodeTables} {D : Debug} {US : UnstableSort} {CT : CaseTables} {J : JsonText} p r reqs k tg text,
      md_parse p r = Done (reqs, []) -> trace (rgraph [rart k true false reqs] []) = Done tg ->
      fmt_tracing tg Markdown = Done text -> In (1%nat, L "Uncovered Requirements") (outline text) ->
      exists rel x, In rel (g_relations (rgraph [rart k true false reqs] [])) /\
        In x (uncovered_reqs (rgraph [rart k true false reqs] []) rel)).
Proof.
  intros H.
  specialize (H ascii_tables sample_debug stable_is_unstable ascii_case sample_json sample_path (file forging)
    (match md forging with Done x => fst x | Panic => [] end) "A"%string
    (traced (rgraph [rart "A" true false (match md forging with Done x => fst x | Panic => [] end)] []))
    (match fmt_tracing (traced (rgraph [rart "A" true false (match md forging with Done x => fst x | Panic => [] end)] [])) Markdown with
     | Done t => t | Panic => [] end)).
  destruct H as (rel & x & [] & _).
  - vm_compute. reflexivity.
  - vm_compute. reflexivity.
  - vm_compute. reflexivity.
  - vm_compute. tauto.
Qed.
Print Assumptions C93_forged_refuted.
