(** C91: the GNU report can be read line by line; C92: links in Markdown reports are links.
    Vocabulary: GnuReadSpec.v (lines and what they say), MdInline.v (inline links of CommonMark), FmtSpec.v, EntrySpec.v;
    models: GnuErr.v, MdFmt.v, Formatters.v, MdParser.v. *)
From Verif Require Import TraceExamples.
From Verif Require Import Base OMap Models Unicode Utf8 Location LocFacts LocRound Show Sort Tracer TraceSpec TraceCor
  GnuErr MdFmt Formatters Serialize FmtSpec FmtFacts EntrySpec CtlExamples MdParser MdSpec MdExact MdFacts MdExamples GnuReadSpec GnuRead GnuReadMd MdInline.
Open Scope N_scope.

#[local] Existing Instance ascii_tables.
#[local] Existing Instance ascii_case.
#[local] Existing Instance sample_json.
#[local] Existing Instance stable_is_unstable.

(** C91: every line is a headline or a place and a message, they are those of the findings, and there is no other reading. *)
Theorem C91_read : forall {D : Debug} {US : UnstableSort} {CT : CaseTables} {J : JsonText} g tg,
  debug_one_line -> graph_wf g -> trace g = Done tg -> readable g ->
  exists text, fmt_tracing tg GnuError = Done text /\ reads text (report_entries g (tg_errors tg)) /\
    forall es, reads text es -> es = report_entries g (tg_errors tg).
Proof.
  intros D US CT J g tg DL WF TR RG. exists (gnu_report g (tg_errors tg)).
  pose proof (report_reads DL g WF tg TR RG) as H.
  split; [exact (gnu_exact g WF tg TR)|]. split; [exact H|]. intros es He. exact (reads_unique _ _ _ He H).
Qed.
Print Assumptions C91_read.

(** The place of a message can be read as a location again (C29). *)
Theorem C91_places : forall {U : UnicodeTables} l m,
  location_ok l -> in_range l -> ~ ends_in_number (loc_file l) ->
  exists p, read_line (show_location l ++ L ": " ++ m) = At p m /\ parse_location p = Done (inl l).
Proof.
  intros U l m HL HR HN. exists (show_location l). split.
  { destruct (place_readable l HL) as (_ & H1 & H2). apply read_at; [exact H1|exact H2|].
    destruct HL as (_ & H & _). unfold show_location. destruct (loc_file l) as [|c f]; [elim H; reflexivity|].
    destruct (loc_in_file l); discriminate. }
  apply location_round_trip; [exact HR|]. destruct HL as ((H1 & _) & H2 & H3).
  split; [exact H2|]. split; [exact H1|]. destruct (loc_in_file l) as [[n|n c|s]|]; auto.
Qed.
Print Assumptions C91_places.

(** What is read from Markdown files is readable. *)
Theorem C91_markdown : forall {U : UnicodeTables} p r reqs errs,
  file_ok p -> p <> [] -> (forall m, doc_error r = Some m -> one_line m) -> md_parse p r = Done (reqs, errs) ->
  (forall q, In q reqs -> requirement_ok q) /\ (forall e, In e errs -> error_ok e).
Proof. intros U p r reqs errs FP PN HE HD. exact (md_readable p FP PN r reqs errs HD HE). Qed.
Print Assumptions C91_markdown.

Definition quiet_debug : Debug := {| debug_str := fun s => [34] ++ filter (fun c => negb (c =? NL)) s ++ [34];
                                     debug_error := fun _ => L "error" |}.
Lemma quiet_debug_ok : @debug_one_line quiet_debug.
Proof.
  split; cbn.
  - intros s [H|H]; [discriminate|]. apply in_app_iff in H. destruct H as [H|[H|[]]]; [|discriminate].
    apply filter_In in H. destruct H as [_ H]. discriminate.
  - intros e H. vm_compute in H. repeat (destruct H as [H|H]; [discriminate|]). exact H.
Qed.
#[local] Existing Instance quiet_debug.

(** Line by line, as a program does it. *)
Definition said (o : outcome str) : list entry :=
  match o with Done t => map read_line (removelast (split_on NL t)) | Panic => [] end.

Ltac texts := intros X; vm_compute in X; repeat (destruct X as [X|X]; [discriminate|]); exact X.
Ltac all_of := match goal with
  | |- forall x, In x ?l -> _ => let H := fresh in intros x H; vm_compute in H; repeat (destruct H as [H|H]; [subst x|]); [..|destruct H]
  end.
Ltac ok := repeat first [apply conj | apply Forall_cons | apply Forall_nil | exact I | discriminate | reflexivity | texts].

Lemma sample_readable : readable TraceExamples.sample.
Proof.
  split; [|split; [|split]].
  - assert (H : Forall requirement_ok (all_reqs TraceExamples.sample)) by (vm_compute all_reqs; unfold requirement_ok, reference_ok, location_ok, file_ok, one_line; ok).
    intros r Hr. rewrite Forall_forall in H. exact (H r Hr).
  - intros e [].
  - assert (H : Forall (fun rel => one_line (rel_upper rel) /\ Forall one_line (rel_lower rel)) (g_relations TraceExamples.sample))
      by (unfold one_line; ok).
    intros r Hr. rewrite Forall_forall in H. exact (H r Hr).
  - assert (H : Forall one_line (okeys (g_artefacts TraceExamples.sample))) by (vm_compute okeys; unfold one_line; ok).
    intros r Hr. rewrite Forall_forall in H. exact (H r Hr).
Qed.

Example C91_example : (exists text, fmt_tracing sample_traced GnuError = Done text /\
    reads text (report_entries TraceExamples.sample (tg_errors sample_traced))) /\
  report_entries TraceExamples.sample (tg_errors sample_traced) =
  [Head (L "# Parsing Errors"); Head (L "# Tracing Errors");
   At (L "file:1") (L "Duplicate Requirement: S3"); At (L "file:9") (L "note: previously seen here");
   At (L "file:2") (L "S1 depended with wrong title. Expected ""ess"", actual ""wrong"""); At (L "file:1") (L "note: Defined here");
   At (L "file:2") (L "should reference R1 with title ""one""");
   At (L "Error in config file") (L "error");
   At (L "file:7") (L "S2 Covers unknown requirement GONE");
   At (L "file:6") (L "R2 Depends on unknown requirement NOPE");
   Head (L "# Uncovered Requirement");
   Head (L "## A => [B]"); At (L "file:8") (L "R3 Uncovered");
   Head (L "## A => [C]"); At (L "file:1") (L "R1 Uncovered"); At (L "file:5") (L "R2 Uncovered"); At (L "file:8") (L "R3 Uncovered");
   Head (L "Derived Requirement"); Head (L "## A"); Head (L "## B"); At (L "file:9") (L "S3 Derived");
   Head (L "## C"); At (L "file:3") (L "T1 Derived")] /\
  said (fmt_tracing sample_traced GnuError) = report_entries TraceExamples.sample (tg_errors sample_traced).
Proof.
  split; [|split; vm_compute; reflexivity].
  destruct (C91_read TraceExamples.sample sample_traced quiet_debug_ok sample_wf sample_done sample_readable) as (text & H1 & H2 & _).
  exists text. auto.
Qed.

Example C91_places_example :
  let l := mkLocation (L "doc/a b.md") (Some (LineAndColumn 3 7)) in
  location_ok l /\ in_range l /\ ~ ends_in_number (loc_file l) /\
  read_line (L "doc/a b.md:3:7: R Uncovered") = At (L "doc/a b.md:3:7") (L "R Uncovered").
Proof.
  cbn zeta. split; [unfold location_ok, file_ok, one_line; ok|]. split; [vm_compute; auto|]. split; [|reflexivity].
  intros (f & d & _ & E & _).
  assert (H : In COLON (L "doc/a b.md")) by (change (L "doc/a b.md") with (loc_file (mkLocation (L "doc/a b.md") (Some (LineAndColumn 3 7))));
    rewrite E; apply in_or_app; right; left; reflexivity).
  vm_compute in H. repeat (destruct H as [H|H]; [discriminate|]). exact H.
Qed.

Example C91_markdown_example :
  let doc := "# REQ_A: t
Covers: REQ_B, x y

Covers: REQ_C
"%string in
  file_ok sample_path /\ sample_path <> [] /\ doc_error (file doc) = None /\
  match md doc with
  | Done (reqs, errs) => map req_id reqs = [L "REQ_A"] /\ map ref_id (flat_map req_covers reqs) = [L "REQ_C"] /\
      errs = [EDuplicateAttribute (MdSpec.at_line sample_path 4) (L "Covers") (L "REQ_A")]
  | Panic => False
  end.
Proof. cbn zeta. split; [unfold file_ok, one_line; ok|]. split; [discriminate|]. vm_compute. repeat split. Qed.

(** An id with a line break (possible in a JSON artefact) makes a line that is no finding. *)
Definition forged := rgraph [rart "A" false false [rreq "R
b.md:1: S" None 3 [] []]] [].
Definition forged_traced : traced_graph :=
  match trace forged with Done t => t | Panic => mkTracedGraph [] [] [] [] end.

Theorem C91_forged_refuted :
  ~ (forall {D : Debug} {US : UnstableSort} {CT : CaseTables} {J : JsonText} g tg text es place message,
      debug_one_line -> graph_wf g -> trace g = Done tg -> fmt_tracing tg GnuError = Done text ->
      reads text es -> In (At place message) es -> In (At place message) (report_entries g (tg_errors tg))).
Proof.
  intros H.
  specialize (H quiet_debug stable_is_unstable ascii_case sample_json forged forged_traced
    (match fmt_tracing forged_traced GnuError with Done t => t | Panic => [] end)
    (said (fmt_tracing forged_traced GnuError)) (L "b.md:1") (L "S Derived") quiet_debug_ok).
  assert (X : In (At (L "b.md:1") (L "S Derived")) (report_entries forged (tg_errors forged_traced))).
  { apply H.
    - apply rgraph_wf. intros a [<-|[]]. apply rart_wf.
    - vm_compute. reflexivity.
    - vm_compute. reflexivity.
    - exists (removelast (split_on NL (match fmt_tracing forged_traced GnuError with Done t => t | Panic => [] end))).
      split; [vm_compute; reflexivity|]. split; [|reflexivity].
      intros l Hl. vm_compute in Hl. repeat (destruct Hl as [<-|Hl]; [texts|]). destruct Hl.
    - vm_compute. tauto. }
  vm_compute in X. repeat (destruct X as [X|X]; [discriminate|]). exact X.
Qed.
Print Assumptions C91_forged_refuted.

(** A file name with a colon and a blank hides the place, one that begins with `#` the message. *)
Theorem C91_file_name_refuted :
  ~ (forall l m, ~ In NL (loc_file l) -> read_line (show_location l ++ L ": " ++ m) = At (show_location l) m).
Proof.
  intros H. specialize (H (new_with_line_no (L "a: b.md") 1) (L "R Derived")).
  assert (X : ~ In NL (L "a: b.md")) by texts. specialize (H X). vm_compute in H. discriminate.
Qed.
Print Assumptions C91_file_name_refuted.
Theorem C91_hash_refuted :
  ~ (forall l m, ~ In NL (loc_file l) -> ~ In 32 (loc_file l) -> exists p, read_line (show_location l ++ L ": " ++ m) = At p m).
Proof.
  intros H. destruct (H (new_with_line_no (L "#a.md") 1) (L "R Derived")) as (p & X); [texts|texts|].
  vm_compute in X. discriminate.
Qed.
Print Assumptions C91_hash_refuted.

(** C92: the link to a requirement is an inline link to the anchor of its heading, with its id and title. *)
Theorem C92_requirement_links : forall {CT : CaseTables} r,
  link_text (req_id r) -> (forall t, req_title r = Some t -> link_title t) ->
  exists anchor, inline_link (requirement_link r) (req_id r) (HASH :: anchor) (req_title r) /\
    (is_ascii (EntrySpec.heading_of r) = true -> anchor = heading_anchor (EntrySpec.heading_of r)).
Proof. intros CT. exact requirement_link_leads. Qed.
Print Assumptions C92_requirement_links.

(** The link to a place is an inline link to the file, and to the line if there is one. *)
Theorem C92_location_links : forall l, link_file (loc_file l) ->
  match loc_in_file l with
  | Some (Line n) | Some (LineAndColumn n _) =>
      inline_link (location_link l) (show_location l) (L "../" ++ loc_file l ++ L "?plain=1#L" ++ show_N n) None
  | None => inline_link (location_link l) (show_location l) (L "../" ++ loc_file l) None
  | Some (LocString _) => True
  end.
Proof. exact location_link_is_link. Qed.
Print Assumptions C92_location_links.

Example C92_example :
  let r := rreq "REQ_A" (Some (L "First (main) requirement")) 3 [] [] in
  link_text (req_id r) /\ (forall t, req_title r = Some t -> link_title t) /\ is_ascii (EntrySpec.heading_of r) = true /\
  requirement_link r = L "[REQ_A](#req_a-first-main-requirement ""First (main) requirement"")" /\
  link_file (L "doc/a.md") /\
  location_link (new_with_line_no (L "doc/a.md") 3) = L "[doc/a.md:3](../doc/a.md?plain=1#L3)".
Proof.
  cbn zeta. split; [|split; [|split; [reflexivity|split; [vm_compute; reflexivity|split; [|vm_compute; reflexivity]]]]].
  - intros c H. vm_compute in H. repeat (destruct H as [<-|H]; [texts|]). destruct H.
  - intros t E c H. injection E as <-. vm_compute in H. repeat (destruct H as [<-|H]; [texts|]). destruct H.
  - intros c H. vm_compute in H. repeat (destruct H as [<-|H]; [split; [reflexivity|texts]|]). destruct H.
Qed.

(** Titles are not escaped: with a double quote in the title there is no link. *)
Theorem C92_quote : forall {CT : CaseTables} r t, link_text (req_id r) -> req_title r = Some t -> In 34 t ->
  ~ exists text dest title, inline_link (requirement_link r) text dest title.
Proof. intros CT. exact quote_no_link. Qed.
Print Assumptions C92_quote.
Theorem C92_quote_refuted :
  ~ (forall {CT : CaseTables} r, link_text (req_id r) -> exists text dest title, inline_link (requirement_link r) text dest title).
Proof.
  intros H. specialize (H ascii_case (rreq "R" (Some (L "the ""big"" one")) 1 [] [])).
  assert (HT : link_text (L "R")) by (intros c [<-|[]]; texts).
  apply (quote_no_link (rreq "R" (Some (L "the ""big"" one")) 1 [] []) _ HT eq_refl); [vm_compute; tauto|apply H; exact HT].
Qed.
Print Assumptions C92_quote_refuted.

(** File names are not escaped either: with a blank in the name there is no link. *)
Theorem C92_blank : forall l n, ~ In 93 (loc_file l) -> ~ In 34 (loc_file l) ->
  loc_in_file l = Some (Line n) -> In 32 (loc_file l) ->
  ~ exists text dest title, inline_link (location_link l) text dest title.
Proof. exact blank_no_link. Qed.
Print Assumptions C92_blank.
Theorem C92_blank_refuted :
  ~ (forall l n, loc_in_file l = Some (Line n) -> exists text dest title, inline_link (location_link l) text dest title).
Proof.
  intros H. apply (blank_no_link (new_with_line_no (L "my file.md") 3) 3); [texts|texts|reflexivity|vm_compute; tauto|].
  exact (H (new_with_line_no (L "my file.md") 3) 3 eq_refl).
Qed.
Print Assumptions C92_blank_refuted.
