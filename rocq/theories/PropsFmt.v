(** Properties C42 - C47, C49, C59, C61: the reports.  Vocabulary: FmtSpec.v, EntrySpec.v, JsonSpec.v, TraceSpec.v;
    models: Tags.v, Serialize.v, GnuErr.v, MdFmt.v, Formatters.v. *)
From Coq Require Import Permutation.
From Verif Require Import Base OMap Models Unicode Location Show Sort Tracer TraceSpec TraceCor TraceExamples
  Aggregator AggSpec GnuErr Tags Serialize JsonSpec JsonRound MdFmt Formatters FmtSpec FmtFacts EntrySpec FmtCor CtlExamples.
Open Scope N_scope.
#[local] Existing Instance ascii_case.
#[local] Existing Instance sample_debug.
#[local] Existing Instance sample_json.

(** C42: the header and one line for each requirement with a line number, sorted. *)
Theorem C42_tags : forall {D : Debug} {US : UnstableSort} {CT : CaseTables} {J : JsonText} g,
  exists lines,
    fmt_requirements g Tags = Done (TAGS_HEADER ++ concat lines) /\
    Permutation (tags_of (all_reqs g)) lines /\ sorted_by (fun l => l) lines.
Proof.
  intros D US CT J g. destruct (tags_exact g) as (lines & E & H). exists lines. split; [|exact H].
  cbn [fmt_requirements]. rewrite E. reflexivity.
Qed.
Print Assumptions C42_tags.

(** The entries are sorted by tag name, as the header claims (ids without control characters). *)
Theorem C42_sorted_by_name : forall {D : Debug} {US : UnstableSort} {CT : CaseTables} {J : JsonText} g,
  (forall r, In r (all_reqs g) -> forall c, In c (req_id r) -> 9 < c) ->
  exists rs, fmt_requirements g Tags = Done (TAGS_HEADER ++ flat_map the_tag rs) /\
    Permutation (filter has_line (all_reqs g)) rs /\ sorted_by req_id rs.
Proof.
  intros D US CT J g H. destruct (tags_names g H) as (rs & E & H'). exists rs. split; [|exact H'].
  cbn [fmt_requirements]. rewrite E. reflexivity.
Qed.
Print Assumptions C42_sorted_by_name.

Example C42_example :
  fmt_requirements (rgraph [upper_art; dup_art] []) Tags =
  Done (TAGS_HEADER ++
        L "R1" ++ [9] ++ L "file" ++ [9] ++ L "1;" ++ [34; 9] ++ L "r" ++ [10] ++
        L "R2" ++ [9] ++ L "file" ++ [9] ++ L "5;" ++ [34; 9] ++ L "r" ++ [10] ++
        L "R3" ++ [9] ++ L "file" ++ [9] ++ L "8;" ++ [34; 9] ++ L "r" ++ [10] ++
        L "S3" ++ [9] ++ L "file" ++ [9] ++ L "1;" ++ [34; 9] ++ L "r" ++ [10] ++
        L "T1" ++ [9] ++ L "file" ++ [9] ++ L "3;" ++ [34; 9] ++ L "r" ++ [10]).
Proof. vm_compute. reflexivity. Qed.

(** C43: what a reader of the JSON report finds in it: the version, all requirements in id order,
    those with equal ids in graph order, and all errors. *)
Theorem C43_json : forall {D : Debug} {US : UnstableSort} {CT : CaseTables} {J : JsonText} g,
  exists v reqs errs,
    fmt_requirements g Json = Done (json_pretty v) /\ a_parse_report v = Some (0, reqs, errs) /\
    Permutation (all_reqs g) reqs /\ sorted_by req_id reqs /\
    (forall id, filter (fun r => eqb (req_id r) id) reqs = filter (fun r => eqb (req_id r) id) (all_reqs g)) /\
    Permutation (all_errors g) errs /\ sorted_by show_error errs.
Proof.
  intros D US CT J g. destruct (json_exact g) as (reqs & errs & E1 & E2 & H). eexists _, reqs, errs.
  split; [cbn [fmt_requirements]; reflexivity|]. split; [exact E2|exact H].
Qed.
Print Assumptions C43_json.

Example C43_example :
  map req_id (sort_by req_id (all_reqs sample)) =
  [L "R1"; L "R2"; L "R3"; L "S1"; L "S2"; L "S3"; L "S3"; L "T1"].
Proof. vm_compute. reflexivity. Qed.

(** C61: a reader of the JSON trace report finds the whole traced graph in it. *)
Theorem C61_trace_read_back : forall {D : Debug} {US : UnstableSort} {CT : CaseTables} {J : JsonText} tg,
  exists v, fmt_tracing tg Json = Done (json_pretty v) /\ a_trace_report v = Some (0, tg).
Proof. intros D US CT J tg. exists (json_trace tg). split; [reflexivity|apply trace_report_back]. Qed.
Print Assumptions C61_trace_read_back.

(** Requirements, artefacts and errors are told apart by their JSON form. *)
Theorem C61_faithful : forall (e1 e2 : error) (t1 t2 : traced_graph),
  (json_error e1 = json_error e2 -> e1 = e2) /\ (json_trace t1 = json_trace t2 -> t1 = t2).
Proof.
  intros e1 e2 t1 t2. split; intros E.
  - apply (f_equal an_error) in E. rewrite !error_back in E. congruence.
  - apply (f_equal a_trace_report) in E. rewrite !trace_report_back in E. congruence.
Qed.
Print Assumptions C61_faithful.

Example C61_example :
  a_trace_report (json_trace sample_traced) = Some (0, sample_traced) /\
  member "trace" (member "derived" (entries (elements text))) (json_trace sample_traced) =
    Some [(L "A", []); (L "B", [L "S3"]); (L "C", [L "T1"])] /\
  a_trace_report (JObj [(L "version", JNum 0)]) = None.
Proof. vm_compute. repeat split. Qed.

(** C44 *)
Theorem C44_gnu_report : forall {D : Debug} {US : UnstableSort} {CT : CaseTables} {J : JsonText} g tg,
  graph_wf g -> trace g = Done tg ->
  fmt_tracing tg GnuError = Done (gnu_report g (tg_errors tg)).
Proof. intros D US CT J g tg WF TR. exact (gnu_exact g WF tg TR). Qed.
Print Assumptions C44_gnu_report.

(** Each message begins with its place, names what it is about and ends the line. *)
Theorem C44_places : forall {D : Debug} e l,
  place e = Some l -> exists rest, gnu_error e = show_location l ++ L ": " ++ rest ++ [NL].
Proof. intros D. exact gnu_place. Qed.
Print Assumptions C44_places.

Theorem C44_notes : forall {D : Debug} e l,
  other_place e = Some l -> exists first rest,
  gnu_error e = first ++ [NL] ++ show_location l ++ L ": note: " ++ rest ++ [NL].
Proof. intros D. exact gnu_other_place. Qed.
Print Assumptions C44_notes.

Theorem C44_mentions : forall {D : Debug} e x, In x (mentions e) -> infix x (gnu_error e).
Proof. intros D. exact gnu_mentions. Qed.
Print Assumptions C44_mentions.

Theorem C44_phrases : forall {D : Debug} e x, In x (gnu_phrases e) -> infix x (gnu_error e).
Proof. intros D. exact gnu_phrases_in. Qed.
Print Assumptions C44_phrases.

Example C44_example :
  fmt_tracing sample_traced GnuError = Done (gnu_report sample (tg_errors sample_traced)) /\
  map req_id (uncovered_reqs sample AB) = [L "R3"] /\
  gnu_error (ECoversUnknownRequirement (rreq "S2" None 5 [] []) (L "GONE") (at_line 7)) =
  L "file:7: S2 Covers unknown requirement GONE" ++ [NL].
Proof. vm_compute. repeat split. Qed.

(** C45 *)
Theorem C45_markdown_report : forall {D : Debug} {US : UnstableSort} {CT : CaseTables} {J : JsonText} g tg,
  graph_wf g -> trace g = Done tg ->
  (forall rel la, In rel (g_relations g) -> In la (rel_lower rel) -> In la (okeys (g_artefacts g))) ->
  exists ag, aggregate tg = Done ag /\ fmt_tracing tg Markdown = Done (md_report g tg ag).
Proof.
  intros D US CT J g tg WF TR HL. destruct (md_possible g tg WF TR HL) as (ag & E1 & E2). exists ag.
  split; [exact E1|]. cbn [fmt_tracing]. rewrite E1. exact E2.
Qed.
Print Assumptions C45_markdown_report.

(** The texts of the tracing errors: all of them, none twice, in order of first occurrence. *)
Theorem C45_distinct : forall l,
  NoDup (firsts l) /\ (forall x, In x (firsts l) <-> In x l) /\
  (forall l1 l2, l = l1 ++ l2 ->
     firsts l = firsts l1 ++ filter (fun y => negb (existsb (eqb y) l1)) (firsts l2)).
Proof.
  intros l. split; [apply firsts_NoDup|]. split; [intros x; apply firsts_In|]. intros l1 l2 ->. apply firsts_app.
Qed.
Print Assumptions C45_distinct.

Theorem C45_all_listed : forall {CT : CaseTables} g tg ag,
  (forall a e, In a (ovalues (g_artefacts g)) -> In e (art_errors a) -> infix (md_error e) (md_report g tg ag)) /\
  (forall e, In e (tg_errors tg) -> infix (md_error e) (md_report g tg ag)) /\
  (forall rel r, In rel (g_relations g) -> In r (uncovered_reqs g rel) -> infix (item tg r) (md_report g tg ag)) /\
  (forall k a r, In (k, a) (g_artefacts g) -> In r (derived_reqs g k a) -> infix (item tg r) (md_report g tg ag)).
Proof.
  intros CT g tg ag. repeat split.
  - exact (listed_input_error g tg ag).
  - exact (listed_error g tg ag).
  - exact (listed_uncovered g tg ag).
  - exact (listed_derived g tg ag).
Qed.
Print Assumptions C45_all_listed.

(** Each message says what is wrong and where. *)
Theorem C45_phrases : forall {CT : CaseTables} e x, In x (md_phrases e) -> infix x (md_error e).
Proof. intros CT. exact md_phrases_in. Qed.
Print Assumptions C45_phrases.

Theorem C45_location_link : forall l n, line_of l = Some n ->
  location_link l = L "[" ++ show_location l ++ L "](../" ++ loc_file l ++ L "?plain=1#L" ++ show_N n ++ L ")".
Proof. exact location_link_line. Qed.
Print Assumptions C45_location_link.

(** But not always where: a requirement without title is not located. *)
Theorem C45_place_refuted :
  ~ forall {CT : CaseTables} e l, place e = Some l -> infix (loc_file l) (md_error e).
Proof.
  intros H. specialize (H ascii_case (ERequirementWithoutTitle (rreq "R" None 1 [] [])) (at_line 1) eq_refl).
  destruct H as (a & b & E).
  assert (HI : existsb (fun n => eqb (firstn 4 (skipn n (md_error (ERequirementWithoutTitle (rreq "R" None 1 [] []))))) (L "file"))
                 (seq 0 200) = true).
  { rewrite E. apply existsb_exists. exists (length a). split.
    - apply in_seq. apply (f_equal (@length N)) in E. rewrite !app_length in E.
      match type of E with ?n = _ => let n' := eval vm_compute in n in change n with n' in E end. lia.
    - rewrite skipn_app, skipn_all, Nat.sub_diag. cbn [skipn app]. reflexivity. }
  vm_compute in HI. discriminate.
Qed.
Print Assumptions C45_place_refuted.

Example C45_example :
  (exists text, fmt_tracing sample_traced Markdown = Done text) /\
  map req_id (derived_reqs sample (L "C") dup_art) = [L "T1"] /\
  length (tg_errors sample_traced) = length (firsts (map md_error (tg_errors sample_traced))) /\
  firsts [L "b"; L "a"; L "b"; L "c"; L "a"] = [L "b"; L "a"; L "c"].
Proof. vm_compute. repeat split. eexists. reflexivity. Qed.

(** C46 *)
Theorem C46_anchor_clean : forall {CT : CaseTables} r, exists anchor rest,
  requirement_link r = L "[" ++ req_id r ++ L "](#" ++ anchor ++ rest /\
  (rest = L ")" \/ exists t, req_title r = Some t /\ rest = [32; 34] ++ t ++ [34; 41]) /\
  forall c, In c anchor -> (97 <= c <= 122) \/ (48 <= c <= 57) \/ c = 95 \/ c = 45.
Proof. intros CT. exact anchor_clean. Qed.
Print Assumptions C46_anchor_clean.

(** For ASCII texts the anchor is the one of the requirement's heading in the trace report. *)
Theorem C46_anchor_of_heading : forall {CT : CaseTables} r,
  is_ascii (req_id r) = true -> is_ascii (opt_default (req_title r) []) = true ->
  exists rest, requirement_link r =
    L "[" ++ req_id r ++ L "](#" ++
    heading_anchor (req_id r ++ match req_title r with Some t => L ": " ++ t | None => [] end) ++ rest.
Proof. intros CT. exact anchor_heading. Qed.
Print Assumptions C46_anchor_of_heading.

Example C46_example :
  requirement_link (rreq "REQ_A" (Some (L "Do it, now!")) 1 [] []) =
  L "[REQ_A](#req_a-do-it-now " ++ [34] ++ L "Do it, now!" ++ [34] ++ L ")".
Proof. vm_compute. reflexivity. Qed.

(** The anchor does not identify the requirement. *)
Theorem C46_anchor_unique_refuted :
  ~ forall {CT : CaseTables} r1 r2, req_id r1 <> req_id r2 -> slug (req_id r1) <> slug (req_id r2).
Proof.
  intros H. specialize (H ascii_case (rreq "Req" None 1 [] []) (rreq "REQ" None 1 [] [])).
  apply H; [discriminate|]. vm_compute. reflexivity.
Qed.
Print Assumptions C46_anchor_unique_refuted.

(** C47: the error of the tracer holds the first definition and the repeated one (C07); the GNU
    report points to the repeated one and notes the first. *)
Theorem C47_gnu_right : forall {D : Debug} first again,
  gnu_error (EDuplicateRequirement first again) =
  show_location (req_location again) ++ L ": Duplicate Requirement: " ++ req_id first ++ [NL] ++
  show_location (req_location first) ++ L ": note: previously seen here" ++ [NL].
Proof. intros D first again. reflexivity. Qed.
Print Assumptions C47_gnu_right.

(** The Markdown report has them exchanged. *)
Theorem C47_markdown_refuted :
  ~ forall {CT : CaseTables} g tg first again,
      graph_wf g -> trace g = Done tg -> In (EDuplicateRequirement first again) (tg_errors tg) ->
      infix (L "first seen in " ++ location_link (req_location first)) (md_error (EDuplicateRequirement first again)).
Proof.
  intros H.
  set (twice := rgraph [rart "A" false false [rreq "X" None 1 [] []]; rart "B" false false [rreq "X" None 2 [] []]] []).
  assert (WF : graph_wf twice) by (apply rgraph_wf; intros a [<-|[<-|[]]]; apply rart_wf).
  assert (HT : exists tg, trace twice = Done tg) by (vm_compute; eexists; reflexivity).
  destruct HT as [tg HT].
  specialize (H ascii_case twice tg (rreq "X" None 1 [] []) (rreq "X" None 2 [] []) WF HT).
  match type of H with ?P -> _ => assert (HP : P) end.
  { vm_compute in HT. inversion HT; subst. vm_compute. left. reflexivity. }
  specialize (H HP). clear HP.
  assert (HS : forall x s : str, infix x s ->
    existsb (fun n => eqb (firstn (length x) (skipn n s)) x) (seq 0 (S (length s))) = true).
  { intros x s (a & b & ->). apply existsb_exists. exists (length a). split.
    - apply in_seq. rewrite !app_length. lia.
    - rewrite skipn_app, skipn_all, Nat.sub_diag. cbn [skipn app]. rewrite firstn_app, firstn_all, Nat.sub_diag.
      cbn [firstn]. rewrite app_nil_r. apply eqb_refl. }
  apply HS in H. vm_compute in H. discriminate.
Qed.
Print Assumptions C47_markdown_refuted.

Example C47_example :
  md_error (EDuplicateRequirement (rreq "X" None 1 [] []) (rreq "X" None 2 [] [])) =
  L "*   Duplicate Requirement: X" ++ [NL] ++ L "    first seen in [file:2](../file?plain=1#L2)" ++ [NL] ++
  L "    then again in [file:1](../file?plain=1#L1)" ++ [NL].
Proof. vm_compute. reflexivity. Qed.

(** C49: an array of encoded requirements is read back; the exported object is not accepted. *)
Theorem C49_round_trip : forall reqs,
  Forall fits reqs -> unjson_requirements (JArr (map json_requirement reqs)) = Some reqs.
Proof. exact json_round. Qed.
Print Assumptions C49_round_trip.

Theorem C49_export_not_importable : forall {US : UnstableSort} reqs errs,
  unjson_requirements (json_requirements reqs errs) = None.
Proof. intros US reqs errs. reflexivity. Qed.
Print Assumptions C49_export_not_importable.

Theorem C49_import_export_refuted :
  ~ forall {US : UnstableSort} reqs errs, Forall fits reqs ->
      exists reqs', unjson_requirements (json_requirements reqs errs) = Some reqs'.
Proof. intros H. destruct (H stable_is_unstable [] [] (Forall_nil _)) as (r & E). discriminate. Qed.
Print Assumptions C49_import_export_refuted.

Example C49_example :
  let r := mkRequirement (L "R") (Some (L "t")) (new_with_line_and_column (L "f") 3 4) [rref "A" None 1]
             [rref "B" (Some (L "b")) 2] [L "tag"] [(L "Comment", L "c"); (L "Description", L "d")] in
  fits r /\ unjson_requirements (JArr [json_requirement r]) = Some [r] /\
  unjson_requirements (JArr [JObj [(L "id", JStr (L "R"))]]) = None.
Proof.
  split; [|vm_compute; split; reflexivity].
  split; [vm_compute; split; reflexivity|]. split; [constructor; [vm_compute; reflexivity|constructor]|].
  split; [constructor; [vm_compute; reflexivity|constructor]|].
  cbn. repeat constructor.
Qed.

(** C59: with unique ids the trace report has, for each artefact, the entries of its requirements. *)
Theorem C59_own_requirements : forall {D : Debug} {US : UnstableSort} {CT : CaseTables} {J : JsonText} g tg ag,
  graph_wf g -> trace g = Done tg -> aggregate tg = Done ag -> unique_ids g ->
  exists pre (f : artefact_id -> requirement -> str),
    fmt_tracing tg Markdown =
      Done (pre ++ flat_map (fun e => L "## " ++ fst e ++ [NL] ++
                                      flat_map (f (fst e)) (ovalues (art_requirements (snd e)))) (g_artefacts g)) /\
    forall k r, In r (reqs_of g k) -> entry g k r (f k r).
Proof.
  intros D US CT J g tg ag WF TR AG UN. cbn [fmt_tracing]. rewrite AG. cbn [obind].
  exact (md_entries g tg ag WF TR AG UN).
Qed.
Print Assumptions C59_own_requirements.

(** An entry as a reader sees it. *)
Definition two_level := rgraph
  [ rart "A" true false [rreq "R1" None 1 [] []; rreq "R2" None 2 [] []];
    rart "B" false false [rreq "S1" None 3 [rref "R1" None 4] []] ] [AB].
Example C59_example :
  entry two_level (L "A") (rreq "R2" None 2 [] [])
    ([NL] ++ L "### R2" ++ [NL; NL] ++ L "Origin: A, [file:2](../file?plain=1#L2)" ++ [NL; NL] ++
     L "Upwards Tracing:" ++ [NL] ++ L "    *   Derived" ++ [NL; NL] ++
     L "Downwards Tracing:" ++ [NL] ++ L "*   A => [B]" ++ [NL] ++ L "    *    UNCOVERED" ++ [NL]).
Proof.
  exists [], [(AB, [])]. split; [constructor|]. split; [repeat constructor|]. split; [|split; [|vm_compute; reflexivity]].
  - intros R l. cbn [oget g_relations two_level rgraph]. split; [discriminate|]. intros ([<-|[]] & [E|[]] & _). discriminate.
  - intros R l. cbn [oget g_relations two_level rgraph]. destruct (eqb_spec R AB) as [->|HN].
    + split; [intros E; inversion E; repeat split; left; reflexivity|]. intros (_ & _ & ->). vm_compute. reflexivity.
    + split; [discriminate|]. intros ([E|[]] & _). congruence.
Qed.

(** With an id in two artefacts the last requirement is shown in both sections. *)
Theorem C59_own_requirements_refuted :
  ~ forall {CT : CaseTables} g tg ag, graph_wf g -> trace g = Done tg -> aggregate tg = Done ag ->
      forall k r t, In r (reqs_of g k) -> oget (req_id r) (ag_requirements ag) = Some t ->
      infix (location_link (req_location r)) (md_traced_requirement t).
Proof.
  intros H.
  set (twice := rgraph [rart "A" false false [rreq "X" None 1 [] []]; rart "B" false false [rreq "X" None 2 [] []]] []).
  assert (WF : graph_wf twice) by (apply rgraph_wf; intros a [<-|[<-|[]]]; apply rart_wf).
  assert (HT : exists tg ag t, trace twice = Done tg /\ aggregate tg = Done ag /\
             oget (L "X") (ag_requirements ag) = Some t /\
             md_traced_requirement t = [NL] ++ L "### X" ++ [NL; NL] ++ L "Origin: B, [file:2](../file?plain=1#L2)" ++
               [NL; NL] ++ L "Upwards Tracing:" ++ [NL] ++ L "    *   Derived" ++ [NL; NL] ++ L "Downwards Tracing:" ++ [NL])
    by (vm_compute; do 3 eexists; repeat split).
  destruct HT as (tg & ag & t & HT & HA & Ht & Em).
  specialize (H ascii_case twice tg ag WF HT HA (L "A") (rreq "X" None 1 [] []) t (or_introl eq_refl) Ht).
  rewrite Em in H.
  assert (HS : forall x s : str, infix x s ->
    existsb (fun n => eqb (firstn (length x) (skipn n s)) x) (seq 0 (S (length s))) = true).
  { intros x s (a & b & ->). apply existsb_exists. exists (length a). split.
    - apply in_seq. rewrite !app_length. lia.
    - rewrite skipn_app, skipn_all, Nat.sub_diag. cbn [skipn app]. rewrite firstn_app, firstn_all, Nat.sub_diag.
      cbn [firstn]. rewrite app_nil_r. apply eqb_refl. }
  apply HS in H. vm_compute in H. discriminate.
Qed.
Print Assumptions C59_own_requirements_refuted.
