(** Property C106: the order of the reports is that of the bytes.
    Vocabulary: OrderSpec.v (order of bytes), Utf8Spec.v (UTF-8), FmtSpec.v, JsonSpec.v, TagRead.v, OutlineSpec.v;
    models: Base.v, Tags.v, Serialize.v, MdFmt.v, Tracer.v, Aggregator.v, Controller.v, Formatters.v. *)
From Coq Require Import Permutation.
From Verif Require Import PropsFmt PropsDoc2 PropsOutline PropsTrace PropsAgg PropsCtl TraceExamples.
From Verif Require Import Base OMap Models Sort Utf8 Utf8Spec OrderSpec OrderFacts Show Tracer TraceSpec TraceCor TraceOrder Aggregator AggSpec
  Serialize JsonSpec Location Unicode MdFmt Formatters FmtSpec FmtFacts EntrySpec FmtCor TagRead GnuReadSpec OutlineSpec Controller CtlExamples.
Open Scope N_scope.

(** C106: a text is less than another one exactly if its bytes in UTF-8 are. *)
Theorem C106_order : forall bs s bs' t, utf8 bs s -> utf8 bs' t -> (lt s t <-> bytes_before bs bs').
Proof. exact order_bytes. Qed.
Print Assumptions C106_order.

(** The requirements in the JSON report are in the order of the bytes of their ids, the errors in that of their texts. *)
Theorem C106_json : forall {D : Debug} {US : UnstableSort} {CT : CaseTables} {J : JsonText} g,
  exists v reqs errs,
    fmt_requirements g Json = Done (json_pretty v) /\ a_parse_report v = Some (0, reqs, errs) /\
    Permutation (all_reqs g) reqs /\ in_byte_order req_id reqs /\
    Permutation (all_errors g) errs /\ in_byte_order show_error errs.
Proof.
  intros D US CT J g. destruct (C43_json g) as (v & reqs & errs & H1 & H2 & H3 & H4 & _ & H5 & H6).
  exists v, reqs, errs. auto 10 using sorted_bytes.
Qed.
Print Assumptions C106_json.

(** The requirements in the Markdown export too. *)
Theorem C106_markdown : forall {D : Debug} {US : UnstableSort} {CT : CaseTables} {J : JsonText} g,
  graph_wf g -> plain_texts g ->
  exists text rs, fmt_requirements g Markdown = Done text /\ Permutation (all_reqs g) rs /\ in_byte_order req_id rs /\
    outline text = export_outline g rs.
Proof.
  intros D US CT J g WF PT. destruct (C93_export g WF PT) as (text & rs & H1 & H2 & H3 & H4).
  exists text, rs. auto using sorted_bytes.
Qed.
Print Assumptions C106_markdown.

(** The lines of the tags file are in the order of their bytes, and so are the names in them: the order that programs
    expect which search in this file by halving. *)
Theorem C106_tags : forall {D : Debug} {US : UnstableSort} {CT : CaseTables} {J : JsonText} g,
  (forall r, In r (all_reqs g) -> has_line r = true ->
     plain_text (req_id r) /\ plain_text (loc_file (req_location r)) /\ (forall c, In c (req_id r) -> 33 < c) /\
     req_id r <> []) ->
  exists text lines rs,
    fmt_requirements g Tags = Done text /\ split_lines text = header_lines ++ lines /\
    Forall2 says_tag lines (map entry_of rs) /\
    Permutation (filter has_line (all_reqs g)) rs /\ in_byte_order req_id rs /\
    in_byte_order (fun l => l) (split_lines text).
Proof.
  intros D US CT J g H. destruct (C83_read g H) as (text & lines & rs & H1 & H2 & H3 & H4 & H5 & H6).
  exists text, lines, rs. auto 10 using sorted_bytes.
Qed.
Print Assumptions C106_tags.

(** The artefacts of the graph made from a configuration, and the requirements of each of them: so this order decides
    which of several definitions of an id is the first one. *)
Theorem C106_graph : forall {U : UnicodeTables} {D : Debug} {I : Inputs} cf base c,
  controller_new cf base = Done c ->
  in_strict_byte_order (okeys (g_artefacts (ctl_graph c))) /\
  forall id a, In (id, a) (g_artefacts (ctl_graph c)) -> in_strict_byte_order (okeys (art_requirements a)).
Proof.
  intros U D I cf base c H. destruct (C34_traced cf base c H) as ((H1 & H2) & _).
  split; [apply strict_bytes, H1|]. intros id a Ha. apply strict_bytes. exact (proj1 (proj2 (H2 id a Ha))).
Qed.
Print Assumptions C106_graph.

(** The ids of uncovered and derived requirements. *)
Theorem C106_uncovered : forall g tg tr,
  graph_wf g -> trace g = Done tg -> In tr (tg_relations tg) -> in_strict_byte_order (tr_uncovered tr).
Proof. intros g tg tr WF TR H. apply strict_bytes. exact (proj1 (C02_uncovered_exact g tg tr WF TR H)). Qed.
Print Assumptions C106_uncovered.

Theorem C106_derived : forall g tg k a d,
  graph_wf g -> trace g = Done tg -> oget k (g_artefacts g) = Some a -> oget k (tg_derived tg) = Some d ->
  in_strict_byte_order d.
Proof.
  intros g tg k a d WF TR A E. destruct (C03_derived_exact g tg k a WF TR A) as (d' & E' & H & _).
  assert (d' = d) as -> by congruence. apply strict_bytes, H.
Qed.
Print Assumptions C106_derived.

(** The requirements of the Markdown trace report, and the relations listed at each of them. *)
Theorem C106_aggregated : forall g tg ag,
  graph_wf g -> trace g = Done tg -> aggregate tg = Done ag ->
  in_strict_byte_order (okeys (ag_requirements ag)) /\
  forall id a r, last_def tg id = Some (a, r) ->
    exists rt, oget id (ag_requirements ag) = Some rt /\
      ordered relation_before (okeys (rt_depends rt)) /\ ordered relation_before (okeys (rt_covers rt)).
Proof.
  intros g tg ag WF TR HA. destruct (C15_cross_references g tg ag WF TR HA) as (H1 & _ & H2).
  split; [apply strict_bytes, H1|]. intros id a r E. destruct (H2 id a r E) as (rt & H3 & _ & _ & H4 & H5 & _).
  exists rt. split; [exact H3|]. split; apply (sorted_ordered relation_before _ lt_relation); assumption.
Qed.
Print Assumptions C106_aggregated.

(** The messages about unknown ids: those of covers lists by the unknown id and the id of the requirement, those of
    depends lists by the id of the requirement and the unknown id. *)
Theorem C106_unknown : forall g tg,
  graph_wf g -> trace g = Done tg ->
  ordered pair_before (flat_map covers_pair (tg_errors tg)) /\
  ordered pair_before (flat_map depends_pair (tg_errors tg)).
Proof. exact unknown_order. Qed.
Print Assumptions C106_unknown.

(** Capital letters come before small ones and those before umlauts, and 10 comes before 2; the character U+FFFD comes
    before U+1F600, other than in UTF-16. *)
Definition order_ids : list str :=
  [L "R_10"; L "R_2"; L "R_Z"; L "R_a"; L "R_" ++ [228]; L "R_" ++ [0xFFFD]; L "R_" ++ [0x1F600]].
Definition order_graph : graph :=
  rgraph [rart "A" false false (map (fun id => mkRequirement id None (new_with_line_no (L "f") 1) [] [] [] []) (rev order_ids))] [].
#[local] Existing Instance ascii_case.
#[local] Existing Instance sample_debug.
#[local] Existing Instance sample_json.
#[local] Existing Instance stable_is_unstable.
Example C106_example :
  (exists text, fmt_requirements order_graph Tags = Done text /\
     map (fun l => hd [] (fields l)) (skipn (length header_lines) (split_lines text)) = order_ids) /\
  (exists tg, trace order_graph = Done tg /\ ovalues (tg_derived tg) = [order_ids]) /\
  Forall (fun id => utf8 (encode id) id) order_ids /\
  bytes_before (encode [0xFFFD]) (encode [0x1F600]).
Proof.
  split; [eexists; split; vm_compute; reflexivity|].
  split; [eexists; split; vm_compute; reflexivity|].
  split.
  - repeat (apply Forall_cons; [apply Utf8Facts.decode_utf8; vm_compute; reflexivity|]). apply Forall_nil.
  - apply before_byte. reflexivity.
Qed.

(** The relations from A to C, to B and C, and to B, and a covers list with two unknown ids. *)
Definition relation_graph : graph :=
  rgraph [ rart "A" false false [rreq "R1" None 1 [] []];
           rart "B" false false [rreq "S1" None 1 [rref "R1" None 2; rref "Z" None 3; rref "Y_2" None 4; rref "Y_10" None 5] []];
           rart "C" false false [rreq "S2" None 1 [rref "R1" None 2] []] ]
         [mkRelation (L "A") [L "C"]; mkRelation (L "A") [L "B"; L "C"]; mkRelation (L "A") [L "B"]].
Example C106_example_relations : exists tg ag rt,
  graph_wf relation_graph /\ trace relation_graph = Done tg /\ aggregate tg = Done ag /\
  oget (L "R1") (ag_requirements ag) = Some rt /\
  map rel_lower (okeys (rt_depends rt)) = [[L "B"]; [L "B"; L "C"]; [L "C"]] /\
  flat_map covers_pair (tg_errors tg) = [(L "Y_10", L "S1"); (L "Y_2", L "S1"); (L "Z", L "S1")].
Proof.
  do 3 eexists. split; [apply rgraph_wf; intros a [<-|[<-|[<-|[]]]]; apply rart_wf|].
  split; [vm_compute; reflexivity|]. split; [vm_compute; reflexivity|]. split; [vm_compute; reflexivity|].
  split; vm_compute; reflexivity.
Qed.
