(** Properties C68, C69: JSON as text.  Vocabulary: JsonGrammar.v (RFC 8259), JsonSpec.v, JsonCor.v;
    models: SerdeJson.v, Serialize.v, Formatters.v, Controller.v. *)
From Coq Require Import Permutation.
From Verif Require Import Base OMap Models Unicode Location Utf8 Show Sort Serialize JsonValues JsonSpec JsonRound MdFmt Formatters
  Controller TraceSpec TraceExamples FmtSpec FmtFacts FmtCor CtlExamples SerdeJson JsonGrammar SerdeFacts JsonCor.
Open Scope N_scope.

(** C68: the trace report is a JSON text, and a reader who follows the grammar finds the whole
    traced graph in it. *)
Theorem C68_trace_report : forall {D : Debug} {US : UnstableSort} {CT : CaseTables} tg,
  exists text, fmt_tracing (J := serde_json) tg Json = Done text /\
    (exists v, json_document text v) /\
    (forall v, json_document text v -> a_trace_report v = Some (0, tg)).
Proof. intros D US CT tg. exact (trace_text tg). Qed.
Print Assumptions C68_trace_report.

(** The requirement report: all requirements sorted by id, all errors sorted by their text. *)
Theorem C68_parse_report : forall {D : Debug} {US : UnstableSort} {CT : CaseTables} g,
  exists text reqs errs, fmt_requirements (J := serde_json) g Json = Done text /\
    ((exists v, json_document text v) /\
     (forall v, json_document text v -> a_parse_report v = Some (0, reqs, errs))) /\
    Permutation (all_reqs g) reqs /\ sorted_by req_id reqs /\ Permutation (all_errors g) errs /\ sorted_by show_error errs.
Proof. intros D US CT g. exact (parse_text g). Qed.
Print Assumptions C68_parse_report.

(** Different traced graphs have different reports. *)
Theorem C68_faithful : forall {D : Debug} {US : UnstableSort} {CT : CaseTables} t1 t2,
  fmt_tracing (J := serde_json) t1 Json = fmt_tracing (J := serde_json) t2 Json -> t1 = t2.
Proof. intros D US CT t1 t2. exact (trace_text_inj t1 t2). Qed.
Print Assumptions C68_faithful.

(** Characters that JSON does not allow in strings are escaped and come back. *)
Example C68_example :
  let v := JObj [(L "a""\", JArr [JStr [10; 1; 31; 127; 8364]; JNull; JNum 10]); (L "b", JObj []); (L "c", JArr [])] in
  json_pretty v =
    L "{" ++ [10] ++
    L "  ""a\""\\"": [" ++ [10] ++
    L "    ""\n\u0001\u001f" ++ [127; 8364] ++ L """," ++ [10] ++
    L "    null," ++ [10] ++
    L "    10" ++ [10] ++
    L "  ]," ++ [10] ++
    L "  ""b"": {}," ++ [10] ++
    L "  ""c"": []" ++ [10] ++
    L "}" /\
  read_json (json_pretty v) = Some v.
Proof. vm_compute. split; reflexivity. Qed.

(** C69: reading a JSON text: exactly the texts of the grammar, each with its value. *)
Theorem C69_reader : forall r v,
  from_reader r = Some v <-> exists s, read_to_string r = ROk s /\ json_document s v.
Proof. exact from_reader_spec. Qed.
Print Assumptions C69_reader.

(** A JSON artefact is read without error exactly if the file is a JSON text, in any layout, whose
    value is a list of requirements; otherwise nothing is read and one error names the file. *)
Theorem C69_artefact : forall {I : Inputs} (serde : forall r, in_json r = from_reader r) p r,
  (forall reqs, json_parse p r = (reqs, []) <->
     exists s v, read_to_string r = ROk s /\ json_document s v /\ requirements_value v reqs) /\
  ((forall reqs, json_parse p r <> (reqs, [])) ->
     json_parse p r = ([], [EFormat (new_with_no_pos p) (in_json_error r)])).
Proof. intros I serde p r. split; [intros reqs; apply json_parse_ok; exact serde|apply json_parse_bad]. Qed.
Print Assumptions C69_artefact.

(** However requirements are written as JSON, they are read back. *)
Theorem C69_round_trip : forall {I : Inputs} (serde : forall r, in_json r = from_reader r) p r s reqs,
  Forall fits reqs -> read_to_string r = ROk s -> json_document s (JArr (map json_requirement reqs)) ->
  json_parse p r = (reqs, []).
Proof. intros I serde p r s reqs. exact (json_parse_round serde p r s reqs). Qed.
Print Assumptions C69_round_trip.

Definition json_inputs : Inputs := {|
  in_open := in_open (Inputs := sample_inputs);
  in_glob := in_glob (Inputs := sample_inputs);
  in_syn := in_syn (Inputs := sample_inputs);
  in_debug_tokens := in_debug_tokens (Inputs := sample_inputs);
  in_json := from_reader;
  in_json_error := fun _ => L "no JSON"
|}.
Example C69_example :
  let text := L " [ {""id"":""R1"", ""tags"":[ ],""covers"":[], ""depends"":[], ""x"": [1.5e3, true]," ++
    L """location"":{""file"":""f"",""location_in_file"":{""Line"":7}},""attributes"":{""A"":""😀""}}]" ++ [10] in
  let reader bytes := mkReader bytes None in
  json_parse (I := json_inputs) (L "a.json") (reader text) =
    ([mkRequirement (L "R1") None (mkLocation (L "f") (Some (Line 7))) [] [] [] [(L "A", [128512])]], []) /\
  (forall bad, In bad [L "[]]"; L "[01]"; L "[""" ++ [10] ++ L """]"; L "[1,]"; L "{}"; L "[""\uD83D""]"; [255]] ->
     json_parse (I := json_inputs) (L "a.json") (reader bad) =
       ([], [EFormat (mkLocation (L "a.json") None) (L "no JSON")])).
Proof.
  split; [vm_compute; reflexivity|]. intros bad H.
  repeat (destruct H as [<-|H]; [vm_compute; reflexivity|]). destruct H.
Qed.
