(** The files of an artefact in the Trace/Json report. *)
From Verif Require Import Base OMap Models Unicode Utf8 Tracer TraceSpec TraceFacts TraceCor Show Sort Serialize MdFmt
  Formatters JsonSpec Controller CtlSpec CtlFacts CtlCor SerdeJson JsonGrammar JsonCor DocCtl.
Open Scope N_scope.

Lemma reported_files {U : UnicodeTables} {D : Debug} {US : UnstableSort} {CT : CaseTables} {I : Inputs} cf base c id a ac :
  controller_new cf base = Done c -> oget id (g_artefacts (ctl_graph c)) = Some a -> last_config cf id = Some ac ->
  exists text, fmt_tracing (J := serde_json) (ctl_traced c) Json = Done text /\
    (exists v, json_document text v) /\
    forall v, json_document text v -> exists tg a', a_trace_report v = Some (0, tg) /\
      oget id (tg_artefacts tg) = Some a' /\ forall f, opened base ac f -> In f (art_files a').
Proof.
  intros HC Ha Hl. destruct (trace_text (ctl_traced c)) as (text & E & HV & HR). exists text.
  split; [exact E|]. split; [exact HV|]. intros v Hv. exists (ctl_traced c), a. split; [exact (HR v Hv)|].
  pose proof (controller_new_spec cf base) as HS. rewrite HC in HS. destruct HS as (_ & HB & TR & _).
  split; [|exact (proj1 (artefact_files _ _ _ _ _ _ HC Ha Hl))].
  destruct (trace_done _ (graph_built_wf cf base _ HB) _ TR) as (pc & pd & A1 & _). rewrite A1. exact Ha.
Qed.
