(** Property C65: the links within the Markdown trace report.  Vocabulary: EntrySpec.v, TraceSpec.v; models: MdFmt.v, Formatters.v. *)
From Verif Require Import Base OMap Models Unicode Location Show Sort Tracer TraceSpec TraceExamples
  Aggregator AggSpec AggFacts GnuErr Tags Serialize MdFmt Formatters FmtSpec EntrySpec FmtFacts FmtCor LinkFacts CtlExamples.
Open Scope N_scope.

(** C65: with unique ids and ASCII headings, every link within the page leads to the heading of a requirement. *)
Theorem C65_no_dead_links : forall {D : Debug} {CT : CaseTables} {J : JsonText} g tg,
  graph_wf g -> trace g = Done tg -> unique_ids g ->
  (forall rel la, In rel (g_relations g) -> In la (rel_lower rel) -> In la (okeys (g_artefacts g))) ->
  plain_graph g ->
  (forall r, In r (all_reqs g) -> is_ascii (heading_of r) = true /\ ~ In NL (heading_of r)) ->
  exists text, fmt_tracing tg Markdown = Done text /\
    forall t, In t (targets text) -> exists h, In h (page_headings text) /\ t = heading_anchor h.
Proof.
  intros D CT J g tg WF TR UN HL PG HA. destruct (md_possible g tg WF TR HL) as (ag & E1 & E2).
  exists (md_report g tg ag). split; [cbn [fmt_tracing]; rewrite E1; exact E2|].
  intros t. exact (no_dead_link g PG WF tg TR UN ag E1 t HA).
Qed.
Print Assumptions C65_no_dead_links.

Definition report (g : graph) : str :=
  match trace g with
  | Done tg => match @fmt_tracing sample_debug ascii_case sample_json tg Markdown with Done t => t | Panic => [] end
  | Panic => []
  end.
Definition linked_arts := rgraph
  [ rart "A" true false [rreq "R1" (Some (L "Do it")) 1 [] []; rreq "R2" None 2 [] []];
    rart "B" false false [rreq "S1" (Some (L "Done")) 3 [rref "R1" None 4] []; rreq "S2" None 5 [rref "GONE" None 6] []] ] [AB].
Example C65_example :
  graph_wf linked_arts /\ unique_ids linked_arts /\ plain_graph linked_arts /\
  targets (report linked_arts) =
    [L "s2"; L "r2"; L "s2"; L "s1-done"; L "r1-do-it"] /\
  page_headings (report linked_arts) = [L "R1: Do it"; L "R2"; L "S1: Done"; L "S2"].
Proof.
  split; [apply rgraph_wf; intros a [<-|[<-|[]]]; apply rart_wf|].
  split; [unfold unique_ids; vm_compute; repeat constructor; cbn; intros H; repeat destruct H as [H|H]; discriminate || exact H|].
  split; [|split; vm_compute; reflexivity].
  split; [|split].
  - intros r Hr. vm_compute in Hr.
    assert (F : Forall plain_requirement (all_reqs linked_arts)).
    { vm_compute. repeat constructor; cbn; intros H; repeat destruct H as [H|H]; discriminate || exact H. }
    rewrite Forall_forall in F. apply F. exact Hr.
  - assert (F : Forall (fun e => no_bracket (fst e) /\ Forall (plain_error linked_arts) (art_errors (snd e))) (g_artefacts linked_arts)).
    { vm_compute. repeat constructor; cbn; intros H; repeat destruct H as [H|H]; discriminate || exact H. }
    rewrite Forall_forall in F. intros k a H. exact (F (k, a) H).
  - repeat constructor; vm_compute; intros H; repeat destruct H as [H|H]; discriminate || exact H.
Qed.

(** With duplicate ids there are dead links: the heading is that of the last definition, errors
    link to the first. *)
Definition two_titles := rgraph
  [ rart "A" true false [rreq "R1" None 1 [] []];
    rart "B" false false [rreq "X" (Some (L "one")) 3 [rref "GONE" None 4] []];
    rart "C" false false [rreq "X" (Some (L "two")) 5 [] []] ] [AB].
Theorem C65_duplicate_ids_refuted :
  ~ forall {D : Debug} {CT : CaseTables} {J : JsonText} g tg text,
      graph_wf g -> trace g = Done tg -> fmt_tracing tg Markdown = Done text ->
      plain_graph g -> (forall r, In r (all_reqs g) -> is_ascii (heading_of r) = true /\ ~ In NL (heading_of r)) ->
      forall t, In t (targets text) -> exists h, In h (page_headings text) /\ t = heading_anchor h.
Proof.
  intros H.
  specialize (H sample_debug ascii_case sample_json two_titles
    (match trace two_titles with Done tg => tg | Panic => sample_traced end) (report two_titles)).
  destruct (H ltac:(apply rgraph_wf; intros a [<-|[<-|[<-|[]]]]; apply rart_wf) ltac:(vm_compute; reflexivity)
      ltac:(vm_compute; reflexivity)) with (t := L "x-one") as (h & Hh & E).
  - split; [|split].
    + assert (F : Forall plain_requirement (all_reqs two_titles)).
      { vm_compute. repeat constructor; cbn; intros X; repeat destruct X as [X|X]; discriminate || exact X. }
      rewrite Forall_forall in F. exact F.
    + assert (F : Forall (fun e => no_bracket (fst e) /\ Forall (plain_error two_titles) (art_errors (snd e))) (g_artefacts two_titles)).
      { vm_compute. repeat constructor; cbn; intros X; repeat destruct X as [X|X]; discriminate || exact X. }
      rewrite Forall_forall in F. intros k a X. exact (F (k, a) X).
    + repeat constructor; vm_compute; intros X; repeat destruct X as [X|X]; discriminate || exact X.
  - assert (F : Forall (fun r => is_ascii (heading_of r) = true /\ ~ In NL (heading_of r)) (all_reqs two_titles)).
    { vm_compute. repeat constructor; cbn; intros X; repeat destruct X as [X|X]; discriminate || exact X. }
    rewrite Forall_forall in F. exact F.
  - vm_compute. repeat first [left; reflexivity | right].
  - assert (F : Forall (fun h => heading_anchor h <> L "x-one") (page_headings (report two_titles))).
    { vm_compute. repeat constructor; discriminate. }
    rewrite Forall_forall in F. exact (F h Hh (eq_sym E)).
Qed.
Print Assumptions C65_duplicate_ids_refuted.
