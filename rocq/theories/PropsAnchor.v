(** Property C102: links in the Markdown report that lead to the same place.
    Vocabulary: Anchors.v, EntrySpec.v, TraceSpec.v; models: MdFmt.v, Formatters.v. *)
From Coq Require Import Lia.
From Verif Require Import Base OMap Models Unicode Location Show Sort Tracer TraceSpec TraceExamples
  Aggregator AggSpec AggFacts GnuErr Tags Serialize MdFmt Formatters FmtSpec EntrySpec FmtFacts FmtCor LinkFacts CtlExamples
  Anchors PropsLink.
Open Scope N_scope.

(** C102: links to requirements whose ids are words lead to the same place only if the ids differ in nothing but case. *)
Theorem C102_told_apart : forall {CT : CaseTables} r r',
  word_id (req_id r) -> word_id (req_id r') -> link_target r = link_target r' ->
  same_but_case (req_id r) (req_id r') /\ (req_title r = None <-> req_title r' = None).
Proof. intros CT. exact told_apart. Qed.
Print Assumptions C102_told_apart.

(** For ASCII texts: exactly if a viewer gives both headings the same anchor. *)
Theorem C102_exact : forall {CT : CaseTables} r r',
  no_bracket (req_id r) -> no_bracket (req_id r') ->
  is_ascii (heading_of r) = true -> is_ascii (heading_of r') = true ->
  link_target r = link_target r' <-> heading_anchor (heading_of r) = heading_anchor (heading_of r').
Proof. intros CT. exact same_target_iff. Qed.
Print Assumptions C102_exact.

(** On a page whose ids are words that differ in more than case, each link leads to the heading of one requirement only. *)
Theorem C102_page : forall {D : Debug} {CT : CaseTables} {J : JsonText} g tg,
  graph_wf g -> trace g = Done tg -> unique_ids g ->
  (forall rel la, In rel (g_relations g) -> In la (rel_lower rel) -> In la (okeys (g_artefacts g))) ->
  plain_graph g ->
  (forall r, In r (all_reqs g) -> is_ascii (heading_of r) = true /\ ~ In NL (heading_of r) /\ word_id (req_id r)) ->
  (forall r r', In r (all_reqs g) -> In r' (all_reqs g) -> same_but_case (req_id r) (req_id r') -> r = r') ->
  exists text, fmt_tracing tg Markdown = Done text /\
    forall t, In t (targets text) ->
      exists r, In r (all_reqs g) /\ In (heading_of r) (page_headings text) /\ heading_anchor (heading_of r) = t /\
        forall r', In r' (all_reqs g) -> heading_anchor (heading_of r') = t -> r' = r.
Proof.
  intros D CT J g tg WF TR UN HL PG HA HC. destruct (md_possible g tg WF TR HL) as (ag & E1 & E2).
  exists (md_report g tg ag). split; [cbn [fmt_tracing]; rewrite E1; exact E2|].
  intros t. exact (own_heading g tg ag t WF TR UN E1 PG HA HC).
Qed.
Print Assumptions C102_page.

(** The report of C65 has such ids. *)
Example C102_example :
  Forall (fun r => word_id (req_id r)) (all_reqs linked_arts) /\
  NoDup (map (fun r => map lower_ascii (req_id r)) (all_reqs linked_arts)) /\
  map (@link_target ascii_case) (all_reqs linked_arts) = [Some (L "r1-do-it"); Some (L "r2"); Some (L "s1-done"); Some (L "s2")].
Proof.
  split; [|split; [|vm_compute; reflexivity]].
  - apply Forall_forall. intros r Hr. apply (in_map req_id) in Hr.
    change (map req_id (all_reqs linked_arts)) with [[82; 49]; [82; 50]; [83; 49]; [83; 50]] in Hr.
    destruct Hr as [<-|[<-|[<-|[<-|[]]]]]; repeat first [apply Forall_nil | apply Forall_cons | unfold word_char; lia].
  - vm_compute. repeat constructor; cbn; intros H; repeat destruct H as [H|H]; discriminate || exact H.
Qed.

(** False for other ids, also if they differ in more than case: points and signs are left out,
    and an id with a dash may be an id and a title. *)
Definition plain_req (id : string) (t : option str) := rreq id t 1 [] [].
Theorem C102_any_ids_refuted :
  ~ forall (CT : CaseTables) r r', no_bracket (req_id r) -> no_bracket (req_id r') ->
      link_target r = link_target r' -> same_but_case (req_id r) (req_id r').
Proof.
  intros H. specialize (H ascii_case (plain_req "REQ_1.1" None) (plain_req "REQ_11" None)).
  assert (E : same_but_case (L "REQ_1.1") (L "REQ_11")).
  { apply H; [| |vm_compute; reflexivity]; intros X; vm_compute in X; repeat (destruct X as [X|X]; [discriminate|]); exact X. }
  vm_compute in E. discriminate.
Qed.
Print Assumptions C102_any_ids_refuted.
Example C102_title_or_id :
  link_target (CT := ascii_case) (plain_req "REQ" (Some (L "two words"))) = Some (L "req-two-words") /\
  link_target (CT := ascii_case) (plain_req "REQ-two" (Some (L "words"))) = Some (L "req-two-words") /\
  link_target (CT := ascii_case) (plain_req "REQ-two-words" None) = Some (L "req-two-words").
Proof. vm_compute. repeat split; reflexivity. Qed.

(** On a page: the two links to R1.1 and to R11 are the same; a viewer shows the first of the two headings for both. *)
Definition dotted_arts := rgraph
  [ rart "A" true false [rreq "R1.1" None 1 [] []; rreq "R11" None 2 [] []];
    rart "B" false false [rreq "S" None 3 [rref "R11" None 4] []] ] [AB].
Theorem C102_page_refuted :
  ~ forall (D : Debug) (CT : CaseTables) (J : JsonText) g tg text,
      graph_wf g -> trace g = Done tg -> unique_ids g -> fmt_tracing tg Markdown = Done text ->
      NoDup (map (fun r => map lower_ascii (req_id r)) (all_reqs g)) ->
      NoDup (map heading_anchor (page_headings text)).
Proof.
  intros H.
  assert (T : exists tg, trace dotted_arts = Done tg) by (vm_compute; eauto).
  destruct T as [tg T].
  assert (F : @fmt_tracing sample_debug ascii_case sample_json tg Markdown = Done (report dotted_arts)).
  { unfold report. rewrite T. revert T. vm_compute. intros E. injection E as <-. vm_compute. reflexivity. }
  specialize (H sample_debug ascii_case sample_json dotted_arts tg (report dotted_arts)).
  assert (N : NoDup (map heading_anchor (page_headings (report dotted_arts)))).
  { apply H; [|exact T| |exact F|].
    - apply rgraph_wf. intros a [<-|[<-|[]]]; apply rart_wf.
    - unfold unique_ids. vm_compute. repeat constructor; cbn; intros X; repeat destruct X as [X|X]; discriminate || exact X.
    - vm_compute. repeat constructor; cbn; intros X; repeat destruct X as [X|X]; discriminate || exact X. }
  vm_compute in N. inversion N as [|x l N1 N2 E]. apply N1. left. reflexivity.
Qed.
Print Assumptions C102_page_refuted.

(** Letters outside of ASCII are left out, so ids that differ only in them are linked to the same
    place, whatever anchors a viewer gives to the headings. *)
Theorem C102_umlauts :
  forall (CT : CaseTables), (forall a b, lower_other a 196 b = [228]) -> (forall a b, lower_other a 214 b = [246]) ->
  let r := mkRequirement [196; 49] None (mkLocation (L "f") None) [] [] [] [] in
  let r' := mkRequirement [214; 49] None (mkLocation (L "f") None) [] [] [] [] in
  link_target r = Some (L "1") /\ link_target r' = Some (L "1").
Proof.
  intros CT H1 H2 r r'.
  unfold link_target, requirement_link, slug, to_lowercase, r, r'. cbn -[lower_other].
  rewrite H1, H2. split; reflexivity.
Qed.
Print Assumptions C102_umlauts.
