(** Properties C80, C81: graphs with more in them, graphs with other names in them. Vocabulary: RelabelSpec.v, MetaSpec.v,
    TraceSpec.v; model: Tracer.v. *)
From Verif Require Import Base OMap Models Tracer TraceSpec TraceExamples MetaSpec RelabelSpec TraceMeta TraceExtend TraceRelabel.

(** C80: whatever is added, no requirement that was there becomes uncovered or derived. *)
Theorem C80_more : forall g g' tg tg',
  graph_wf g -> graph_wf g' -> extends g g' -> trace g = Done tg -> trace g' = Done tg' ->
  (forall tr tr' id, In tr (tg_relations tg) -> In tr' (tg_relations tg') -> tr_relation tr' = tr_relation tr ->
     In id (ids_of g (rel_upper (tr_relation tr))) -> In id (tr_uncovered tr') -> In id (tr_uncovered tr)) /\
  (forall k id d', In id (ids_of g k) -> oget k (tg_derived tg') = Some d' -> In id d' ->
     exists d, oget k (tg_derived tg) = Some d /\ In id d).
Proof. exact extends_trace. Qed.
Print Assumptions C80_more.

Definition few := rgraph
  [ rart "B" true false [rreq "R" None 1 [] []; rreq "Q" None 2 [] []];
    rart "C" false false [rreq "S" None 1 [rref "R" None 2] []; rreq "T" None 4 [] []] ]
  [mkRelation (L "B") [L "C"]].
(** A reference at [T], a requirement [U] and an artefact [A] more. *)
Definition more := rgraph
  [ rart "A" true false [rreq "V" None 1 [] []];
    rart "B" true false [rreq "R" None 1 [] []; rreq "Q" None 2 [] []; rreq "U" None 3 [rref "V" None 4] []];
    rart "C" false false [rreq "S" None 1 [rref "R" None 2] []; rreq "T" None 4 [rref "Q" None 5] []] ]
  [AB; mkRelation (L "B") [L "C"]].
(** The same, but artefact [A] has an id that is used. *)
Definition clash := rgraph
  [ rart "A" true false [rreq "S" None 1 [] []];
    rart "B" true false [rreq "R" None 1 [] []; rreq "Q" None 2 [] []];
    rart "C" false false [rreq "S" None 1 [rref "R" None 2] []; rreq "T" None 4 [] []] ]
  [mkRelation (L "B") [L "C"]].
Definition result (g : graph) :=
  match trace g with Done t => Some (tg_derived t, map tr_uncovered (tg_relations t)) | Panic => None end.
Example C80_example :
  graph_wf few /\ graph_wf more /\ extends few more /\
  result few = Some ([(L "B", []); (L "C", [L "T"])], [[L "Q"]]) /\
  result more = Some ([(L "A", []); (L "B", []); (L "C", [])], [[]; [L "U"]]).
Proof.
  split; [apply rgraph_wf; intros a [<-|[<-|[]]]; apply rart_wf|].
  split; [apply rgraph_wf; intros a [<-|[<-|[<-|[]]]]; apply rart_wf|].
  split; [|split; vm_compute; reflexivity].
  assert (HK : forall k : artefact_id, k <> L "B" -> k <> L "C" -> oget k (g_artefacts few) = None).
  { intros k HA HB. apply oget_None. intros X. change (In k [L "B"; L "C"]) in X. destruct X as [X|[X|[]]]; congruence. }
  assert (HK' : forall k : artefact_id, k <> L "A" -> k <> L "B" -> k <> L "C" -> oget k (g_artefacts more) = None).
  { intros k H0 HA HB. apply oget_None. intros X. change (In k [L "A"; L "B"; L "C"]) in X. destruct X as [X|[X|[X|[]]]]; congruence. }
  assert (NO : forall k0, ~ In (L "U") (ids_of few k0) /\ ~ In (L "V") (ids_of few k0)).
  { intros k0. destruct (eqb_spec k0 (L "B")) as [->|HB]; [split; vm_compute; intros H; repeat destruct H as [H|H]; discriminate || exact H|].
    destruct (eqb_spec k0 (L "C")) as [->|HC]; [split; vm_compute; intros H; repeat destruct H as [H|H]; discriminate || exact H|].
    unfold ids_of, reqs_of. rewrite (HK k0 HB HC). split; intros []. }
  split; [intros rel [<-|[]]; right; left; reflexivity|]. split; [|split; [|split]].
  - intros k b. destruct (eqb_spec k (L "B")) as [->|HB]; [vm_compute; auto|].
    destruct (eqb_spec k (L "C")) as [->|HC]; [vm_compute; auto|]. unfold ignores. rewrite (HK k HB HC). discriminate.
  - intros k id. destruct (eqb_spec k (L "B")) as [->|HB]; [vm_compute; tauto|].
    destruct (eqb_spec k (L "C")) as [->|HC]; [vm_compute; tauto|]. unfold ids_of, reqs_of. rewrite (HK k HB HC). intros [].
  - intros k id. destruct (eqb_spec k (L "A")) as [->|HA].
    { intros [<-|[]]. right. apply NO. }
    destruct (eqb_spec k (L "B")) as [->|HB].
    { intros [<-|[<-|[<-|[]]]]; [left; vm_compute; tauto|left; vm_compute; tauto|right; apply NO]. }
    destruct (eqb_spec k (L "C")) as [->|HC]; [intros H; left; exact H|].
    unfold ids_of at 1, reqs_of. rewrite (HK' k HA HB HC). intros [].
  - intros rel la u l [<-|[]] [<-|[]] H. cbn [rel_upper rel_lower] in *.
    destruct H as [(up & d & Hup & _ & Hd & _)|(low & c & Hlow & El & Hc & Ec)].
    + destruct Hup as [<-|[<-|[]]]; destruct Hd.
    + destruct Hlow as [<-|[<-|[]]]; [destruct Hc as [<-|[]]|destruct Hc]. right. subst.
      exists (rreq "S" None 1 [rref "R" None 2] []), (rref "R" None 2). vm_compute. tauto.
Qed.
Definition done (g : graph) : traced_graph := match trace g with Done t => t | Panic => mkTracedGraph [] [] [] [] end.
(** New requirements with old ids can take coverage away. *)
Theorem C80_old_ids_refuted : ~ (forall g g' tg tg',
  graph_wf g -> graph_wf g' -> g_relations g = g_relations g' ->
  (forall k a, oget k (g_artefacts g) = Some a -> oget k (g_artefacts g') = Some a) ->
  trace g = Done tg -> trace g' = Done tg' ->
  forall tr tr' id, In tr (tg_relations tg) -> In tr' (tg_relations tg') -> tr_relation tr' = tr_relation tr ->
     In id (ids_of g (rel_upper (tr_relation tr))) -> In id (tr_uncovered tr') -> In id (tr_uncovered tr)).
Proof.
  intros H.
  assert (W : graph_wf few) by (apply rgraph_wf; intros a [<-|[<-|[]]]; apply rart_wf).
  assert (W' : graph_wf clash) by (apply rgraph_wf; intros a [<-|[<-|[<-|[]]]]; apply rart_wf).
  assert (HA : forall k a, oget k (g_artefacts few) = Some a -> oget k (g_artefacts clash) = Some a).
  { intros k a Ha. apply oget_Some_In in Ha. destruct Ha as [Ha|[Ha|[]]]; inversion Ha; vm_compute; reflexivity. }
  assert (E : trace few = Done (done few)) by (vm_compute; reflexivity).
  assert (E' : trace clash = Done (done clash)) by (vm_compute; reflexivity).
  assert (T : tg_relations (done few) = [mkTracedRelation (mkRelation (L "B") [L "C"])
                [mkCoverage (L "R") (L "S") (at_line 2) Upwards] [L "Q"]]) by (vm_compute; reflexivity).
  assert (T' : tg_relations (done clash) = [mkTracedRelation (mkRelation (L "B") [L "C"]) [] [L "Q"; L "R"]]) by (vm_compute; reflexivity).
  specialize (H few clash _ _ W W' eq_refl HA E E'). rewrite T, T' in H.
  specialize (H _ _ (L "R") (or_introl eq_refl) (or_introl eq_refl) eq_refl). cbn [tr_relation tr_uncovered rel_upper] in H.
  assert (I : In (L "R") (ids_of few (L "B"))) by (vm_compute; tauto).
  destruct (H I (or_intror (or_introl eq_refl))) as [K|[]]. vm_compute in K. discriminate.
Qed.
Print Assumptions C80_old_ids_refuted.

(** C81: with other ids in the same order, other titles, places, tags and attributes, the result is the same with these
    names. *)
Theorem C81_relabel : forall f g, faithful f -> graph_wf g ->
  trace (on_graph f g) = match trace g with Done tg => Done (on_traced f tg) | Panic => Panic end.
Proof. exact (fun f g F => trace_rl f F g). Qed.
Print Assumptions C81_relabel.

Definition renamed := mkRelabeling (fun id => L "X" ++ id) (fun t => t ++ L "!") (fun l => mkLocation (L "other") None)
                        (fun _ => [L "tag"]) (fun _ => []) (fun _ => []) (fun _ => [EEmptyGraph]).
Example C81_example :
  faithful renamed /\ graph_wf sample /\ trace (on_graph renamed sample) = Done (on_traced renamed sample_traced) /\
  on_traced renamed sample_traced <> sample_traced.
Proof.
  split; [|split; [|split]].
  - split; [intros a b; reflexivity|]. intros a b H. exact (proj1 (app_inj_tail a b _ _ H)).
  - exact sample_wf.
  - vm_compute. reflexivity.
  - vm_compute. discriminate.
Qed.
