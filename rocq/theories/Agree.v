(** The reports say what the result of the job says. *)
From Coq Require Import Permutation.
From Verif Require Import Base OMap Models Unicode Utf8 Paths Location Show Sort Tracer TraceSpec TraceCor Aggregator AggSpec
  GnuErr MdFmt Formatters Serialize FmtSpec FmtFacts EntrySpec FmtCor MdParser RustParser Controller CtlSpec CtlFacts JobFacts
  SerdeJson JsonGrammar SerdeFacts GnuReadSpec GnuRead OutlineSpec Outline JsonSpec JsonRound JsonCor AgreeSpec.
Open Scope N_scope.

Section Clean.
  Variable g : graph.
  Hypothesis WF : graph_wf g.
  Variable tg : traced_graph.
  Hypothesis TR : trace g = Done tg.

  Definition nothing : Prop :=
    tg_errors tg = [] /\ (forall a, In a (ovalues (tg_artefacts tg)) -> art_errors a = []) /\
    (forall t, In t (tg_relations tg) -> tr_uncovered t = []) /\ (forall d, In d (ovalues (tg_derived tg)) -> d = []).

  Lemma nothing_spec : nothing <->
    tg_errors tg = [] /\ all_errors g = [] /\ (forall rel, In rel (g_relations g) -> uncovered_reqs g rel = []) /\
    (forall k a, In (k, a) (g_artefacts g) -> derived_reqs g k a = []).
  Proof.
    unfold nothing. rewrite (tg_arts g WF tg TR), (tg_rels g WF tg TR), (tg_der g WF tg TR).
    assert (H1 : (forall a, In a (ovalues (g_artefacts g)) -> art_errors a = []) <-> all_errors g = []).
    { unfold all_errors, ovalues. split.
      - intros H. induction (g_artefacts g) as [|[k a] m IH]; [reflexivity|]. cbn [flat_map snd]. rewrite (H a) by (left; reflexivity).
        apply IH. intros b Hb. apply H. right. exact Hb.
      - intros H a Ha. apply in_map_iff in Ha. destruct Ha as ([k b] & <- & Hb). cbn [snd].
        destruct (art_errors b) as [|e es] eqn:E; [reflexivity|].
        assert (X : In e (flat_map (fun e => art_errors (snd e)) (g_artefacts g))).
        { apply in_flat_map. exists (k, b). split; [exact Hb|]. cbn [snd]. rewrite E. left. reflexivity. }
        rewrite H in X. destruct X. }
    rewrite H1.
    assert (H2 : (forall t, In t (map (fun rel => mkTracedRelation rel (map link_coverage (links g rel)) (map req_id (uncovered_reqs g rel)))
                    (g_relations g)) -> tr_uncovered t = []) <-> forall rel, In rel (g_relations g) -> uncovered_reqs g rel = []).
    { split.
      - intros H rel Hr. apply (map_eq_nil req_id).
        exact (H (mkTracedRelation rel (map link_coverage (links g rel)) (map req_id (uncovered_reqs g rel)))
                 (in_map (fun rel => mkTracedRelation rel (map link_coverage (links g rel)) (map req_id (uncovered_reqs g rel))) _ _ Hr)).
      - intros H t Ht. apply in_map_iff in Ht. destruct Ht as (rel & <- & Hr). cbn [tr_uncovered]. rewrite (H rel Hr). reflexivity. }
    rewrite H2.
    assert (H3 : (forall d, In d (ovalues (map (fun e => (fst e, map req_id (derived_reqs g (fst e) (snd e)))) (g_artefacts g))) -> d = []) <->
                 forall k a, In (k, a) (g_artefacts g) -> derived_reqs g k a = []).
    { unfold ovalues. rewrite map_map. cbn [snd]. split.
      - intros H k a Hk. apply (map_eq_nil req_id). apply H. apply in_map_iff. exists (k, a). split; [reflexivity|exact Hk].
      - intros H d Hd. apply in_map_iff in Hd. destruct Hd as ([k a] & <- & Hk). cbn [fst snd]. rewrite (H k a Hk). reflexivity. }
    rewrite H3. reflexivity.
  Qed.

  (** ** GNU *)
  Lemma error_says {D : Debug} e : exists p m es, error_entries e = At p m :: es.
  Proof. destruct e; cbn [error_entries]; unfold at_place; eauto. Qed.
  Lemma entries_silent {D : Debug} :
    (forall p m, ~ In (At p m) (report_entries g (tg_errors tg))) <-> nothing.
  Proof.
    rewrite nothing_spec. unfold report_entries. split.
    - intros H.
      assert (HE : tg_errors tg = []).
      { destruct (tg_errors tg) as [|e es]; [reflexivity|]. destruct (error_says e) as (x & y & l & E). elim (H x y).
        right. apply in_or_app. right. right. apply in_or_app. left. cbn [flat_map]. rewrite E. left. reflexivity. }
      assert (HA : all_errors g = []).
      { destruct (all_errors g) as [|e es]; [reflexivity|]. destruct (error_says e) as (x & y & l & E). elim (H x y).
        right. apply in_or_app. left. cbn [flat_map]. rewrite E. left. reflexivity. }
      split; [exact HE|]. split; [exact HA|]. rewrite HE, HA in H. cbn [flat_map app] in H. split.
      + intros rel Hr. destruct (uncovered_reqs g rel) as [|r rs] eqn:E; [reflexivity|].
        elim (H (show_location (req_location r)) (req_id r ++ L " Uncovered")). do 3 right. apply in_or_app. left.
        apply in_flat_map. exists rel. split; [exact Hr|]. right. rewrite E. left. reflexivity.
      + intros k a Hk. destruct (derived_reqs g k a) as [|r rs] eqn:E; [reflexivity|].
        elim (H (show_location (req_location r)) (req_id r ++ L " Derived")). do 3 right. apply in_or_app. right. right.
        apply in_flat_map. exists (k, a). split; [exact Hk|]. right. cbn [fst snd]. rewrite E. left. reflexivity.
    - intros (-> & -> & HU & HD) p m. cbn [flat_map app]. intros [X|[X|[X|X]]]; try discriminate.
      apply in_app_or in X. destruct X as [X|[X|X]]; [|discriminate|].
      + apply in_flat_map in X. destruct X as (rel & Hr & X). rewrite (HU rel Hr) in X. destruct X as [X|[]]. discriminate.
      + apply in_flat_map in X. destruct X as ([k a] & Hk & X). cbn [fst snd] in X. rewrite (HD k a Hk) in X.
        destruct X as [X|[]]. discriminate.
  Qed.

  (** ** Markdown *)
  Lemma outline_silent :
    (forall t, In (1%nat, t) (report_outline g (tg_errors tg)) <-> t = L "Requirements") <-> nothing.
  Proof.
    rewrite nothing_spec. split.
    - intros H.
      assert (HE : all_errors g = []).
      { destruct (all_errors g) as [|e es] eqn:E; [reflexivity|]. exfalso.
        assert (X : L "Input Errors" = L "Requirements") by (apply H, outline_one; left; rewrite E; split; [reflexivity|discriminate]).
        discriminate X. }
      assert (HA : tg_errors tg = []).
      { destruct (tg_errors tg) as [|e es] eqn:E; [reflexivity|]. exfalso.
        assert (X : L "Tracing Errors" = L "Requirements") by (apply H, outline_one; right; left; split; [reflexivity|discriminate]).
        discriminate X. }
      split; [exact HA|]. split; [exact HE|]. split.
      + intros rel Hr. destruct (uncovered_reqs g rel) as [|r rs] eqn:E; [reflexivity|]. exfalso.
        assert (X : L "Uncovered Requirements" = L "Requirements").
        { apply H, outline_one. right. right. left. split; [reflexivity|]. exists rel, r. split; [exact Hr|]. rewrite E. left. reflexivity. }
        discriminate X.
      + intros k a Hk. destruct (derived_reqs g k a) as [|r rs] eqn:E; [reflexivity|]. exfalso.
        assert (X : L "Derived Requirements" = L "Requirements").
        { apply H, outline_one. do 3 right. left. split; [reflexivity|]. exists k, a, r. split; [exact Hk|]. rewrite E. left. reflexivity. }
        discriminate X.
    - intros (E1 & E2 & HU & HD) t. rewrite outline_one. split.
      + intros [[_ X]|[[_ X]|[[_ (rel & r & Hr & X)]|[[_ (k & a & r & Hk & X)]|X]]]]; [congruence|congruence| | |exact X].
        * rewrite (HU rel Hr) in X. destruct X.
        * rewrite (HD k a Hk) in X. destruct X.
      + intros ->. do 4 right. reflexivity.
  Qed.
End Clean.

(** ** JSON *)
Definition is_empty {A} (l : list A) : bool := match l with [] => true | _ => false end.
Lemma is_empty_spec {A} (l : list A) : is_empty l = true <-> l = [].
Proof. destruct l; split; intros; try reflexivity; discriminate. Qed.
Lemma empty_jlist {A} (f : A -> json) l : empty (jlist f l) = Some (is_empty l).
Proof. destruct l; reflexivity. Qed.
Lemma all_of {A B} (f : A -> option B) (h : A -> B) l : (forall a, In a l -> f a = Some (h a)) -> all f l = Some (map h l).
Proof.
  induction l as [|a l IH]; intros H; [reflexivity|]. cbn [all map]. rewrite (H a) by (left; reflexivity). cbn [bind].
  rewrite IH by (intros; apply H; right; assumption). reflexivity.
Qed.
Lemma all_mapped {A B C} (f : B -> option C) (h : A -> B) (k : A -> C) l :
  (forall a, f (h a) = Some (k a)) -> all f (map h l) = Some (map k l).
Proof. intros H. induction l as [|a l IH]; [reflexivity|]. cbn [map all]. rewrite H. cbn [bind]. rewrite IH. reflexivity. Qed.

Lemma trace_value tg : trace_value_silent (json_trace tg) = Some
  (is_empty (tg_errors tg) && forallb (fun e => is_empty (art_errors (snd e))) (tg_artefacts tg) &&
   forallb (fun t => is_empty (tr_uncovered t)) (tg_relations tg) && forallb (fun e => is_empty (snd e)) (tg_derived tg)).
Proof.
  unfold trace_value_silent, json_trace.
  change (member "trace" ?f (JObj [(L "version", JNum VERSION); (L "trace", ?t)])) with (f t). cbv beta.
  unfold json_traced_graph.
  match goal with |- context [JObj ?l] => set (o := JObj l) end.
  change (member "errors" empty o) with (empty (jlist json_error (tg_errors tg))).
  change (member "artefacts" (entries (member "errors" empty)) o) with (entries (member "errors" empty) (jmap json_artefact (tg_artefacts tg))).
  change (member "traced_relations" (JsonSpec.elements (member "uncovered" empty)) o)
    with (JsonSpec.elements (member "uncovered" empty) (jlist json_traced_relation (tg_relations tg))).
  change (member "derived" (entries empty) o) with (entries empty (jmap (jlist JStr) (tg_derived tg))).
  rewrite empty_jlist. cbn [bind]. unfold entries, JsonSpec.elements, jmap, jlist.
  rewrite (all_mapped _ _ (fun e => (fst e, is_empty (art_errors (snd e))))).
  2:{ intros [k a]. cbn [fst snd]. unfold json_artefact.
      match goal with |- context [member "errors" empty ?x] => change (member "errors" empty x) with (empty (jlist json_error (art_errors a))) end.
      rewrite empty_jlist. reflexivity. }
  cbn [bind]. rewrite (all_mapped _ _ (fun t => is_empty (tr_uncovered t))).
  2:{ intros t. match goal with |- member "uncovered" empty ?x = _ => change (member "uncovered" empty x) with (empty (jlist JStr (tr_uncovered t))) end.
      apply empty_jlist. }
  cbn [bind]. rewrite (all_mapped _ _ (fun e : artefact_id * list requirement_id => (fst e, is_empty (snd e)))).
  2:{ intros [k a]. cbn [fst snd]. change (JArr (map JStr a)) with (jlist JStr a). rewrite empty_jlist. reflexivity. }
  cbn [bind]. f_equal.
  assert (HF : forall A B (h : A -> B) (p : B -> bool) l, forallb p (map h l) = forallb (fun a => p (h a)) l).
  { intros A B h p l. induction l as [|a l IH]; [reflexivity|]. cbn [map forallb]. rewrite IH. reflexivity. }
  rewrite !HF. reflexivity.
Qed.

Lemma trace_value_spec tg b : trace_value_silent (json_trace tg) = Some b -> (b = true <-> nothing tg).
Proof.
  rewrite trace_value. intros E. injection E as <-. rewrite !andb_true_iff, is_empty_spec, !forallb_forall. unfold nothing, ovalues.
  assert (H : forall V (m : list (str * V)) (P : V -> Prop) (p : V -> bool), (forall v, p v = true <-> P v) ->
              ((forall x, In x m -> p (snd x) = true) <-> forall v, In v (map snd m) -> P v)).
  { intros V m P p Hp. split.
    - intros H v Hv. apply in_map_iff in Hv. destruct Hv as (x & <- & Hx). apply Hp, H, Hx.
    - intros H x Hx. apply Hp, H. apply in_map. exact Hx. }
  rewrite (H artefact (tg_artefacts tg) (fun a => art_errors a = []) (fun a => is_empty (art_errors a))) by (intros; apply is_empty_spec).
  rewrite (H (list requirement_id) (tg_derived tg) (fun d => d = []) (fun d => is_empty d)) by (intros; apply is_empty_spec).
  assert (H2 : (forall x, In x (tg_relations tg) -> is_empty (tr_uncovered x) = true) <-> forall t, In t (tg_relations tg) -> tr_uncovered t = []).
  { split; intros HH x Hx; apply is_empty_spec; apply HH; exact Hx. }
  rewrite H2. tauto.
Qed.

(** ** Jobs *)
Section Jobs.
  Context {U : UnicodeTables} {I : Inputs} {O : Outputs} {D : Debug} {US : UnstableSort} {CT : CaseTables}.

  Lemma run_wrote {J : JsonText} c j h h' s : run c j h = (h', ROkay s) ->
    exists text, wrote h h' text /\ job_text c j = Done text /\ (s = Success <-> clean c (job_query j)).
  Proof.
    intros H. destruct (run_cases c j h h' _ H) as (ev & -> & _ & HE).
    remember (ROkay s) as r0 eqn:E0. destruct HE as [ev e HO|ev k HO HT|ev k t n m HO HT|ev k t s' HO HT HS]; try discriminate.
    injection E0 as ->. exists t. split; [exists ev, k; reflexivity|]. auto.
  Qed.

  Lemma wrote_unique h h' t1 t2 : wrote h h' t1 -> wrote h h' t2 -> t1 = t2.
  Proof.
    intros (e1 & k1 & ->) (e2 & k2 & E). rewrite !app_assoc in E. apply app_inj_tail in E. destruct E as [_ E]. congruence.
  Qed.

  Theorem gnu_agrees {J : JsonText} c j h h' s text :
    well_made c -> debug_one_line -> readable (ctl_graph c) ->
    job_query j = QTrace -> job_format j = GnuError -> run c j h = (h', ROkay s) -> wrote h h' text ->
    (s = Success <-> gnu_silent text).
  Proof.
    intros (WF & TR & HL) DL RG HQ HF HR HW. destruct (run_wrote c j h h' s HR) as (t & HW' & HT & ->).
    rewrite (wrote_unique _ _ _ _ HW HW'). clear HW HW' text. unfold job_text in HT. rewrite HQ, HF in HT. rewrite HQ.
    cbn [fmt_tracing] in HT. rewrite (gnu_exact _ WF _ TR) in HT. injection HT as <-.
    pose proof (report_reads DL _ WF _ TR RG) as H. change (clean c QTrace) with (nothing (ctl_traced c)).
    rewrite <- (entries_silent _ WF _ TR). split.
    - intros HN. eexists. split; [exact H|exact HN].
    - intros (es & He & HN). rewrite (reads_unique _ _ _ H He). exact HN.
  Qed.

  Theorem page_agrees {J : JsonText} c j h h' s text :
    well_made c -> unique_ids (ctl_graph c) -> plain_texts (ctl_graph c) ->
    job_query j = QTrace -> job_format j = Markdown -> run c j h = (h', ROkay s) -> wrote h h' text ->
    (s = Success <-> trace_page_silent text).
  Proof.
    intros (WF & TR & HL) UN PT HQ HF HR HW. destruct (run_wrote c j h h' s HR) as (t & HW' & HT & ->).
    rewrite (wrote_unique _ _ _ _ HW HW'). clear HW HW' text. unfold job_text in HT. rewrite HQ, HF in HT. rewrite HQ.
    destruct (md_possible _ _ WF TR HL) as (ag & E1 & E2). cbn [fmt_tracing] in HT. rewrite E1 in HT. cbn in HT. rewrite E2 in HT.
    injection HT as <-. change (clean c QTrace) with (nothing (ctl_traced c)). apply (iff_trans (iff_sym (outline_silent _ WF _ TR))).
    pose proof (shows_outline _ _ (report_shows _ WF _ TR PT UN ag E1)) as HO.
    unfold trace_page_silent. rewrite HO. reflexivity.
  Qed.

  Theorem json_agrees c j h h' s text :
    job_query j = QTrace -> job_format j = Json -> run (J := serde_json) c j h = (h', ROkay s) -> wrote h h' text ->
    exists b, json_answer trace_value_silent text b /\ (s = Success <-> b = true).
  Proof.
    intros HQ HF HR HW. destruct (run_wrote c j h h' s HR) as (t & HW' & HT & HS).
    rewrite (wrote_unique _ _ _ _ HW HW'). clear HW HW' text. unfold job_text in HT. rewrite HQ, HF in HT. rewrite HQ in HS.
    injection HT as <-. pose proof (trace_value (ctl_traced c)) as HV. eexists. split.
    - exact (reads_written _ _ _ (plain_trace _) HV).
    - apply (iff_trans HS). symmetry. exact (trace_value_spec _ _ HV).
  Qed.

  Lemma parse_clean c : clean c QParse <-> all_errors (ctl_graph c) = [].
  Proof.
    unfold clean, all_errors, ovalues. split.
    - intros H. induction (g_artefacts (ctl_graph c)) as [|[k a] m IH]; [reflexivity|]. cbn [flat_map snd].
      rewrite (H a) by (left; reflexivity). apply IH. intros b Hb. apply H. right. exact Hb.
    - intros H a Ha. apply in_map_iff in Ha. destruct Ha as ([k b] & <- & Hb). cbn [snd].
      destruct (art_errors b) as [|e es] eqn:E; [reflexivity|].
      assert (X : In e (flat_map (fun e => art_errors (snd e)) (g_artefacts (ctl_graph c)))).
      { apply in_flat_map. exists (k, b). split; [exact Hb|]. cbn [snd]. rewrite E. left. reflexivity. }
      rewrite H in X. destruct X.
  Qed.

  Theorem export_page_agrees {J : JsonText} c j h h' s text :
    well_made c -> plain_texts (ctl_graph c) ->
    job_query j = QParse -> job_format j = Markdown -> run c j h = (h', ROkay s) -> wrote h h' text ->
    (s = Success <-> export_page_silent text).
  Proof.
    intros (WF & TR & HL) PT HQ HF HR HW. destruct (run_wrote c j h h' s HR) as (t & HW' & HT & ->).
    rewrite (wrote_unique _ _ _ _ HW HW'). clear HW HW' text. unfold job_text in HT. rewrite HQ, HF in HT. rewrite HQ.
    injection HT as <-. rewrite parse_clean. set (g := ctl_graph c) in *.
    assert (HO : outline (md_requirements g) = export_outline g (sort_by req_id (all_reqs g))).
    { apply shows_outline. rewrite md_requirements_spec.
      apply export_shows; [exact WF|exact PT|]. intros r Hr. apply sort_by_In in Hr. exact Hr. }
    unfold export_page_silent. rewrite HO. unfold export_outline.
    assert (HG : group "Input Errors" fst (filter (fun e => negb (is_nil (art_errors (snd e)))) (g_artefacts g)) = [] <-> all_errors g = []).
    { clear HL. unfold all_errors. induction (g_artefacts g) as [|[k a] m IH]; [split; reflexivity|]. cbn [filter snd flat_map].
      destruct (art_errors a) as [|e es]; cbn [is_nil negb app]; [exact IH|]. split; discriminate. }
    split.
    - intros E t X. rewrite (proj2 HG E) in X. cbn [app] in X. apply in_map_iff in X. destruct X as (r & X & _). discriminate X.
    - intros H. apply HG. unfold group in *. destruct (filter _ (g_artefacts g)) as [|e es]; [reflexivity|].
      elim (H (L "Input Errors")). left. reflexivity.
  Qed.

  Theorem export_json_agrees c j h h' s text :
    job_query j = QParse -> job_format j = Json -> run (J := serde_json) c j h = (h', ROkay s) -> wrote h h' text ->
    exists b, json_answer export_value_silent text b /\ (s = Success <-> b = true).
  Proof.
    intros HQ HF HR HW. destruct (run_wrote c j h h' s HR) as (t & HW' & HT & HS).
    rewrite (wrote_unique _ _ _ _ HW HW'). clear HW HW' text. unfold job_text in HT. rewrite HQ, HF in HT. rewrite HQ in HS.
    injection HT as <-. rewrite parse_clean in HS.
    set (errs := flat_map art_errors (ovalues (g_artefacts (ctl_graph c)))).
    set (reqs := flat_map (fun a => ovalues (art_requirements a)) (ovalues (g_artefacts (ctl_graph c)))).
    assert (HV : export_value_silent (json_requirements reqs errs) = Some (is_empty (sort_errors errs))) by exact (empty_jlist _ _).
    eexists. split; [exact (reads_written _ _ _ (plain_parse _ _) HV)|]. apply (iff_trans HS). rewrite is_empty_spec.
    assert (HE : errs = all_errors (ctl_graph c)).
    { unfold errs, all_errors, ovalues. rewrite !flat_map_concat_map, map_map. reflexivity. }
    rewrite HE. pose proof (sort_errors_perm (all_errors (ctl_graph c))) as P. split; intros E.
    - rewrite E in *. apply Permutation_nil. exact P.
    - rewrite E in P. apply Permutation_sym, Permutation_nil in P. exact P.
  Qed.
End Jobs.
