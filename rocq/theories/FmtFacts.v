(** Facts about the report formatters. *)
From Coq Require Import Permutation Sorting.Sorted.
From Verif Require Import Base OMap Models Unicode Location Show Sort Tracer TraceSpec TraceIndex TraceFacts TraceCor
  Aggregator AggSpec AggFacts GnuErr Tags Serialize MdFmt Formatters FmtSpec.
Open Scope N_scope.

Lemma mapO_done {A B} (f : A -> outcome B) (h : A -> B) l :
  (forall a, In a l -> f a = Done (h a)) -> mapO f l = Done (map h l).
Proof.
  induction l as [|a l IH]; intros H; cbn [mapO map]; [reflexivity|].
  rewrite (H a (or_introl eq_refl)). cbn [obind]. rewrite IH; [reflexivity|].
  intros x Hx. apply H. right. exact Hx.
Qed.
Lemma mapO_map {A B C} (f : B -> outcome C) (h : A -> B) l : mapO f (map h l) = mapO (fun a => f (h a)) l.
Proof. induction l as [|a l IH]; cbn [mapO map]; [reflexivity|]. rewrite IH. reflexivity. Qed.
Lemma concat_map_flat {A} (f : A -> str) l : @List.concat chr (@map A str f l) = @flat_map A chr f l.
Proof. symmetry. apply flat_map_concat_map. Qed.

Section Traced.
  Variable g : graph.
  Hypothesis WF : graph_wf g.
  Variable tg : traced_graph.
  Hypothesis TR : trace g = Done tg.

  Lemma tg_arts : tg_artefacts tg = g_artefacts g.
  Proof. destruct (trace_done g WF tg TR) as (pc & pd & A1 & _). exact A1. Qed.
  Lemma tg_rels : tg_relations tg =
    map (fun rel => mkTracedRelation rel (map link_coverage (links g rel)) (map req_id (uncovered_reqs g rel)))
      (g_relations g).
  Proof. destruct (trace_done g WF tg TR) as (pc & pd & _ & A2 & _). exact A2. Qed.

  Lemma covers_along_spec k r :
    In r (first_defs g k) ->
    (existsb (covers_along g k r) (g_relations g) = true <-> covers_something g k r).
  Proof.
    intros Hr. rewrite existsb_exists. split.
    - intros (rel & Hrel & H). unfold covers_along in H. apply existsb_exists in H.
      destruct H as (l & Hl & H). apply andb_true_iff in H. destruct H as [H1 H2].
      apply eqb_true in H1. apply eqb_true in H2. apply in_links in Hl.
      exists rel, l. repeat split; try assumption; try apply Hl.
      destruct Hl as (_ & _ & Hlow & _).
      apply (first_defs_first_of g WF) in Hlow. apply (first_defs_first_of g WF) in Hr. congruence.
    - intros (rel & l & Hrel & Hl & E1 & E2). exists rel. split; [exact Hrel|].
      unfold covers_along. apply existsb_exists. exists l. split; [apply in_links; exact Hl|].
      subst. rewrite !eqb_refl. reflexivity.
  Qed.

  Lemma oget_map_snd {K V W} `{Ord K} (f : K -> V -> W) (m : omap K V) k :
    oget k (map (fun e => (fst e, f (fst e) (snd e))) m) = option_map (f k) (oget k m).
  Proof.
    induction m as [|[k0 v] m IH]; cbn [map oget fst snd]; [reflexivity|].
    destruct (eqb_spec k k0) as [->|]; [reflexivity|exact IH].
  Qed.

  Lemma tg_der : tg_derived tg =
    map (fun e => (fst e, map req_id (derived_reqs g (fst e) (snd e)))) (g_artefacts g).
  Proof.
    destruct (trace_done g WF tg TR) as (pc & pd & _ & _ & (HS & HK & HD) & _).
    apply osorted_ext.
    - exact HS.
    - unfold osorted, okeys. rewrite map_map. cbn [fst]. apply WF.
    - intros k. rewrite (oget_map_snd (fun k a => map req_id (derived_reqs g k a))).
      destruct (oget k (g_artefacts g)) as [a|] eqn:E; cbn [option_map].
      + destruct (HD k a E) as (d & -> & HSd & Hd). f_equal. apply ssorted_ext; [exact HSd| |].
        * unfold derived_reqs. destruct (art_ignore_derived a); [constructor|].
          apply map_filter_sorted. apply first_defs_sorted. exact WF.
        * intros id. rewrite Hd. unfold derived_reqs. destruct (art_ignore_derived a).
          { split; [intros [X _]; discriminate|intros []]. }
          rewrite in_map_iff. split.
          -- intros (_ & r & H1 & H2 & H3). exists r. split; [exact H2|]. apply filter_In. split; [exact H1|].
             destruct (existsb (covers_along g k r) (g_relations g)) eqn:X; [|reflexivity].
             apply (covers_along_spec k r H1) in X. contradiction.
          -- intros (r & H2 & H1). apply filter_In in H1. destruct H1 as [H1 H3]. split; [reflexivity|].
             exists r. split; [exact H1|]. split; [exact H2|]. intros C.
             apply (covers_along_spec k r H1) in C. rewrite C in H3. discriminate.
      + apply oget_None. rewrite HK. apply oget_None. exact E.
  Qed.

  Lemma reqs_of_index k r : In r (reqs_of g k) ->
    exists a, oget k (g_artefacts g) = Some a /\ oget (req_id r) (art_requirements a) = Some r.
  Proof.
    unfold reqs_of. destruct (oget k (g_artefacts g)) as [a|] eqn:E; [|intros []]. intros H. exists a.
    split; [reflexivity|]. apply ovalues_In in H. destruct H as [id H].
    apply oget_Some_In in E. destruct (proj2 WF _ _ E) as [_ [HS HI]].
    rewrite (HI _ _ H). apply In_oget; assumption.
  Qed.
  Lemma uncovered_reqs_in rel r : In r (uncovered_reqs g rel) -> In r (reqs_of g (rel_upper rel)).
  Proof. intros H. apply filter_In in H. apply H. Qed.
  Lemma derived_reqs_in k a r : In r (derived_reqs g k a) -> In r (reqs_of g k).
  Proof.
    unfold derived_reqs. destruct (art_ignore_derived a); [intros []|]. intros H. apply filter_In in H.
    destruct H as [H _]. apply filter_In in H. apply H.
  Qed.

  (** ** GNU errors *)
  Section Gnu.
    Context {D : Debug}.
    Lemma gnu_exact : gnu_tracing tg = Done (gnu_report g (tg_errors tg)).
    Proof.
      unfold gnu_tracing. rewrite tg_rels, tg_der, tg_arts, !mapO_map.
      rewrite (mapO_done _ (fun rel => L "## " ++ show_relation rel ++ [NL] ++
                              flat_map (finding "Uncovered") (uncovered_reqs g rel))).
      2:{ intros rel Hrel. unfold gnu_relation. cbn [tr_relation tr_uncovered]. rewrite mapO_map.
          rewrite (mapO_done _ (finding "Uncovered")).
          - cbn [obind]. rewrite concat_map_flat. reflexivity.
          - intros r Hr. unfold gnu_uncovered, index. rewrite tg_arts.
            destruct (reqs_of_index _ _ (uncovered_reqs_in rel r Hr)) as (a & -> & E).
            cbn [unwrap obind]. rewrite E. reflexivity. }
      cbn [obind].
      rewrite (mapO_done _ (fun e => L "## " ++ fst e ++ [NL] ++
                              flat_map (finding "Derived") (derived_reqs g (fst e) (snd e)))).
      2:{ intros [k a] He. unfold gnu_derived. cbn [fst snd]. unfold index at 1. rewrite tg_arts.
          rewrite (In_oget _ _ _ (proj1 WF) He). cbn [unwrap obind]. rewrite mapO_map.
          rewrite (mapO_done _ (finding "Derived")).
          - cbn [obind]. rewrite concat_map_flat. reflexivity.
          - intros r Hr. unfold gnu_derived_line, index.
            destruct (reqs_of_index _ _ (derived_reqs_in k a r Hr)) as (a' & E1 & E2).
            assert (a' = a) by (rewrite (In_oget _ _ _ (proj1 WF) He) in E1; congruence). subst a'.
            rewrite E2. reflexivity. }
      cbn [obind]. unfold gnu_report, gnu_errors, all_errors, ovalues. rewrite !concat_map_flat.
      rewrite !flat_map_concat_map, !map_map. reflexivity.
    Qed.
  End Gnu.
End Traced.

(** ** Markdown *)
Lemma firsts_In x l : In x (firsts l) <-> In x l.
Proof.
  revert x. induction l as [|y l IH]; intros x; cbn [firsts In]; [tauto|].
  rewrite filter_In, IH. destruct (eqb_spec x y) as [->|Hne]; [tauto|]. cbn. intuition.
Qed.
Lemma firsts_NoDup l : NoDup (firsts l).
Proof.
  induction l as [|y l IH]; cbn [firsts]; constructor.
  - rewrite filter_In. intros [_ H]. rewrite eqb_refl in H. discriminate.
  - apply NoDup_filter. exact IH.
Qed.
Lemma filter_true {A} (l : list A) : filter (fun _ => true) l = l.
Proof. induction l as [|x l IH]; cbn [filter]; [reflexivity|]. rewrite IH. reflexivity. Qed.
Lemma filter_filter {A} (p q : A -> bool) l : filter p (filter q l) = filter (fun x => q x && p x) l.
Proof.
  induction l as [|x l IH]; cbn [filter]; [reflexivity|].
  destruct (q x); cbn [filter andb]; [destruct (p x); rewrite IH; reflexivity|exact IH].
Qed.

(** [firsts] keeps an element exactly if it has not occurred before. *)
Lemma firsts_app l1 l2 : firsts (l1 ++ l2) = firsts l1 ++ filter (fun y => negb (existsb (eqb y) l1)) (firsts l2).
Proof.
  induction l1 as [|x l1 IH]; cbn [app firsts].
  - cbn [existsb negb]. symmetry. apply filter_true.
  - rewrite IH, filter_app, filter_filter. cbn [app]. f_equal. f_equal. apply filter_ext.
    intros y. cbn [existsb]. rewrite negb_orb. apply andb_comm.
Qed.

Lemma sections_cons {A} title name (entries : A -> list str) a l :
  sections title name entries (a :: l) =
  match entries a with
  | [] => sections title name entries l
  | es => md_headline title ++ (md_subheading (name a) ++ concat es) ++
          flat_map (fun a => md_subheading (name a) ++ concat (entries a))
            (filter (fun a => negb (is_nil (entries a))) l)
  end.
Proof.
  unfold sections. cbn [filter]. destruct (entries a) as [|e es] eqn:E; cbn [is_nil negb]; [reflexivity|].
  cbn [flat_map]. rewrite E. reflexivity.
Qed.

Section MdFacts.
  Context {CT : CaseTables}.

  Lemma md_distinct_spec es : forall seen,
    md_distinct seen es = concat (filter (fun y => negb (existsb (eqb y) seen)) (firsts (map md_error es))).
  Proof.
    induction es as [|e es IH]; intros seen; cbn [md_distinct map firsts filter]; [reflexivity|].
    destruct (existsb (eqb (md_error e)) seen) eqn:E; cbn [negb].
    - rewrite IH, filter_filter. f_equal. apply filter_ext. intros y.
      destruct (existsb (eqb y) seen) eqn:Ey; cbn [negb]; [rewrite andb_false_r; reflexivity|].
      destruct (eqb_spec y (md_error e)) as [->|]; [congruence|reflexivity].
    - cbn [concat]. f_equal. rewrite IH, filter_filter. f_equal. apply filter_ext. intros y.
      cbn [existsb]. rewrite negb_orb. reflexivity.
  Qed.

  Lemma md_tracing_errors_spec es : md_tracing_errors es =
    if is_nil es then [] else md_headline "Tracing Errors" ++ concat (firsts (map md_error es)).
  Proof.
    unfold md_tracing_errors. destruct (is_nil es); [reflexivity|]. f_equal. rewrite md_distinct_spec.
    cbn [existsb negb]. rewrite filter_true. reflexivity.
  Qed.

  Lemma md_input_errors_spec arts : forall headline,
    md_input_errors headline arts =
    if headline
    then flat_map (fun a => md_subheading (art_id a) ++ concat (map md_error (art_errors a)))
           (filter (fun a => negb (is_nil (map md_error (art_errors a)))) arts)
    else sections "Input Errors" art_id (fun a => map md_error (art_errors a)) arts.
  Proof.
    induction arts as [|a arts IH]; intros headline; cbn [md_input_errors].
    - destruct headline; reflexivity.
    - rewrite sections_cons. cbn [filter].
      destruct (art_errors a) as [|e es] eqn:E; cbn [is_nil map negb flat_map app].
      + rewrite IH. reflexivity.
      + rewrite E. cbn [map]. rewrite IH. cbn [concat]. rewrite concat_map_flat.
        destruct headline; rewrite <- ?app_assoc; reflexivity.
  Qed.

  Lemma md_sections_spec ag title (item : requirement_id -> str) l : forall headline,
    (forall name ids id, In (name, ids) l -> In id ids -> md_item ag id = Done (item id)) ->
    md_sections ag title headline l =
    Done (if headline
          then flat_map (fun e => md_subheading (fst e) ++ concat (map item (snd e)))
                 (filter (fun e => negb (is_nil (map item (snd e)))) l)
          else sections title fst (fun e => map item (snd e)) l).
  Proof.
    induction l as [|[name ids] l IH]; intros headline H; cbn [md_sections].
    - destruct headline; reflexivity.
    - rewrite sections_cons. cbn [filter snd fst].
      assert (HI : forall headline, md_sections ag title headline l = Done (
          if headline
          then flat_map (fun e => md_subheading (fst e) ++ concat (map item (snd e)))
                 (filter (fun e => negb (is_nil (map item (snd e)))) l)
          else sections title fst (fun e => map item (snd e)) l)).
      { intros hl. apply IH. intros n i x Hin. apply (H n i x). right. exact Hin. }
      destruct ids as [|i ids]; cbn [is_nil map negb]; [apply HI|].
      rewrite (mapO_done _ item) by (intros x Hx; eapply H; [left; reflexivity|exact Hx]).
      cbn [obind]. rewrite HI. cbn [obind flat_map fst snd]. destruct headline; cbn [app]; rewrite <- ?app_assoc; reflexivity.
  Qed.

  Lemma sections_map {A B} title (h : A -> B) name (entries : B -> list str) l :
    sections title name entries (map h l) = sections title (fun a => name (h a)) (fun a => entries (h a)) l.
  Proof.
    unfold sections.
    assert (E : filter (fun a => negb (is_nil (entries a))) (map h l) =
                map h (filter (fun a => negb (is_nil (entries (h a)))) l)).
    { induction l as [|a l IH]; cbn [map filter]; [reflexivity|].
      destruct (negb (is_nil (entries (h a)))); cbn [map]; rewrite IH; reflexivity. }
    rewrite E. destruct (filter (fun a => negb (is_nil (entries (h a)))) l) as [|a l']; [reflexivity|].
    cbn [map]. f_equal. rewrite !flat_map_concat_map, <- (map_cons h), map_map. reflexivity.
  Qed.
  Lemma sections_ext {A} title name name' (entries entries' : A -> list str) l :
    (forall a, In a l -> name a = name' a /\ entries a = entries' a) ->
    sections title name entries l = sections title name' entries' l.
  Proof.
    intros H. unfold sections.
    assert (E : filter (fun a => negb (is_nil (entries a))) l = filter (fun a => negb (is_nil (entries' a))) l).
    { apply filter_ext_in. intros a Ha. rewrite (proj2 (H a Ha)). reflexivity. }
    rewrite E.
    assert (F : forall l', (forall a, In a l' -> In a l) ->
       flat_map (fun a => md_subheading (name a) ++ concat (entries a)) l' =
       flat_map (fun a => md_subheading (name' a) ++ concat (entries' a)) l').
    { induction l' as [|a l' IH]; intros Hs; cbn [flat_map]; [reflexivity|].
      destruct (H a (Hs a (or_introl eq_refl))) as [-> ->]. f_equal. apply IH. intros x Hx. apply Hs. right. exact Hx. }
    assert (Hs : forall a, In a (filter (fun a => negb (is_nil (entries' a))) l) -> In a l).
    { intros a Ha. apply filter_In in Ha. apply Ha. }
    destruct (filter (fun a => negb (is_nil (entries' a))) l) as [|a0 l0]; [reflexivity|].
    f_equal. apply F. exact Hs.
  Qed.

  Section Traced.
    Variable g : graph.
    Hypothesis WF : graph_wf g.
    Variable tg : traced_graph.
    Hypothesis TR : trace g = Done tg.
    Variable ag : aggregated_graph.
    Hypothesis AG : aggregate tg = Done ag.

    Lemma last_def_of k r : In r (reqs_of g k) -> exists a r', last_def tg (req_id r) = Some (a, r').
    Proof.
      intros H. destruct (reqs_of_index g WF k r H) as (a & E1 & E2).
      apply (known_def tg k). unfold ids_of. rewrite (tg_arts g WF tg TR), E1. eapply oget_Some_key. exact E2.
    Qed.

    Lemma ag_get k r : In r (reqs_of g k) ->
      exists t, oget (req_id r) (ag_requirements ag) = Some t /\ rt_requirement t = shown tg r.
    Proof.
      intros H. destruct (last_def_of k r H) as (a & r' & E).
      pose proof (proj1 (agg_total_iff g tg WF TR) (ex_intro _ ag AG)) as HL.
      destruct (aggregate_spec tg (trace_agg_ok g tg WF TR)
                  (proj2 (trace_lowers_known g tg WF TR) HL)) as (ag' & E' & _ & _ & _ & _ & Hd).
      assert (ag' = ag) by congruence. subst ag'.
      destruct (Hd _ _ _ E) as (t & H1 & _ & H2 & _). exists t. split; [exact H1|].
      unfold shown. rewrite E. exact H2.
    Qed.

    Lemma ag_traced_eq : ag_traced ag = tg.
    Proof.
      pose proof (proj1 (agg_total_iff g tg WF TR) (ex_intro _ ag AG)) as HL.
      destruct (aggregate_spec tg (trace_agg_ok g tg WF TR)
                  (proj2 (trace_lowers_known g tg WF TR) HL)) as (ag' & E' & E & _). congruence.
    Qed.

    (** The item of an id. *)
    Definition item_of (id : requirement_id) : str :=
      match oget id (ag_requirements ag) with
      | Some t => L "*   " ++ requirement_link (rt_requirement t) ++ [NL]
      | None => []
      end.
    Lemma item_of_eq k r : In r (reqs_of g k) ->
      md_item ag (req_id r) = Done (item_of (req_id r)) /\ item_of (req_id r) = item tg r.
    Proof.
      intros H. destruct (ag_get k r H) as (t & E & Er). unfold md_item, item_of, item, index. rewrite E.
      cbn [unwrap obind]. rewrite Er. split; reflexivity.
    Qed.

    Theorem md_exact : md_tracing ag = Done (md_report g tg ag).
    Proof.
      unfold md_tracing. rewrite ag_traced_eq, (tg_rels g WF tg TR), (tg_der g WF tg TR), (tg_arts g WF tg TR), !map_map.
      cbn [tr_uncovered]. unfold show_traced_relation. cbn [tr_relation].
      rewrite (md_sections_spec ag _ item_of).
      2:{ intros name ids id Hin Hid. apply in_map_iff in Hin. destruct Hin as (rel & E & _). inversion E; subst.
          apply in_map_iff in Hid. destruct Hid as (r & <- & Hr).
          apply (item_of_eq _ r (uncovered_reqs_in g rel r Hr)). }
      cbn [obind]. rewrite (md_sections_spec ag _ item_of).
      2:{ intros name ids id Hin Hid. apply in_map_iff in Hin. destruct Hin as (e & E & _). inversion E; subst.
          apply in_map_iff in Hid. destruct Hid as (r & <- & Hr).
          apply (item_of_eq _ r (derived_reqs_in g _ _ r Hr)). }
      cbn [obind]. rewrite (mapO_done _ (fun a => L "## " ++ art_id a ++ [NL] ++
                flat_map (fun r => match oget (req_id r) (ag_requirements ag) with
                                   | Some t => md_traced_requirement t
                                   | None => []
                                   end) (ovalues (art_requirements a)))).
      2:{ intros a Ha. unfold md_artefact. apply ovalues_In in Ha. destruct Ha as [k Ha].
          destruct (proj2 WF _ _ Ha) as [HA [HS HI]].
          assert (EK : okeys (art_requirements a) = map req_id (ovalues (art_requirements a))).
          { unfold okeys, ovalues. rewrite map_map. apply map_ext_in. intros [i r] Hin. cbn.
            symmetry. apply HI. exact Hin. }
          rewrite EK, mapO_map.
          rewrite (mapO_done _ (fun r => match oget (req_id r) (ag_requirements ag) with
                                   | Some t => md_traced_requirement t
                                   | None => []
                                   end)).
          - cbn [obind]. rewrite concat_map_flat. reflexivity.
          - intros r Hr. destruct (ag_get k r) as (t & E & _).
            { unfold reqs_of. rewrite (In_oget _ _ _ (proj1 WF) Ha). exact Hr. }
            unfold index. rewrite E. reflexivity. }
      cbn [obind]. f_equal. unfold md_report. rewrite md_input_errors_spec, md_tracing_errors_spec.
      rewrite !sections_map. cbn [fst snd]. rewrite concat_map_flat. f_equal. f_equal. f_equal; [|f_equal].
      - apply sections_ext. intros rel _. split; [reflexivity|]. rewrite map_map. apply map_ext_in. intros r Hr.
        apply (item_of_eq _ r (uncovered_reqs_in g rel r Hr)).
      - apply sections_ext. intros e _. split; [reflexivity|]. rewrite map_map. apply map_ext_in. intros r Hr.
        apply (item_of_eq _ r (derived_reqs_in g _ _ r Hr)).
    Qed.
  End Traced.

  Lemma unique_shown g tg k r :
    graph_wf g -> trace g = Done tg -> unique_ids g -> In r (reqs_of g k) -> shown tg r = r.
  Proof.
    intros WF TR HU Hr. destruct (last_def_of g WF tg TR k r Hr) as (a & r' & E).
    unfold shown. rewrite E. pose proof (agg_first_definition g tg _ a r' WF TR HU E) as F.
    pose proof (reqs_of_first g WF k r HU Hr) as F'. congruence.
  Qed.

  (** ** The Parse export *)
  Lemma md_requirements_spec g : md_requirements g = md_export g (sort_by req_id (all_reqs g)).
  Proof.
    unfold md_requirements, md_export. rewrite md_input_errors_spec. f_equal. f_equal. f_equal.
    unfold all_reqs, ovalues. rewrite !flat_map_concat_map, map_map. reflexivity.
  Qed.

  (** ** Anchors *)
  Definition anchor_char (c : chr) : Prop :=
    (97 <= c <= 122) \/ (48 <= c <= 57) \/ c = 95 \/ c = 45.

  Lemma to_lowercase_not_upper s : forall b x, In x (to_lowercase_from b s) -> is_upper_ascii x = false.
  Proof.
    induction s as [|c s IH]; intros b x H; cbn [to_lowercase_from] in H; [destruct H|].
    rewrite in_app_iff in H. destruct H as [H|H]; [|eapply IH; exact H].
    destruct (is_upper_ascii c) eqn:E.
    - destruct H as [<-|[]]. unfold is_upper_ascii in *. apply andb_true_iff in E. destruct E as [E1 E2].
      apply N.leb_le in E1. apply N.leb_le in E2. apply andb_false_iff. right. apply N.leb_gt. lia.
    - destruct (c <? 128); [destruct H as [<-|[]]; exact E|]. eapply lower_other_not_upper. exact H.
  Qed.

  Lemma slug_clean s c : In c (slug s) -> anchor_char c.
  Proof.
    unfold slug. intros H. apply filter_In in H. destruct H as [H HS]. apply in_map_iff in H.
    destruct H as (x & E & H). apply to_lowercase_not_upper in H. unfold anchor_char.
    destruct (x =? 32) eqn:Ex; [subst c; right; right; right; reflexivity|]. subst x.
    unfold slug_char in HS. rewrite H in HS. cbn [orb] in HS. rewrite !orb_true_iff in HS.
    unfold is_lower_ascii, is_digit_ascii in HS. rewrite !andb_true_iff, !N.leb_le, !N.eqb_eq in HS. tauto.
  Qed.
End MdFacts.
