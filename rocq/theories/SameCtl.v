(** Projects that say the same have the same findings. *)
From Coq Require Import Permutation.
From Verif Require Import Base OMap Models Unicode Utf8 Paths MdParser Show Sort Tracer TraceSpec TraceFacts TraceCor Serialize Formatters Controller CtlSpec
  FmtSpec FmtCor CtlFacts CtlCor JobFacts RoundSpec RoundCor SameSpec Same SameCtlSpec.

Lemma same_reference_refl x : same_reference x x.
Proof. split; reflexivity. Qed.
Lemma Forall2_refl {A} (R : A -> A -> Prop) : (forall a, R a a) -> forall l, Forall2 R l l.
Proof. intros H l. induction l; constructor; auto. Qed.
Lemma same_requirement_refl r : same_requirement r r.
Proof. repeat split; apply Forall2_refl; exact same_reference_refl. Qed.
Lemma same_requirements_refl m : same_requirements m m.
Proof. apply Forall2_refl. intros e. split; [reflexivity|apply same_requirement_refl]. Qed.

(** Maps with related entries. *)
Lemma maps_related {V} (R : V -> V -> Prop) (m n : omap str V) : osorted m -> osorted n ->
  (forall k, match oget k m, oget k n with Some a, Some b => R a b | None, None => True | _, _ => False end) ->
  Forall2 (fun e e' => fst e = fst e' /\ R (snd e) (snd e')) m n.
Proof.
  intros Sm Sn H.
  assert (K : okeys m = okeys n).
  { apply ssorted_ext; [exact Sm|exact Sn|]. intros k. specialize (H k). split; intros X.
    - apply oget_key_Some in X. destruct X as [v X]. rewrite X in H. destruct (oget k n) eqn:E; [|destruct H].
      eapply oget_Some_key. exact E.
    - apply oget_key_Some in X. destruct X as [v X]. rewrite X in H. destruct (oget k m) eqn:E; [|destruct H].
      eapply oget_Some_key. exact E. }
  assert (HR : forall k a b, In (k, a) m -> In (k, b) n -> R a b).
  { intros k a b Ha Hb. apply (In_oget _ _ _ Sm) in Ha. apply (In_oget _ _ _ Sn) in Hb. specialize (H k). rewrite Ha, Hb in H. exact H. }
  clear H Sm Sn. revert n K HR. induction m as [|[k a] m IH]; intros [|[k' b] n] K HR; try discriminate; constructor.
  - cbn [fst snd]. cbn in K. injection K as -> _. split; [reflexivity|]. apply (HR k'); left; reflexivity.
  - apply IH; [cbn in K; injection K as _ K; exact K|]. intros x y z Hy Hz. apply (HR x); right; assumption.
Qed.

Section SameCtl.
  Context {U : UnicodeTables} {D : Debug} {I : Inputs}.

  Definition related (m n : omap artefact_id artefact) : Prop :=
    Forall2 (fun e e' => fst e = fst e' /\ same_artefact (snd e) (snd e') /\ (art_errors (snd e) = [] <-> art_errors (snd e') = [])) m n.

  Lemma related_oins k a b : same_artefact a b -> (art_errors a = [] <-> art_errors b = []) ->
    forall m n, related m n -> related (oins k a m) (oins k b n).
  Proof.
    intros H1 H2 m n F. induction F as [|[k1 x] [k2 y] m n (E & H3 & H4) F IH]; cbn [oins].
    - constructor; [|constructor]. cbn [fst snd]. auto.
    - cbn [fst snd] in *. subst k2. destruct (cmp k k1).
      + constructor; [cbn [fst snd]; auto|exact F].
      + constructor; [cbn [fst snd]; auto|]. constructor; [cbn [fst snd]; auto|exact F].
      + constructor; [cbn [fst snd]; auto|exact IH].
  Qed.

  Lemma untitled_same m n : same_requirements m n -> (untitled (ovalues m) = [] <-> untitled (ovalues n) = []).
  Proof.
    intros F. unfold untitled, ovalues. induction F as [|[k r] [k' s] m n [_ H] F IH]; [reflexivity|].
    cbn [map filter snd fst] in *. destruct H as (_ & -> & _). destruct (req_title s); [exact IH|]. split; discriminate.
  Qed.

  Lemma add_same roots base arts arts' ac ac' : related arts arts' -> same_source base ac ac' ->
    match add_artefact roots base arts ac, add_artefact roots base arts' ac' with
    | Done x, Done y => related x y
    | Panic, Panic => True
    | _, _ => False
    end.
  Proof.
    intros HR (H1 & H2 & H3 & H4). unfold add_artefact. rewrite <- H1, <- H2, <- H3.
    destruct (oget (ac_id ac) roots) as [root|]; cbn [unwrap obind]; [|exact Logic.I].
    assert (HP : match parse_from_config ac base, parse_from_config ac' base with
                 | Done (_, m, es), Done (_, m', es') => same_requirements m m' /\ (es = [] <-> es' = [])
                 | Panic, Panic => True
                 | _, _ => False
                 end).
    { destruct H4 as [<-|(fs & reqs & es & fs' & reqs' & es' & S1 & S2 & HS & HE)].
      - destruct (parse_from_config ac base) as [[[fs m] es]|]; [|exact Logic.I]. split; [apply same_requirements_refl|reflexivity].
      - pose proof (parse_from_config_spec ac base) as P. pose proof (parse_from_config_spec ac' base) as P'.
        destruct (parse_from_config ac base) as [[[gs m] e1]|];
          [|destruct P as (f & O & F); elim (sources_not_panics _ _ _ _ _ _ S1 O F)].
        destruct (parse_from_config ac' base) as [[[gs' m'] e1']|];
          [|destruct P' as (f & O & F); elim (sources_not_panics _ _ _ _ _ _ S2 O F)].
        destruct P as (r1 & x1 & Q1 & Q2 & Q3 & ->). destruct P' as (r2 & x2 & Q1' & Q2' & Q3' & ->).
        destruct (sources_unique _ _ _ _ _ _ _ _ S1 Q1) as (_ & <- & <-). destruct (sources_unique _ _ _ _ _ _ _ _ S2 Q1') as (_ & <- & <-).
        split; [|exact HE]. apply maps_related; [exact Q2|exact Q2'|]. intros k. rewrite Q3, Q3'. apply HS. }
    destruct (parse_from_config ac base) as [[[gs m] e1]|], (parse_from_config ac' base) as [[[gs' m'] e1']|];
      try contradiction HP; cbn [obind]; [|exact Logic.I]. destruct HP as [H H0].
    pose proof (untitled_same _ _ H) as HU. unfold untitled in HU.
    apply related_oins; [| |exact HR].
    - split; [cbn; congruence|]. split; [cbn; congruence|]. split; [cbn; congruence|]. exact H.
    - cbn [art_errors]. destruct (opt_default (ac_reference_with_title ac) false); [|exact H0].
      destruct (filter _ (ovalues m)), (filter _ (ovalues m')); cbn [map]; rewrite ?app_nil_r; [exact H0| | |].
      + destruct HU as [HU _]. discriminate (HU eq_refl).
      + destruct HU as [_ HU]. discriminate (HU eq_refl).
      + split; intros X; apply app_eq_nil in X; destruct X; discriminate.
  Qed.

  Lemma adds_same roots base acs acs' : Forall2 (same_source base) acs acs' -> forall arts arts', related arts arts' ->
    match for_each acs (add_artefact roots base) arts, for_each acs' (add_artefact roots base) arts' with
    | Done x, Done y => related x y
    | Panic, Panic => True
    | _, _ => False
    end.
  Proof.
    induction 1 as [|ac ac' acs acs' H _ IH]; intros arts arts' HR; cbn [for_each]; [exact HR|].
    pose proof (add_same roots base arts arts' ac ac' HR H) as HA.
    destruct (add_artefact roots base arts ac), (add_artefact roots base arts' ac'); try contradiction HA; cbn [obind]; [|exact Logic.I].
    apply IH. exact HA.
  Qed.

  Lemma arts_wf cf base roots arts :
    for_each (cf_relations cf) roots_relation (roots_init (cf_artefacts cf)) = Done roots ->
    for_each (cf_artefacts cf) (add_artefact roots base) [] = Done arts -> graph_wf (mkGraph arts (cf_relations cf)).
  Proof.
    intros E1 E2.
    pose proof (roots_relations_ok (map ac_id (cf_artefacts cf)) (cf_relations cf) _ _ (roots_init_ok (cf_artefacts cf))) as HR.
    rewrite E1 in HR. destruct HR as [HK HR].
    assert (HR' : roots_for cf roots) by (eapply roots_ok_ext; [|exact HR]; intros id; cbn; tauto).
    pose proof (add_artefacts_spec cf roots base (cf_artefacts cf) HR' [] [] (fun x H => H)) as HA. rewrite E2 in HA.
    assert (HA0 : arts_ok cf base [] []) by (split; [constructor|reflexivity]). destruct (HA HA0) as [[HS HG] _].
    apply (graph_built_wf cf base). split; [reflexivity|]. split; [exact HS|exact HG].
  Qed.

  Lemma related_facts m n rels : related m n -> same_facts (mkGraph m rels) (mkGraph n rels).
  Proof.
    intros F. split; [reflexivity|]. cbn [g_artefacts]. unfold same_artefacts.
    induction F as [|e e' m n (H1 & H2 & _) F IH]; constructor; [split; assumption|exact IH].
  Qed.
  Lemma related_clean m n : related m n ->
    ((forall a, In a (ovalues m) -> art_errors a = []) <-> (forall a, In a (ovalues n) -> art_errors a = [])).
  Proof.
    intros F. unfold ovalues. rewrite <- !Forall_forall, !Forall_map.
    induction F as [|e e' m n (_ & _ & H) F IH]; [split; constructor|]. rewrite !Forall_cons_iff. tauto.
  Qed.

  Theorem same_controller cf cf' base : same_project base cf cf' ->
    match controller_new cf base, controller_new cf' base with
    | Done c, Done c' => same_findings (ctl_traced c) (ctl_traced c') /\ forall q, clean c q <-> clean c' q
    | Panic, Panic => True
    | _, _ => False
    end.
  Proof.
    intros [HL HF]. unfold controller_new.
    assert (HI : roots_init (cf_artefacts cf') = roots_init (cf_artefacts cf)).
    { unfold roots_init. f_equal. clear -HF. induction HF as [|a b l m H F IH]; [reflexivity|]. cbn [map].
      destruct H as (H & _). rewrite IH, H. reflexivity. }
    pose proof (arts_wf cf base) as W. pose proof (arts_wf cf' base) as W'. rewrite HI in *. rewrite <- HL in *.
    destruct (for_each (cf_relations cf) roots_relation (roots_init (cf_artefacts cf))) as [roots|]; cbn [obind]; [|exact Logic.I].
    pose proof (adds_same roots base _ _ HF [] [] (Forall2_nil _)) as HA.
    specialize (W roots). specialize (W' roots).
    destruct (for_each (cf_artefacts cf) (add_artefact roots base) []) as [m|],
             (for_each (cf_artefacts cf') (add_artefact roots base) []) as [n|]; try contradiction HA; cbn [obind]; [|exact Logic.I].
    specialize (W m eq_refl eq_refl). specialize (W' n eq_refl eq_refl).
    pose proof (same_trace _ _ W W' (related_facts m n (cf_relations cf) HA)) as HT.
    destruct (trace (mkGraph m (cf_relations cf))) as [s|] eqn:E1, (trace (mkGraph n (cf_relations cf))) as [t|] eqn:E2;
      try contradiction HT; cbn [obind]; [|exact Logic.I].
    split; [exact HT|].
    pose proof (related_clean m n HA) as HC.
    destruct (trace_done _ W _ E1) as (_ & _ & A1 & _). destruct (trace_done _ W' _ E2) as (_ & _ & A2 & _).
    intros [|]; cbn [clean ctl_graph ctl_traced g_artefacts]; [exact HC|]. rewrite A1, A2. cbn [g_artefacts]. rewrite HC.
    destruct HT as (T1 & T2 & T3).
    assert (X3 : tg_errors s = [] <-> tg_errors t = []).
    { destruct T3; [tauto|split; discriminate]. }
    assert (X1 : (forall x, In x (tg_relations s) -> tr_uncovered x = []) <-> (forall x, In x (tg_relations t) -> tr_uncovered x = [])).
    { rewrite <- !Forall_forall. clear -T1. induction T1 as [|x y l k H F IH]; [split; constructor|].
      rewrite !Forall_cons_iff, IH. destruct H as (_ & _ & ->). tauto. }
    rewrite T2, X3, X1. tauto.
  Qed.

  (** ** Artefacts stored in other forms *)
  Lemma first_with_perm l m : Permutation l m -> NoDup (map req_id l) -> forall id, first_with id l = first_with id m.
  Proof.
    intros P N id. destruct (first_with id l) as [r|] eqn:E.
    - apply first_with_some in E. destruct E as [H <-].
      assert (X : In r m) by exact (Permutation_in _ P H).
      destruct (first_with (req_id r) m) as [s|] eqn:F.
      + apply first_with_some in F. destruct F as [F1 F2]. apply (Permutation_in _ (Permutation_sym P)) in F1.
        f_equal. clear -N H F1 F2. induction l as [|x l IH]; [destruct H|]. cbn [map] in N. inversion N; subst.
        destruct H as [->|H], F1 as [->|F1]; [reflexivity| | |auto].
        * elim H2. rewrite <- F2. apply in_map. exact F1.
        * elim H2. rewrite F2. apply in_map. exact H.
      + apply first_with_none in F. elim F. apply in_map. exact X.
    - apply first_with_none in E. symmetry. apply first_with_none. intros X. apply E.
      apply (Permutation_in _ (Permutation_sym (Permutation_map req_id P))). exact X.
  Qed.

  Lemma first_with_same l m : Forall2 same_requirement l m -> same_definitions l m.
  Proof.
    intros F id. unfold first_with. induction F as [|r s l m H F IH]; cbn [find]; [exact Logic.I|].
    destruct H as (H & H'). rewrite <- H. destruct (eqb (req_id r) id); [|exact IH]. split; [exact H|exact H'].
  Qed.

  Lemma repeats_none l : NoDup (map req_id l) -> forall before,
    (forall r, In r l -> ~ In (req_id r) (map req_id before)) -> repeats before l = [].
  Proof.
    induction l as [|r l IH]; intros N before H; [reflexivity|]. cbn [repeats]. cbn [map] in N. inversion N; subst.
    replace (first_with (req_id r) before) with (@None requirement)
      by (symmetry; apply first_with_none; apply H; left; reflexivity).
    apply IH; [assumption|]. intros x Hx. rewrite map_app, in_app_iff. intros [X|[X|[]]].
    - exact (H x (or_intror Hx) X).
    - apply H2. cbn in X. rewrite X. apply in_map. exact Hx.
  Qed.
  Lemma repeats_nil_nodup l : forall before, repeats before l = [] -> NoDup (map req_id l) /\ forall r, In r l -> ~ In (req_id r) (map req_id before).
  Proof.
    induction l as [|r l IH]; intros before H; [split; [constructor|intros r []]|]. cbn [repeats] in H.
    apply app_eq_nil in H. destruct H as [H1 H2]. destruct (first_with (req_id r) before) eqn:E; [discriminate|].
    apply first_with_none in E. destruct (IH _ H2) as [N K]. split.
    - cbn [map]. constructor; [|exact N]. intros X. apply in_map_iff in X. destruct X as (x & X1 & X2). apply (K x X2).
      rewrite map_app, in_app_iff. right. left. symmetry. exact X1.
    - intros x [<-|Hx]; [exact E|]. intros X. apply (K x Hx). rewrite map_app, in_app_iff. left. exact X.
  Qed.

  (** What is read from an artefact without errors. *)
  Lemma alone_read ac base c0 : controller_new (alone ac) base = Done c0 -> clean c0 QParse ->
    exists files reqs, sources base ac files reqs [] /\ repeats [] reqs = [] /\
      (forall id, first_with id (all_reqs (ctl_graph c0)) = first_with id reqs) /\ NoDup (map req_id (all_reqs (ctl_graph c0))).
  Proof.
    intros E HC. pose proof (controller_new_spec (alone ac) base) as H. rewrite E in H. destruct H as (_ & HB & _).
    pose proof (graph_built_wf _ _ _ HB) as WF. destruct HB as (_ & HS & HG).
    assert (HA : exists a, g_artefacts (ctl_graph c0) = [(ac_id ac, a)] /\ built (alone ac) base ac a).
    { pose proof (HG (ac_id ac)) as H. unfold last_config in H. cbn [cf_artefacts alone rev app find] in H. rewrite eqb_refl in H.
      destruct H as (a & H1 & H2). exists a. split; [|exact H2].
      assert (K : okeys (g_artefacts (ctl_graph c0)) = [ac_id ac]).
      { apply ssorted_ext; [exact HS|repeat constructor|]. intros k. split.
        - intros X. apply oget_key_Some in X. destruct X as [v X]. specialize (HG k). unfold last_config in HG.
          cbn [cf_artefacts alone rev app find] in HG. destruct (eqb_spec (ac_id ac) k); [left; assumption|congruence].
        - intros [<-|[]]. eapply oget_Some_key. exact H1. }
      destruct (g_artefacts (ctl_graph c0)) as [|[k x] [|y l]]; try discriminate. cbn in K. injection K as ->.
      cbn [oget] in H1. rewrite eqb_refl in H1. congruence. }
    destruct HA as (a & HA & (reqs & errs & H1 & _ & _ & _ & H5 & H6 & H7)).
    assert (HE : art_errors a = []). { apply HC. unfold ovalues. rewrite HA. left. reflexivity. }
    rewrite HE in H7. symmetry in H7. apply app_eq_nil in H7. destruct H7 as [-> H7]. apply app_eq_nil in H7. destruct H7 as [H7 _].
    exists (art_files a), reqs. split; [exact H1|]. split; [exact H7|].
    assert (HR : all_reqs (ctl_graph c0) = ovalues (art_requirements a)) by (unfold all_reqs; rewrite HA; cbn; apply app_nil_r).
    assert (HK : map req_id (ovalues (art_requirements a)) = okeys (art_requirements a)).
    { destruct WF as [_ WF]. destruct (WF (ac_id ac) a) as [_ [_ W]]; [rewrite HA; left; reflexivity|].
      unfold ovalues, okeys. rewrite map_map. apply map_ext_in. intros [k r] Hin. exact (W k r Hin). }
    assert (HN : NoDup (map req_id (ovalues (art_requirements a)))) by (rewrite HK; apply ssorted_nodup; exact H5).
    rewrite HR. split; [|exact HN]. intros id. rewrite <- H6.
    destruct (oget id (art_requirements a)) as [r|] eqn:F.
    - pose proof (eq_trans (eq_sym (H6 id)) F) as F'. apply first_with_id in F'. subst id.
      apply oget_Some_In in F. assert (X : In r (ovalues (art_requirements a))) by (unfold ovalues; apply (in_map snd) in F; exact F).
      destruct (first_with (req_id r) (ovalues (art_requirements a))) as [s|] eqn:G.
      + apply first_with_some in G. destruct G as [G1 G2]. f_equal. clear -HN X G1 G2. revert HN X G1.
        generalize (ovalues (art_requirements a)). induction l as [|x l IH]; intros N H F1; [destruct H|]. cbn [map] in N. inversion N; subst.
        destruct H as [->|H], F1 as [->|F1]; [reflexivity| | |auto].
        * elim H2. rewrite <- G2. apply in_map. exact F1.
        * elim H2. rewrite G2. apply in_map. exact H.
      + apply first_with_none in G. elim G. apply in_map. exact X.
    - apply first_with_none. rewrite HK. intros X. apply oget_key_Some in X. destruct X as [v X]. congruence.
  Qed.

  Lemma replaced cf base pre ac post c c0 ps file reqs' :
    cf_artefacts cf = pre ++ ac :: post -> controller_new cf base = Done c ->
    controller_new (alone ac) base = Done c0 -> clean c0 QParse ->
    one_file ps -> file_result ps (path_join base file) (reqs', []) -> NoDup (map req_id reqs') ->
    (forall id, match first_with id (all_reqs (ctl_graph c0)), first_with id reqs' with
                | Some r, Some s => same_requirement r s | None, None => True | _, _ => False end) ->
    exists c', controller_new (with_artefacts cf (pre ++ moved ac ps file :: post)) base = Done c' /\
      same_findings (ctl_traced c) (ctl_traced c') /\ forall q, clean c q <-> clean c' q.
  Proof.
    intros EA EC E0 C0 OF FR N HS.
    destruct (alone_read ac base c0 E0 C0) as (files & reqs & S1 & S2 & S3 & _).
    assert (HP : same_project base cf (with_artefacts cf (pre ++ moved ac ps file :: post))).
    { split; [reflexivity|]. cbn [with_artefacts cf_artefacts]. rewrite EA. apply Forall2_app.
      - apply Forall2_refl. intros x. repeat split. left. reflexivity.
      - constructor; [|apply Forall2_refl; intros x; repeat split; left; reflexivity].
        split; [reflexivity|]. split; [reflexivity|]. split; [reflexivity|]. right.
        exists files, reqs, [], [path_join base file], reqs', []. split; [exact S1|].
        split; [exact (so_single base (moved ac ps file) file (reqs', []) OF eq_refl FR)|].
        split; [intros id; rewrite <- S3; apply HS|]. cbn [app]. rewrite S2, (repeats_none reqs' N []); [reflexivity|].
        intros r _ []. }
    pose proof (same_controller _ _ _ HP) as H. rewrite EC in H.
    destruct (controller_new (with_artefacts cf _) base) as [c'|]; [|destruct H]. exists c'. split; [reflexivity|exact H].
  Qed.

  Context {US : UnstableSort} {CT : MdFmt.CaseTables} {J : JsonText}.

  Lemma comes_back_same r s : comes_back r s -> same_requirement r s.
  Proof.
    intros []. split; [congruence|]. split; [congruence|].
    split; (apply (Forall2_map ref_sig); [|symmetry; assumption]); intros x y E; unfold ref_sig in E; injection E as E1 E2; split; assumption.
  Qed.

  Theorem markdown_form cf base pre ac post c c0 file text :
    cf_artefacts cf = pre ++ ac :: post -> controller_new cf base = Done c ->
    controller_new (alone ac) base = Done c0 -> clean c0 QParse -> Forall exportable (all_reqs (ctl_graph c0)) ->
    fmt_requirements (ctl_graph c0) Markdown = Done text -> forallb scalar text = true ->
    in_open (path_join base file) = inl (mkReader (encode text) None) ->
    exists c', controller_new (with_artefacts cf (pre ++ moved ac PMarkdown file :: post)) base = Done c' /\
      same_findings (ctl_traced c) (ctl_traced c') /\ forall q, clean c q <-> clean c' q.
  Proof.
    intros EA EC E0 C0 HX HF HS HO.
    destruct (alone_read ac base c0 E0 C0) as (files & reqs & _ & _ & _ & HN).
    destruct (report_round (path_join base file) (ctl_graph c0) C0 HX) as (text' & E1 & E2).
    assert (text' = text) by congruence. subst text'. destruct (E2 HS) as (rs & rs' & P1 & P2 & _ & P3).
    assert (HNrs : NoDup (map req_id rs)) by exact (Permutation_NoDup (Permutation_map req_id P2) HN).
    assert (P4 : Forall2 same_requirement rs rs').
    { clear -P3. induction P3 as [|r s l m H F IH]; constructor; [apply comes_back_same; exact H|exact IH]. }
    eapply (replaced cf base pre ac post c c0 PMarkdown file rs' EA EC E0 C0).
    - discriminate.
    - exact (fr_markdown _ _ _ HO P1).
    - replace (map req_id rs') with (map req_id rs); [exact HNrs|].
      clear -P4. induction P4 as [|r s l m H F IH]; [reflexivity|]. cbn [map]. destruct H as (-> & _). rewrite IH. reflexivity.
    - intros id. rewrite (first_with_perm _ _ P2 HN id). exact (first_with_same _ _ P4 id).
  Qed.

  Theorem json_form cf base pre ac post c c0 file r :
    cf_artefacts cf = pre ++ ac :: post -> controller_new cf base = Done c ->
    controller_new (alone ac) base = Done c0 -> clean c0 QParse -> Forall fits (all_reqs (ctl_graph c0)) ->
    in_open (path_join base file) = inl r -> in_json r = Some (JArr (map json_requirement (all_reqs (ctl_graph c0)))) ->
    exists c', controller_new (with_artefacts cf (pre ++ moved ac PJson file :: post)) base = Done c' /\
      same_findings (ctl_traced c) (ctl_traced c') /\ forall q, clean c q <-> clean c' q.
  Proof.
    intros EA EC E0 C0 HX HO HJ.
    destruct (alone_read ac base c0 E0 C0) as (files & reqs & _ & _ & _ & HN).
    eapply (replaced cf base pre ac post c c0 PJson file (all_reqs (ctl_graph c0)) EA EC E0 C0).
    - discriminate.
    - eapply fr_json; [exact HO|exact HJ|]. apply JsonValueFacts.unjson_requirements_exact, json_round. exact HX.
    - exact HN.
    - intros id. destruct (first_with id (all_reqs (ctl_graph c0))); [apply same_requirement_refl|exact Logic.I].
  Qed.
End SameCtl.
