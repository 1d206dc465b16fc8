(** Consequences of the controller facts. *)
From Verif Require Import Base OMap Models Unicode Utf8 Paths MdParser MdSpec MdCor MdCor2 MonoParser RustParser RustSpec
  RustFacts RustCor Tracer
  TraceSpec TraceFacts TraceCor Aggregator Show Sort Serialize Tags MdFmt Formatters
  Controller FmtSpec CtlSpec CtlFacts JobFacts JobCor.
Open Scope N_scope.

(** ** Repeated ids *)
Lemma first_with_none id l : first_with id l = None <-> ~ In id (map req_id l).
Proof.
  unfold first_with. split.
  - intros H HI. apply in_map_iff in HI. destruct HI as (r & E & HI).
    pose proof (find_none _ _ H r HI) as X. cbn in X. apply eqb_false in X. exact (X E).
  - intros H. destruct (find _ l) as [r|] eqn:E; [|reflexivity]. apply find_some in E. destruct E as [E1 E2].
    apply eqb_true in E2. elim H. apply in_map_iff. eauto.
Qed.
Lemma first_with_some id l r : first_with id l = Some r -> In r l /\ req_id r = id.
Proof. intros H. apply find_some in H. destruct H as [H1 H2]. split; [exact H1|apply eqb_true; exact H2]. Qed.
Lemma first_with_app id l1 l2 :
  first_with id (l1 ++ l2) = match first_with id l1 with Some x => Some x | None => first_with id l2 end.
Proof. apply find_app. Qed.

Lemma repeats_in l1 r l2 old : forall before,
  first_with (req_id r) (before ++ l1) = Some old ->
  In (EDuplicateRequirement old r) (repeats before (l1 ++ r :: l2)).
Proof.
  induction l1 as [|x l1 IH]; intros before H; cbn [app repeats]; apply in_or_app.
  - left. rewrite app_nil_r in H. rewrite H. left. reflexivity.
  - right. apply IH. rewrite <- app_assoc. exact H.
Qed.

(** What the reports say, one by one. *)
Lemma in_repeats e l : forall before,
  In e (repeats before l) <->
  exists l1 r l2 old, l = l1 ++ r :: l2 /\ first_with (req_id r) (before ++ l1) = Some old /\
    e = EDuplicateRequirement old r.
Proof.
  induction l as [|x l IH]; intros before; cbn [repeats].
  - split; [intros []|]. intros (l1 & r & l2 & old & E & _). destruct l1; discriminate.
  - rewrite in_app_iff, IH. split.
    + intros [H|(l1 & r & l2 & old & -> & H & ->)].
      * destruct (first_with (req_id x) before) as [old|] eqn:E; [|destruct H]. destruct H as [<-|[]].
        exists [], x, l, old. rewrite app_nil_r. auto.
      * exists (x :: l1), r, l2, old. rewrite <- app_assoc in H. auto.
    + intros (l1 & r & l2 & old & E & H & ->). destruct l1 as [|y l1]; cbn [app] in E; inversion E; subst.
      * left. rewrite app_nil_r in H. rewrite H. left. reflexivity.
      * right. exists l1, r, l2, old. rewrite <- app_assoc. auto.
Qed.

Lemma store_count reqs : forall before m es,
  (forall id, oget id m = first_with id before) ->
  (length (fst (fold_left store reqs (m, es))) + length (repeats before reqs) = length m + length reqs)%nat.
Proof.
  induction reqs as [|r reqs IH]; intros before m es HG; cbn [fold_left repeats length]; [cbn; lia|].
  assert (E : store (m, es) r = match first_with (req_id r) before with
                                | Some old => (m, es ++ [EDuplicateRequirement old r])
                                | None => (oins (req_id r) r m, es)
                                end).
  { unfold store. cbn [fst snd]. rewrite HG. reflexivity. }
  rewrite E. rewrite app_length. destruct (first_with (req_id r) before) as [old|] eqn:F.
  - cbn [length]. specialize (IH (before ++ [r]) m (es ++ [EDuplicateRequirement old r])). 
    match type of IH with ?P -> _ => assert (HP : P) end; [|specialize (IH HP); lia].
    intros id. rewrite first_with_app, HG. destruct (first_with id before) eqn:F2; [reflexivity|].
    unfold first_with. cbn [find]. destruct (eqb_spec (req_id r) id) as [<-|]; [congruence|reflexivity].
  - cbn [length]. specialize (IH (before ++ [r]) (oins (req_id r) r m) es).
    assert (HL : length (oins (req_id r) r m) = S (length m)).
    { assert (X : oget (req_id r) m = None) by (rewrite HG; exact F). clear -X.
      induction m as [|[k v] m IHm]; cbn [oins oget] in *; [reflexivity|].
      destruct (eqb_spec (req_id r) k) as [|Hne]; [discriminate|].
      destruct (cmp (req_id r) k) eqn:EC; cbn [length].
      - apply cmp_eq in EC. contradiction.
      - reflexivity.
      - rewrite (IHm X). reflexivity. }
    rewrite HL in IH. match type of IH with ?P -> _ => assert (HP : P) end; [|specialize (IH HP); lia].
    intros id. rewrite first_with_app. unfold first_with at 2. cbn [find].
    destruct (eqb_spec (req_id r) id) as [<-|Hne].
    + rewrite oget_oins_same, F. reflexivity.
    + rewrite oget_oins_other by congruence. rewrite HG. destruct (first_with id before); reflexivity.
Qed.

Section CtlCor.
  Context {U : UnicodeTables} {D : Debug} {US : UnstableSort} {CT : CaseTables} {J : JsonText}
    {I : Inputs} {O : Outputs}.

  Lemma nothing_lost ac base files m errs :
    parse_from_config ac base = Done (files, m, errs) ->
    exists reqs es dups,
      sources base ac files reqs es /\ errs = es ++ dups /\
      (forall l1 r l2, reqs = l1 ++ r :: l2 ->
         (~ In (req_id r) (map req_id l1) /\ oget (req_id r) m = Some r) \/
         (exists old, In old l1 /\ req_id old = req_id r /\ oget (req_id r) m = Some old /\
            In (EDuplicateRequirement old r) dups)) /\
      (forall id r, oget id m = Some r -> req_id r = id /\ In r reqs) /\
      (forall e, In e dups -> exists old r, e = EDuplicateRequirement old r /\ In r reqs /\ oget (req_id r) m = Some old) /\
      (length m + length dups = length reqs)%nat.
  Proof.
    unfold parse_from_config. pose proof (parse_files_spec ac base) as HP.
    destruct (parse_files ac base) as [[[fs reqs] es]|]; cbn [obind]; [|discriminate].
    destruct (fold_store reqs [] [] es) as (m' & E & S & G); [constructor|reflexivity|].
    pose proof (store_count reqs [] [] es (fun _ => eq_refl)) as HC.
    cbv zeta. intros H. inversion H; subst. clear H.
    setoid_rewrite E in HC. setoid_rewrite E. cbn [fst snd app length] in *.
    exists reqs, es, (repeats [] reqs). split; [exact HP|]. split; [reflexivity|].
    split; [|split; [|split; [|exact HC]]].
    - intros l1 r l2 HE. destruct (first_with (req_id r) l1) as [old|] eqn:F.
      + right. destruct (first_with_some _ _ _ F) as [H1 H2]. exists old. split; [exact H1|]. split; [exact H2|].
        split; [rewrite G, HE, first_with_app, F; reflexivity|]. rewrite HE. apply repeats_in. exact F.
      + left. split; [apply first_with_none; exact F|]. rewrite G, HE, first_with_app, F.
        unfold first_with. cbn [find]. rewrite eqb_refl. reflexivity.
    - intros id r H. rewrite G in H. apply first_with_some in H. tauto.
    - intros e He. apply in_repeats in He. destruct He as (l1 & r & l2 & old & HE & F & ->). cbn [app] in F.
      exists old, r. split; [reflexivity|]. split; [rewrite HE; apply in_elt|].
      rewrite G, HE, first_with_app, F. reflexivity.
  Qed.

  (** ** The graph of a controller *)
  Lemma controller_artefact cf base c id :
    controller_new cf base = Done c ->
    match last_config cf id with
    | Some ac => exists a, oget id (g_artefacts (ctl_graph c)) = Some a /\ built cf base ac a
    | None => oget id (g_artefacts (ctl_graph c)) = None
    end.
  Proof.
    intros H. pose proof (controller_new_spec cf base) as HS. rewrite H in HS.
    destruct HS as (_ & (_ & _ & HG) & _). apply HG.
  Qed.

  Lemma controller_has cf base c id a :
    controller_new cf base = Done c -> oget id (g_artefacts (ctl_graph c)) = Some a ->
    exists ac, last_config cf id = Some ac /\ built cf base ac a.
  Proof.
    intros H Ha. pose proof (controller_artefact cf base c id H) as HC.
    destruct (last_config cf id) as [ac|]; [|congruence].
    destruct HC as (a' & E & HB). assert (a' = a) by congruence. subst. eauto.
  Qed.

  Lemma ignore_default cf base c id a ac :
    controller_new cf base = Done c -> oget id (g_artefacts (ctl_graph c)) = Some a -> last_config cf id = Some ac ->
    match ac_ignore_derived ac with
    | Some b => art_ignore_derived a = b
    | None => art_ignore_derived a = true <-> ~ exists rel, In rel (cf_relations cf) /\ In id (rel_lower rel)
    end /\
    art_reference_with_title a = match ac_reference_with_title ac with Some b => b | None => false end.
  Proof.
    intros H Ha Hc. destruct (controller_has cf base c id a H Ha) as (ac' & E & HB).
    assert (ac' = ac) by congruence. subst ac'. destruct HB as (reqs & errs & _ & _ & HI & HT & _).
    destruct (last_config_in cf id ac Hc) as [_ Hid]. rewrite Hid in HI. split; [exact HI|exact HT].
  Qed.

  Lemma titles_reported cf base c id a :
    controller_new cf base = Done c -> oget id (g_artefacts (ctl_graph c)) = Some a ->
    exists ac reqs errs,
      last_config cf id = Some ac /\ sources base ac (art_files a) reqs errs /\
      art_errors a = errs ++ repeats [] reqs ++
        (if art_reference_with_title a
         then map ERequirementWithoutTitle (filter (fun r => match req_title r with None => true | Some _ => false end)
                                              (ovalues (art_requirements a)))
         else []).
  Proof.
    intros H Ha. destruct (controller_has cf base c id a H Ha) as (ac & E & HB).
    destruct HB as (reqs & errs & HS & _ & _ & _ & _ & _ & HE). exists ac, reqs, errs. auto.
  Qed.

  (** The errors that reading produces. *)
  Definition reading_error (e : error) : Prop :=
    match e with EFormat _ _ | EDuplicateAttribute _ _ _ | EIo _ _ | EConfig _ => True | _ => False end.

  Lemma file_errors ps p x e : file_result ps p x -> In e (snd x) -> reading_error e.
  Proof.
    intros H He. destruct H as [ps p m HO|p r [reqs errs] HO HP|p r [reqs errs] HO HP|p r [reqs errs] HO HP|p r v reqs HO HJ HU|p r HO HN];
      cbn [snd] in He.
    - destruct He as [<-|[]]. exact Logic.I.
    - destruct (md_locations p r reqs errs HP) as [_ HE].
      destruct (HE e He) as [(n & _ & [(m & ->)|(a & id & ->)])|(m & _ & ->)]; exact Logic.I.
    - unfold mono_parse in HP. destruct (mono_loop p 0 None [] (read_lines r)) as [[t d]|]; cbn [obind] in HP; [|discriminate].
      destruct (file_stem p); inversion HP; subst; [destruct He|]. destruct He as [<-|[]]. exact Logic.I.
    - destruct (read_to_string r) as [source|m] eqn:ER.
      2:{ unfold rust_parse in HP. rewrite ER in HP. inversion HP; subst. destruct He as [<-|[]]. exact Logic.I. }
      destruct (in_syn source) as [file|[a msg]] eqn:ES.
      2:{ unfold rust_parse in HP. rewrite ER, ES in HP. inversion HP; subst. destruct He as [<-|[]]. exact Logic.I. }
      destruct (rust_exact in_debug_tokens p in_syn r source file reqs errs ER ES HP) as (gs & _ & _ & HS).
      clear -HS He. induction HS; cbn [In] in He; try tauto.
      destruct He as [<-|He]; [|auto].
      match goal with A : malformed _ _ _ _ _ |- _ => destruct A; exact Logic.I end.
    - destruct He.
    - destruct He as [<-|[]]. exact Logic.I.
  Qed.

  Lemma sources_errors base ac f r es e : sources base ac f r es -> In e es -> reading_error e.
  Proof.
    intros H He. destruct H as [p x H1 H2 H3|H1 H2|H1 H2|e0 H1 H2|files xs H1 H2 H3 H4].
    - eapply file_errors; eassumption.
    - destruct He as [<-|[]]. exact Logic.I.
    - destruct He as [<-|[]]. exact Logic.I.
    - destruct He as [<-|[]]. clear -H2. induction H2; [exact Logic.I|exact Logic.I|assumption].
    - apply in_flat_map in He. destruct He as (x & Hx & He). clear -H4 Hx He.
      induction H4 as [|p y ps ys H _ IH]; [destruct Hx|]. destruct Hx as [->|Hx]; [eapply file_errors; eassumption|auto].
  Qed.

  Lemma repeats_errors l e : forall b, In e (repeats b l) -> exists x y, e = EDuplicateRequirement x y.
  Proof. intros b H. apply in_repeats in H. destruct H as (_ & r & _ & old & _ & _ & ->). eauto. Qed.

  (** Exactly the requirements without title are reported, exactly where titles are mandatory. *)
  Lemma untitled_exact cf base c id a :
    controller_new cf base = Done c -> oget id (g_artefacts (ctl_graph c)) = Some a ->
    forall r, In (ERequirementWithoutTitle r) (art_errors a) <->
      art_reference_with_title a = true /\ In r (ovalues (art_requirements a)) /\ req_title r = None.
  Proof.
    intros H Ha r. destruct (titles_reported cf base c id a H Ha) as (ac & reqs & errs & _ & HS & HE).
    rewrite HE, !in_app_iff. split.
    - intros [X|[X|X]].
      + elim (sources_errors _ _ _ _ _ _ HS X).
      + apply repeats_errors in X. destruct X as (x & y & X). discriminate.
      + destruct (art_reference_with_title a); [|destruct X]. apply in_map_iff in X. destruct X as (r' & E & X).
        inversion E; subst. apply filter_In in X. destruct X as [X1 X2]. split; [reflexivity|]. split; [exact X1|].
        destruct (req_title r); [discriminate|reflexivity].
    - intros (E1 & E2 & E3). right. right. rewrite E1. apply in_map. apply filter_In. rewrite E3. auto.
  Qed.

  Lemma configured_once cf base c :
    controller_new cf base = Done c ->
    NoDup (okeys (g_artefacts (ctl_graph c))) /\
    (forall id, In id (okeys (g_artefacts (ctl_graph c))) <-> In id (map ac_id (cf_artefacts cf))) /\
    (forall id a, In (id, a) (g_artefacts (ctl_graph c)) -> art_id a = id).
  Proof.
    intros H. pose proof (controller_new_spec cf base) as HS. rewrite H in HS.
    destruct HS as (_ & HB & _). pose proof (graph_built_wf cf base _ HB) as WF. split; [|split].
    - apply osorted_nodup_keys. apply WF.
    - intros id. apply (graph_built_keys cf base _ id HB).
    - intros id a Hin. apply (proj2 WF id a Hin).
  Qed.

  (** ** Exit status *)
  Lemma exit_0 cf base jobs h :
    main_rc cf base jobs = (h, Exit 0) <->
    exists c ctl js ss, usable cf c /\ controller_new c base = Done ctl /\ chosen ctl jobs <> [] /\
      jobs_named ctl (chosen ctl jobs) js /\ all_run ctl js [] ss h /\
      forall j, In j js -> counts j -> clean ctl (job_query j).
  Proof.
    rewrite (exit_ok cf base jobs h Success). split.
    - intros (c & ctl & js & ss & H1 & H2 & H3 & H4 & H5 & H6). exists c, ctl, js, ss. repeat (split; [assumption|]).
      intros j Hj HC. destruct (in_combine_run ctl js [] ss h j H5 Hj) as (s & h1 & h2 & Hin & HR).
      apply (run_success ctl j h1 h2 s HR). destruct s; [reflexivity|]. exfalso.
      assert (X : Success = ErrorsDetected) by (apply H6; exists j; auto). discriminate.
    - intros (c & ctl & js & ss & H1 & H2 & H3 & H4 & H5 & H6). exists c, ctl, js, ss. repeat (split; [assumption|]).
      split; [discriminate|]. intros HD. apply (detected_iff ctl js [] ss h H5) in HD.
      destruct HD as (j & Hj & HC & HN). elim HN. apply H6; assumption.
  Qed.

  Lemma exit_1 cf base jobs h :
    main_rc cf base jobs = (h, Exit 1) <->
    exists c ctl js ss, usable cf c /\ controller_new c base = Done ctl /\ chosen ctl jobs <> [] /\
      jobs_named ctl (chosen ctl jobs) js /\ all_run ctl js [] ss h /\
      exists j, In j js /\ counts j /\ ~ clean ctl (job_query j).
  Proof.
    rewrite (exit_ok cf base jobs h ErrorsDetected). split.
    - intros (c & ctl & js & ss & H1 & H2 & H3 & H4 & H5 & H6). exists c, ctl, js, ss. repeat (split; [assumption|]).
      apply (detected_iff ctl js [] ss h H5). apply H6. reflexivity.
    - intros (c & ctl & js & ss & H1 & H2 & H3 & H4 & H5 & H6). exists c, ctl, js, ss. repeat (split; [assumption|]).
      split; [intros _|reflexivity]. apply (detected_iff ctl js [] ss h H5). exact H6.
  Qed.

  Lemma exit_0_sound cf base jobs h c ctl :
    main_rc cf base jobs = (h, Exit 0) ->
    usable cf c -> controller_new c base = Done ctl ->
    (exists n j, In n (chosen ctl jobs) /\ oget n (ctl_jobs ctl) = Some j /\ job_query j = QTrace /\ counts j) ->
    sound_project (ctl_graph ctl).
  Proof.
    intros HM HU HC (n & j & Hn & Hj & Hq & Hc). apply exit_0 in HM.
    destruct HM as (c' & ctl' & js & ss & HU' & HC' & _ & HJ & _ & HS).
    assert (c' = c) by (destruct HU, HU'; congruence). subst c'.
    assert (ctl' = ctl) by congruence. subst ctl'.
    apply (clean_trace ctl (controller_well_made c base ctl HC)). rewrite <- Hq. apply HS; [|exact Hc].
    clear -HJ Hn Hj. induction HJ as [|m i ns js Hm _ IH]; [destruct Hn|].
    destruct Hn as [->|Hn]; [left; congruence|right; auto].
  Qed.

  (** The process never exits in another way. *)
  Lemma exit_cases cf base jobs : exists h,
    main_rc cf base jobs = (h, Exit 0) \/ main_rc cf base jobs = (h, Exit 1) \/
    main_rc cf base jobs = (h, Exit 2) \/ main_rc cf base jobs = (h, Panicked).
  Proof.
    rewrite main_spec. destruct (get_config cf) as [c|]; [|eauto].
    destruct (controller_new c base) as [ctl|]; [|eauto].
    destruct (run_cli_jobs ctl jobs []) as [h [[]| |]]; exists h; cbn; auto.
  Qed.

  (** ** Panics of the process *)
  Lemma process_panics cf base jobs :
    (exists h, main_rc cf base jobs = (h, Panicked)) <->
    exists c, usable cf c /\
      (~ relations_known c \/
       (exists ac f, In ac (cf_artefacts c) /\ opened base ac f /\ file_panics (ac_parser ac) f) \/
       (exists ctl js pre j post ss h1 h2 k, controller_new c base = Done ctl /\
          jobs_named ctl (chosen ctl jobs) js /\ js = pre ++ j :: post /\ all_run ctl pre [] ss h1 /\
          open_output ctl j h1 = (h2, ROkay k) /\ ~ supported (job_query j) (job_format j))).
  Proof.
    split.
    - intros (h & H). apply exit_panic in H. destruct H as (c & HU & [[_ H]|H]).
      + exists c. split; [exact HU|]. apply controller_panics in H. destruct H as [H|H]; auto.
      + destruct H as (ctl & js & pre & j & post & ss & h1 & HC & HJ & E & HA & HR).
        apply (run_panics ctl j h1 h (controller_well_made c base ctl HC)) in HR. destruct HR as [HN (k & HO)].
        exists c. split; [exact HU|]. right. right. exists ctl, js, pre, j, post, ss, h1, h, k.
        repeat (split; [assumption|]). exact HN.
    - intros (c & HU & [H|[H|H]]).
      + exists []. apply exit_panic. exists c. split; [exact HU|]. left. split; [reflexivity|]. apply controller_panics. auto.
      + exists []. apply exit_panic. exists c. split; [exact HU|]. left. split; [reflexivity|]. apply controller_panics. auto.
      + destruct H as (ctl & js & pre & j & post & ss & h1 & h2 & k & HC & HJ & E & HA & HO & HN).
        exists h2. apply exit_panic. exists c. split; [exact HU|]. right. exists ctl, js, pre, j, post, ss, h1.
        repeat (split; [assumption|]). apply (run_panics ctl j h1 h2 (controller_well_made c base ctl HC)). eauto.
  Qed.

  (** ** What the process writes *)
  Lemma process_history cf base jobs h x :
    main_rc cf base jobs = (h, x) ->
    faithful [] h /\
    (h = [] \/ exists c ctl, usable cf c /\ controller_new c base = Done ctl /\
       Forall (fun e => exists n j, In n (chosen ctl jobs) /\ oget n (ctl_jobs ctl) = Some j /\ concerns ctl j e) h).
  Proof.
    rewrite main_spec. destruct (get_config cf) as [c|] eqn:EC.
    2:{ intros H. inversion H; subst. split; [constructor|auto]. }
    apply get_config_spec in EC. destruct (controller_new c base) as [ctl|] eqn:EN.
    2:{ intros H. inversion H; subst. split; [constructor|auto]. }
    rewrite run_cli_spec. destruct (is_nil (chosen ctl jobs)) eqn:EN0.
    { intros H. inversion H; subst. split; [constructor|auto]. }
    destruct (run_jobs_by_name ctl (chosen ctl jobs) []) as [h1 r] eqn:ER.
    intros H. assert (h1 = h) by congruence. subst h1.
    destruct (by_name_history ctl _ [] h r ER) as (ev & -> & F & HF). cbn [app]. split; [exact F|]. right. eauto.
  Qed.

  (** A job that returns has written its report, and nothing else. *)
  Lemma run_writes c j h h' s :
    well_made c -> run c j h = (h', ROkay s) ->
    exists ev k text, h' = h ++ ev ++ [EvWrite k text None] /\ opens c j ev (ROkay k) /\
      is_report c (job_query j) (job_format j) text.
  Proof.
    intros WM H. destruct (run_cases c j h h' _ H) as (ev & -> & _ & HE).
    remember (ROkay s) as r0 eqn:E0. destruct HE as [ev e HO|ev k HO HT|ev k t n m HO HT|ev k t s' HO HT HS]; try discriminate.
    exists ev, k, t. split; [reflexivity|]. split; [exact HO|]. exact (job_text_report c j t WM HT).
  Qed.

  (** Failures of a job are failures of the system, and are not hidden. *)
  Lemma run_io c j h h' r : run c j h = (h', r) ->
    exists evs, h' = h ++ evs /\
      (forall ev m, In ev evs -> event_failed ev = Some m -> exists p, r = RFail (CIo p m)) /\
      (forall e, r = RFail e -> exists ev p m, e = CIo p m /\ In ev evs /\ event_failed ev = Some m).
  Proof.
    assert (HO : forall h1 r1, open_output c j h = (h1, r1) -> exists evs, h1 = h ++ evs /\
      (forall ev m, In ev evs -> event_failed ev = Some m -> exists p, r1 = RFail (CIo p m)) /\
      (forall e, r1 = RFail e -> exists ev p m, e = CIo p m /\ In ev evs /\ event_failed ev = Some m)).
    { intros h1 r1. unfold open_output. destruct (eqb (job_file j) (L "-")).
      { intros H. inversion H; subst. exists []. rewrite app_nil_r. split; [reflexivity|]. split; [intros ev m []|discriminate]. }
      generalize (if is_absolute (job_file j) then job_file j else path_join (ctl_base c) (job_file j)). intros p.
      assert (HC : forall h0 pre, h0 = h ++ pre -> (forall ev, In ev pre -> event_failed ev = None) ->
        (h0 ++ [EvCreate p (out_create h0 p)],
         match out_create h0 p with Some m => RFail (CIo p m) | None => ROkay (ToFile p) end) = (h1, r1) ->
        exists evs, h1 = h ++ evs /\
        (forall ev m, In ev evs -> event_failed ev = Some m -> exists p, r1 = RFail (CIo p m)) /\
        (forall e, r1 = RFail e -> exists ev p m, e = CIo p m /\ In ev evs /\ event_failed ev = Some m)).
      { intros h0 pre E HP H. exists (pre ++ [EvCreate p (out_create h0 p)]). inversion H; subst h1 r1. clear H.
        split; [rewrite E at 1; rewrite app_assoc; reflexivity|]. split.
        - intros ev m Hin Hf. apply in_app_iff in Hin. destruct Hin as [Hin|[<-|[]]].
          + rewrite (HP _ Hin) in Hf. discriminate.
          + cbn in Hf. rewrite Hf. eauto.
        - intros e He. destruct (out_create h0 p) as [m|] eqn:EC; [|discriminate]. inversion He; subst e.
          exists (EvCreate p (Some m)), p, m. split; [reflexivity|]. split; [|reflexivity]. apply in_app_iff. right. left. reflexivity. }
      destruct (out_parent p) as [d|].
      - destruct (out_make_dirs h d) as [m|] eqn:EM.
        + intros H. inversion H; subst. exists [EvMakeDirs d (Some m)]. split; [reflexivity|]. split.
          * intros ev m' [<-|[]] Hf. cbn in Hf. inversion Hf; subst. eauto.
          * intros e He. inversion He; subst. exists (EvMakeDirs d (Some m)), d, m. cbn. auto.
        + apply (HC _ [EvMakeDirs d None]); [reflexivity|]. intros ev [<-|[]]. reflexivity.
      - apply (HC _ []); [symmetry; apply app_nil_r|]. intros ev []. }
    unfold run. destruct (open_output c j h) as [h1 r1] eqn:EO. destruct (HO _ _ eq_refl) as (evs & -> & H1 & H2). clear HO.
    destruct r1 as [s|e|].
    - destruct (job_text c j) as [text|].
      2:{ intros H. inversion H; subst. exists evs. split; [reflexivity|]. split; [|discriminate].
          intros ev m Hin Hf. destruct (H1 _ _ Hin Hf) as [p Hp]. discriminate. }
      destruct (out_write (h ++ evs) s text) as [[n m]|]; intros H; inversion H; subst; clear H.
      + exists (evs ++ [EvWrite s (firstn n text) (Some m)]). rewrite app_assoc. split; [reflexivity|]. split.
        * intros ev m' Hin Hf. apply in_app_iff in Hin. destruct Hin as [Hin|[<-|[]]].
          { destruct (H1 _ _ Hin Hf) as [p Hp]. discriminate. }
          { cbn in Hf. inversion Hf; subst. eauto. }
        * intros e He. inversion He; subst. exists (EvWrite s (firstn n text) (Some m)), (job_file j), m.
          split; [reflexivity|]. split; [|reflexivity]. apply in_app_iff. right. left. reflexivity.
      + exists (evs ++ [EvWrite s text None]). rewrite app_assoc. split; [reflexivity|]. split; [|discriminate].
        intros ev m' Hin Hf. apply in_app_iff in Hin. destruct Hin as [Hin|[<-|[]]].
        * destruct (H1 _ _ Hin Hf) as [p Hp]. discriminate.
        * discriminate.
    - intros H. inversion H; subst. exists evs. split; [reflexivity|]. split; [intros ev m Hin Hf|intros e0 He].
      + destruct (H1 _ _ Hin Hf) as [p Hp]. exists p. congruence.
      + apply H2. congruence.
    - intros H. inversion H; subst. exists evs. split; [reflexivity|]. split; [|discriminate].
      intros ev m Hin Hf. destruct (H1 _ _ Hin Hf) as [p Hp]. discriminate.
  Qed.
End CtlCor.
