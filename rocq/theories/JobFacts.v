(** Facts about running jobs and about the process. *)
From Coq Require Import Permutation.
From Verif Require Import Base OMap Models Unicode Utf8 Paths MdParser MonoParser RustParser Tracer
  TraceSpec TraceFacts TraceCor Aggregator AggFacts Show Sort Serialize GnuErr Tags MdFmt Formatters
  Controller FmtSpec FmtFacts CtlSpec CtlFacts.
Open Scope N_scope.

Section JobFacts.
  Context {U : UnicodeTables} {D : Debug} {US : UnstableSort} {CT : CaseTables} {J : JsonText}
    {I : Inputs} {O : Outputs}.

  (** ** Looking up *)
  Lemma find_jobs_spec c names :
    match find_jobs c names with
    | inl js => jobs_named c names js
    | inr e => exists n, first_unknown c names n /\ e = CUnknownJob n
    end.
  Proof.
    induction names as [|n names IH]; cbn [find_jobs]; [constructor|].
    destruct (oget n (ctl_jobs c)) as [j|] eqn:E.
    - destruct (find_jobs c names) as [js|e].
      + constructor; assumption.
      + destruct IH as (m & (pre & post & -> & H1 & H2) & ->). exists m. split; [|reflexivity].
        exists (n :: pre), post. split; [reflexivity|]. split; [|exact H2].
        intros x [<-|Hx]; [eauto|apply H1; exact Hx].
    - exists n. split; [|reflexivity]. exists [], names. split; [reflexivity|]. split; [intros ? []|exact E].
  Qed.

  Lemma jobs_named_find c names js : jobs_named c names js -> find_jobs c names = inl js.
  Proof.
    intros H. induction H as [|n j names js Hn _ IH]; cbn [find_jobs]; [reflexivity|].
    rewrite Hn, IH. reflexivity.
  Qed.
  Lemma first_unknown_find c names n : first_unknown c names n -> find_jobs c names = inr (CUnknownJob n).
  Proof.
    intros (pre & post & -> & H1 & H2). induction pre as [|m pre IH]; cbn [app find_jobs].
    - rewrite H2. reflexivity.
    - destruct (H1 m (or_introl eq_refl)) as [j ->]. rewrite IH; [reflexivity|].
      intros x Hx. apply H1. right. exact Hx.
  Qed.

  (** ** Running in order *)
  Lemma run_jobs_all c js : forall h ss h' s0,
    all_run c js h ss h' ->
    exists s, run_jobs c js s0 h = (h', ROkay s) /\ (s = ErrorsDetected <-> some_detected js ss \/ s0 = ErrorsDetected).
  Proof.
    induction js as [|j js IH]; intros h ss h' s0 H; inversion H; subst; cbn [run_jobs].
    - exists s0. split; [reflexivity|]. split; [auto|]. intros [(j & [] & _)|E]; exact E.
    - match goal with E : run c j h = _ |- _ => rewrite E end.
      match goal with A : all_run c js _ _ _ |- _ => rename A into HA end.
      assert (HD : forall ss0, some_detected (j :: js) (s :: ss0) <->
                               (s = ErrorsDetected /\ counts j) \/ some_detected js ss0).
      { intros ss1. unfold some_detected. cbn [combine In]. split.
        - intros (x & [E|E] & C); [left; inversion E; subst; auto|right; eauto].
        - intros [[E C]|(x & E & C)]; [exists j; subst; auto|exists x; auto]. }
      destruct s.
      + destruct (IH _ _ _ s0 HA) as (s & E & Hs). exists s. split; [exact E|]. rewrite Hs, HD.
        intuition discriminate.
      + destruct (IH _ _ _ (if opt_default (job_set_return_code j) true then ErrorsDetected else s0) HA) as (s & E & Hs).
        exists s. split; [exact E|]. rewrite Hs, HD. unfold counts.
        destruct (job_set_return_code j) as [[]|]; cbn [opt_default]; intuition (try discriminate; try congruence).
  Qed.

  Lemma run_jobs_stops c pre : forall h ss h1 j post h2 r s0,
    all_run c pre h ss h1 -> run c j h1 = (h2, r) -> failed r ->
    run_jobs c (pre ++ j :: post) s0 h = (h2, r).
  Proof.
    induction pre as [|i pre IH]; intros h ss h1 j post h2 r s0 H HR HF; inversion H; subst; cbn [app run_jobs].
    - rewrite HR. destruct r as [s| |]; [destruct HF|reflexivity|reflexivity].
    - match goal with E : run c i h = _ |- _ => rewrite E end.
      destruct s; eapply IH; eassumption.
  Qed.

  (** Either all run or there is a first that fails. *)
  Lemma run_jobs_cases c js : forall h,
    (exists ss h', all_run c js h ss h') \/
    (exists pre j post ss h1 h2 r, js = pre ++ j :: post /\ all_run c pre h ss h1 /\ run c j h1 = (h2, r) /\ failed r).
  Proof.
    induction js as [|j js IH]; intros h; [left; exists [], h; constructor|].
    destruct (run c j h) as [h1 r] eqn:E. destruct r as [s|e|].
    - destruct (IH h1) as [(ss & h' & HA)|(pre & i & post & ss & h2 & h3 & r & -> & HA & HR & HF)].
      + left. exists (s :: ss), h'. econstructor; eassumption.
      + right. exists (j :: pre), i, post, (s :: ss), h2, h3, r. split; [reflexivity|].
        split; [econstructor; eassumption|]. auto.
    - right. exists [], j, js, [], h, h1, (RFail e). split; [reflexivity|]. split; [constructor|]. split; [exact E|constructor].
    - right. exists [], j, js, [], h, h1, RPanic. split; [reflexivity|]. split; [constructor|]. split; [exact E|constructor].
  Qed.

  Lemma by_name_ok c names h h' s :
    run_jobs_by_name c names h = (h', ROkay s) <->
    exists js ss, jobs_named c names js /\ all_run c js h ss h' /\
                  (s = ErrorsDetected <-> some_detected js ss).
  Proof.
    unfold run_jobs_by_name. split.
    - pose proof (find_jobs_spec c names) as HF. destruct (find_jobs c names) as [js|e]; [|discriminate].
      intros H. destruct (run_jobs_cases c js h) as [(ss & h1 & HA)|(pre & j & post & ss & h1 & h2 & r & -> & HA & HR & HF')].
      + destruct (run_jobs_all c js h ss h1 Success HA) as (s' & E & Hs). rewrite E in H. inversion H; subst.
        exists js, ss. split; [exact HF|]. split; [exact HA|]. rewrite Hs. intuition discriminate.
      + rewrite (run_jobs_stops c pre h ss h1 j post h2 r Success HA HR HF') in H. inversion H; subst. destruct HF'.
    - intros (js & ss & HN & HA & Hs). rewrite (jobs_named_find _ _ _ HN).
      destruct (run_jobs_all c js h ss h' Success HA) as (s' & E & Hs'). rewrite E. f_equal. f_equal.
      destruct s, s'; try reflexivity.
      + assert (X : Success = ErrorsDetected) by (apply Hs; destruct Hs' as [Hs' _]; destruct (Hs' eq_refl); [assumption|discriminate]).
        discriminate.
      + assert (X : Success = ErrorsDetected) by (apply Hs'; left; apply Hs; reflexivity). discriminate.
  Qed.

  Lemma by_name_fails c names h h' r :
    failed r ->
    (run_jobs_by_name c names h = (h', r) <->
     (exists n, first_unknown c names n /\ h' = h /\ r = RFail (CUnknownJob n)) \/
     (exists js pre j post ss h1, jobs_named c names js /\ js = pre ++ j :: post /\
        all_run c pre h ss h1 /\ run c j h1 = (h', r))).
  Proof.
    intros HFr. unfold run_jobs_by_name. split.
    - pose proof (find_jobs_spec c names) as HF. destruct (find_jobs c names) as [js|e].
      + intros H. right. destruct (run_jobs_cases c js h) as [(ss & h1 & HA)|(pre & j & post & ss & h1 & h2 & r' & E & HA & HR & HF')].
        * destruct (run_jobs_all c js h ss h1 Success HA) as (s' & E & _). rewrite E in H. inversion H; subst. destruct HFr.
        * rewrite E in H. rewrite (run_jobs_stops c pre h ss h1 j post h2 r' Success HA HR HF') in H.
          inversion H; subst. exists (pre ++ j :: post), pre, j, post, ss, h1. auto.
      + intros H. left. destruct HF as (n & Hn & ->). inversion H; subst. eauto.
    - intros [(n & Hn & -> & ->)|(js & pre & j & post & ss & h1 & HN & -> & HA & HR)].
      + rewrite (first_unknown_find _ _ _ Hn). reflexivity.
      + rewrite (jobs_named_find _ _ _ HN). eapply run_jobs_stops; eassumption.
  Qed.

  (** ** One job *)
  Lemma is_nil_spec {A} (l : list A) : is_nil l = true <-> l = [].
  Proof. destruct l; cbn; split; congruence. Qed.
  Lemma existsb_nil_spec {A B} (f : A -> list B) l :
    existsb (fun a => negb (is_nil (f a))) l = false <-> forall a, In a l -> f a = [].
  Proof.
    induction l as [|x l IH]; cbn [existsb In]; [split; [intros _ ? []|reflexivity]|].
    rewrite orb_false_iff, IH, negb_false_iff, is_nil_spec. split.
    - intros [H1 H2] a [<-|Ha]; auto.
    - intros H. split; [apply H; auto|]. intros a Ha. apply H. auto.
  Qed.

  Lemma errors_detected_spec c q : errors_detected c q = false <-> clean c q.
  Proof.
    destruct q; cbn [errors_detected clean].
    - apply existsb_nil_spec.
    - rewrite !orb_false_iff, negb_false_iff, is_nil_spec, !existsb_nil_spec. tauto.
  Qed.

  Lemma run_success c j h h' s :
    run c j h = (h', ROkay s) -> (s = Success <-> clean c (job_query j)).
  Proof.
    unfold run. destruct (open_output c j h) as [h1 [k| |]]; [|discriminate|discriminate].
    destruct (job_text c j) as [text|]; [|discriminate].
    destruct (out_write h1 k text) as [[n m]|]; [discriminate|]. intros H. inversion H; subst.
    rewrite <- errors_detected_spec. destruct (errors_detected c (job_query j)); split; congruence.
  Qed.

  (** What is written *)
  Lemma open_output_cases c j h :
    match open_output c j h with
    | (h1, r) => exists ev, h1 = h ++ ev /\ faithful h ev /\ opens c j ev r
    end.
  Proof.
    unfold open_output. destruct (eqb_spec (job_file j) (L "-")) as [E|E].
    - exists []. rewrite app_nil_r. split; [reflexivity|]. split; [constructor|]. constructor. exact E.
    - fold (output_path c j). destruct (out_parent (output_path c j)) as [d|] eqn:EP.
      + destruct (out_make_dirs h d) as [m|] eqn:ED.
        * eexists. split; [reflexivity|]. split; [repeat constructor; exact ED|]. constructor; [exact E|exact EP].
        * destruct (out_create (h ++ [EvMakeDirs d None]) (output_path c j)) as [m|] eqn:EC;
            (eexists; rewrite <- app_assoc; split; [reflexivity|]); cbn [app].
          -- split; [repeat constructor; assumption|].
             apply (op_create c j [EvMakeDirs d None] (Some m) E). right. eauto.
          -- split; [repeat constructor; assumption|].
             apply (op_create c j [EvMakeDirs d None] None E). right. eauto.
      + destruct (out_create h (output_path c j)) as [m|] eqn:EC; (eexists; split; [reflexivity|]).
        * split; [repeat constructor; assumption|]. apply (op_create c j [] (Some m) E). left. auto.
        * split; [repeat constructor; assumption|]. apply (op_create c j [] None E). left. auto.
  Qed.

  Lemma faithful_app h ev1 ev2 : faithful h ev1 -> faithful (h ++ ev1) ev2 -> faithful h (ev1 ++ ev2).
  Proof.
    intros H. induction H as [h|h e ev HA _ IH]; intros H2; cbn [app].
    - rewrite app_nil_r in H2. exact H2.
    - constructor; [exact HA|]. apply IH. rewrite <- app_assoc. exact H2.
  Qed.

  Lemma run_cases c j h h' r :
    run c j h = (h', r) -> exists ev, h' = h ++ ev /\ faithful h ev /\ effects c j ev r.
  Proof.
    unfold run. pose proof (open_output_cases c j h) as HO. destruct (open_output c j h) as [h1 r1].
    destruct HO as (ev & -> & HFa & HO). destruct r1 as [k|e|].
    - destruct (job_text c j) as [text|] eqn:ET.
      + destruct (out_write (h ++ ev) k text) as [[n m]|] eqn:EW; intros H; inversion H; subst;
          (eexists; rewrite <- app_assoc; split; [reflexivity|]).
        * split; [apply faithful_app; [exact HFa|]; repeat constructor; exists text, n; auto|].
          eapply ef_write_fails; eassumption.
        * split; [apply faithful_app; [exact HFa|]; repeat constructor; exact EW|].
          destruct (errors_detected c (job_query j)) eqn:EE.
          -- eapply ef_written; [exact HO|exact ET|]. split; [discriminate|]. intros C.
             apply errors_detected_spec in C. congruence.
          -- eapply ef_written; [exact HO|exact ET|]. split; [|reflexivity]. intros _. apply errors_detected_spec. exact EE.
      + intros H. inversion H; subst. exists ev. split; [reflexivity|]. split; [exact HFa|]. eapply ef_unsupported; eassumption.
    - intros H. inversion H; subst. exists ev. split; [reflexivity|]. split; [exact HFa|]. apply ef_open_fails. exact HO.
    - exfalso. remember RPanic as r0 eqn:E0. destruct HO as [| |pre q]; try discriminate. destruct q; discriminate.
  Qed.

  (** ** Supported combinations *)
  Lemma job_text_panics c j : well_made c -> (job_text c j = Panic <-> ~ supported (job_query j) (job_format j)).
  Proof.
    intros (WF & HT & HL). unfold job_text. destruct (job_query j).
    - destruct (job_format j); cbn [fmt_requirements supported]; split; try discriminate; try tauto; intros H; elim H; exact Logic.I.
    - destruct (job_format j); cbn [fmt_tracing supported]; split; try discriminate; try tauto; try (intros H; elim H; exact Logic.I).
      + rewrite (gnu_exact _ WF _ HT). discriminate.
      + destruct (proj2 (agg_total_iff _ _ WF HT) HL) as [ag HA]. rewrite HA. cbn [obind].
        rewrite (md_exact _ WF _ HT _ HA). discriminate.
  Qed.

  Lemma tags_of_eq l : tags_of l = flat_map tag_line l.
  Proof.
    unfold tags_of. apply flat_map_ext. intros r. unfold tag_line, line_of, tag_of.
    destruct (loc_in_file (req_location r)) as [[n|n c|s]|]; reflexivity.
  Qed.
  Lemma all_reqs_eq g : flat_map (fun a => ovalues (art_requirements a)) (ovalues (g_artefacts g)) = all_reqs g.
  Proof. unfold all_reqs, ovalues. rewrite !flat_map_concat_map, map_map. reflexivity. Qed.
  Lemma all_errors_eq g : flat_map art_errors (ovalues (g_artefacts g)) = all_errors g.
  Proof. unfold all_errors, ovalues. rewrite !flat_map_concat_map, map_map. reflexivity. Qed.

  Lemma job_text_report c j text :
    well_made c -> job_text c j = Done text -> is_report c (job_query j) (job_format j) text.
  Proof.
    intros (WF & HT & HL). unfold job_text. destruct (job_query j).
    - destruct (job_format j); cbn [fmt_requirements]; intros H; inversion H; subst.
      + rewrite all_reqs_eq, all_errors_eq.
        apply (ir_parse_json c (sort_by req_id (all_reqs (ctl_graph c))) (sort_errors (all_errors (ctl_graph c)))).
        * apply sort_by_perm.
        * apply sort_by_sorted.
        * intros id. apply sort_by_stable.
        * apply sort_errors_perm.
        * apply sort_errors_sorted.
      + rewrite md_requirements_spec. constructor.
        * apply sort_by_perm.
        * apply sort_by_sorted.
        * intros id. apply sort_by_stable.
      + unfold tags_requirements. rewrite all_reqs_eq, <- tags_of_eq. constructor.
        * apply sort_by_perm.
        * apply sort_by_sorted.
    - destruct (job_format j); cbn [fmt_tracing]; intros H; inversion H; subst.
      + rewrite (gnu_exact _ WF _ HT) in H1. inversion H1; subst. constructor.
      + apply ir_trace_json.
      + destruct (aggregate (ctl_traced c)) as [ag|] eqn:HA; [|discriminate]. cbn [obind] in H1.
        rewrite (md_exact _ WF _ HT _ HA) in H1. inversion H1; subst. constructor. exact HA.
  Qed.

  (** ** The process *)
  Lemma get_config_spec cf c : get_config cf = Some c <-> usable cf c.
  Proof.
    unfold get_config, usable, CONFIG_VERSION. destruct cf as [c'|]; [|split; [discriminate|intros [X _]; discriminate]].
    destruct (cf_version c') as [v|] eqn:E.
    - destruct (N.ltb_spec 0 v) as [H|H].
      + split; [discriminate|]. intros [X [Y|Y]]; inversion X; subst; rewrite Y in E; inversion E; subst; lia.
      + split; [intros X; inversion X; subst|intros [X _]; exact X]. split; [reflexivity|]. right. rewrite E. f_equal. lia.
    - split; [intros X; inversion X; subst; auto|intros [X _]; exact X].
  Qed.

  Lemma run_cli_spec c jobs h : run_cli_jobs c jobs h =
    if is_nil (chosen c jobs) then (h, RFail (CConfig (L "no default_jobs configured")))
    else run_jobs_by_name c (chosen c jobs) h.
  Proof. unfold run_cli_jobs, run_default_jobs, chosen. destruct jobs; reflexivity. Qed.

  Lemma usable_unique cf c c' : usable cf c -> usable cf c' -> c = c'.
  Proof. intros [H _] [H' _]. congruence. Qed.

  (** The outcome of the process, given the one of the jobs. *)
  Definition outcome_exit (r : result job_success) : exit :=
    match r with
    | ROkay Success => Exit 0
    | ROkay ErrorsDetected => Exit 1
    | RFail _ => Exit 2
    | RPanic => Panicked
    end.
  Lemma main_spec cf base jobs :
    main_rc cf base jobs =
    match get_config cf with
    | None => ([], Exit 2)
    | Some c => match controller_new c base with
                | Panic => ([], Panicked)
                | Done ctl => let '(h, r) := run_cli_jobs ctl jobs [] in (h, outcome_exit r)
                end
    end.
  Proof.
    unfold main_rc. destruct (get_config cf) as [c|]; [|reflexivity].
    destruct (controller_new c base) as [ctl|]; [|reflexivity].
    destruct (run_cli_jobs ctl jobs []) as [h [[]| |]]; reflexivity.
  Qed.

  Lemma exit_ok cf base jobs h (s : job_success) :
    main_rc cf base jobs = (h, outcome_exit (ROkay s)) <->
    exists c ctl js ss, usable cf c /\ controller_new c base = Done ctl /\ chosen ctl jobs <> [] /\
      jobs_named ctl (chosen ctl jobs) js /\ all_run ctl js [] ss h /\ (s = ErrorsDetected <-> some_detected js ss).
  Proof.
    rewrite main_spec. split.
    - destruct (get_config cf) as [c|] eqn:EC; [|destruct s; discriminate]. apply get_config_spec in EC.
      destruct (controller_new c base) as [ctl|] eqn:EN; [|destruct s; discriminate].
      rewrite run_cli_spec. destruct (is_nil (chosen ctl jobs)) eqn:EN0; [destruct s; discriminate|].
      destruct (run_jobs_by_name ctl (chosen ctl jobs) []) as [h1 r] eqn:ER.
      intros H. assert (h1 = h) by congruence. assert (r = ROkay s).
      { assert (X : outcome_exit r = outcome_exit (ROkay s)) by congruence.
        destruct r as [[]| |], s; cbn in X; congruence. }
      subst. apply by_name_ok in ER. destruct ER as (js & ss & H1 & H2 & H3).
      exists c, ctl, js, ss. split; [exact EC|]. split; [exact EN|]. split; [|auto].
      intros X. rewrite X in EN0. discriminate.
    - intros (c & ctl & js & ss & EC & EN & HN & H1 & H2 & H3). apply get_config_spec in EC. rewrite EC, EN, run_cli_spec.
      destruct (is_nil (chosen ctl jobs)) eqn:EN0; [apply is_nil_spec in EN0; contradiction|].
      rewrite (proj2 (by_name_ok ctl (chosen ctl jobs) [] h s)); [reflexivity|]. eauto 6.
  Qed.

  Lemma exit_fail cf base jobs h :
    main_rc cf base jobs = (h, Exit 2) <->
    (h = [] /\ ~ exists c, usable cf c) \/
    exists c ctl, usable cf c /\ controller_new c base = Done ctl /\
      ((h = [] /\ chosen ctl jobs = []) \/
       (h = [] /\ exists n, first_unknown ctl (chosen ctl jobs) n) \/
       (exists js pre j post ss h1 e, jobs_named ctl (chosen ctl jobs) js /\ js = pre ++ j :: post /\
          all_run ctl pre [] ss h1 /\ run ctl j h1 = (h, RFail e))).
  Proof.
    rewrite main_spec. split.
    - destruct (get_config cf) as [c|] eqn:EC.
      2:{ intros H. inversion H; subst. left. split; [reflexivity|]. intros [c Hc]. apply get_config_spec in Hc. congruence. }
      apply get_config_spec in EC. destruct (controller_new c base) as [ctl|] eqn:EN; [|discriminate].
      rewrite run_cli_spec. intros H. right. exists c, ctl. split; [exact EC|]. split; [exact EN|].
      destruct (is_nil (chosen ctl jobs)) eqn:EN0.
      + apply is_nil_spec in EN0. left. inversion H; subst. auto.
      + right. destruct (run_jobs_by_name ctl (chosen ctl jobs) []) as [h1 r] eqn:ER.
        assert (h1 = h) by congruence. subst h1.
        destruct r as [[]|e|]; try (cbn in H; congruence).
        apply (by_name_fails ctl _ _ _ (RFail e) Logic.I) in ER.
        destruct ER as [(n & Hn & -> & _)|(js & pre & j & post & ss & h1 & H1 & H2 & H3 & H4)]; [left; eauto|].
        right. exists js, pre, j, post, ss, h1, e. auto.
    - intros [[-> HN]|(c & ctl & EC & EN & HC)].
      + destruct (get_config cf) as [c|] eqn:EC; [|reflexivity]. elim HN. exists c. apply get_config_spec. exact EC.
      + apply get_config_spec in EC. rewrite EC, EN, run_cli_spec.
        destruct HC as [[-> HC]|[[-> (n & Hn)]|(js & pre & j & post & ss & h1 & e & H1 & H2 & H3 & H4)]].
        * rewrite HC. reflexivity.
        * destruct (is_nil (chosen ctl jobs)) eqn:EN0; [reflexivity|].
          rewrite (proj2 (by_name_fails ctl (chosen ctl jobs) [] [] (RFail (CUnknownJob n)) Logic.I)); [reflexivity|]. eauto.
        * destruct (is_nil (chosen ctl jobs)) eqn:EN0.
          { apply is_nil_spec in EN0. rewrite EN0 in H1. inversion H1; subst. destruct pre; discriminate. }
          rewrite (proj2 (by_name_fails ctl (chosen ctl jobs) [] h (RFail e) Logic.I)); [reflexivity|]. right. eauto 10.
  Qed.

  Lemma exit_panic cf base jobs h :
    main_rc cf base jobs = (h, Panicked) <->
    exists c, usable cf c /\
      ((h = [] /\ controller_new c base = Panic) \/
       (exists ctl js pre j post ss h1, controller_new c base = Done ctl /\
          jobs_named ctl (chosen ctl jobs) js /\ js = pre ++ j :: post /\
          all_run ctl pre [] ss h1 /\ run ctl j h1 = (h, RPanic))).
  Proof.
    rewrite main_spec. split.
    - destruct (get_config cf) as [c|] eqn:EC; [|discriminate]. apply get_config_spec in EC.
      intros H. exists c. split; [exact EC|].
      destruct (controller_new c base) as [ctl|] eqn:EN; [|left; inversion H; auto].
      right. rewrite run_cli_spec in H. destruct (is_nil (chosen ctl jobs)) eqn:EN0; [cbn in H; discriminate|].
      destruct (run_jobs_by_name ctl (chosen ctl jobs) []) as [h1 r] eqn:ER.
      assert (h1 = h) by congruence. subst h1. destruct r as [[]|e|]; try (cbn in H; congruence).
      apply (by_name_fails ctl _ _ _ RPanic Logic.I) in ER.
      destruct ER as [(n & _ & _ & X)|(js & pre & j & post & ss & h1 & H1 & H2 & H3 & H4)]; [discriminate|].
      exists ctl, js, pre, j, post, ss, h1. auto.
    - intros (c & EC & HC). apply get_config_spec in EC. rewrite EC.
      destruct HC as [[-> EN]|(ctl & js & pre & j & post & ss & h1 & EN & H1 & H2 & H3 & H4)]; rewrite EN; [reflexivity|].
      rewrite run_cli_spec. destruct (is_nil (chosen ctl jobs)) eqn:EN0.
      { apply is_nil_spec in EN0. rewrite EN0 in H1. inversion H1; subst. destruct pre; discriminate. }
      rewrite (proj2 (by_name_fails ctl (chosen ctl jobs) [] h RPanic Logic.I)); [reflexivity|]. right. eauto 10.
  Qed.

  (** ** Controllers made by [controller_new] *)
  Lemma controller_well_made cf base c : controller_new cf base = Done c -> well_made c.
  Proof.
    intros H. pose proof (controller_new_spec cf base) as HS. rewrite H in HS.
    destruct HS as (HK & HB & HT & _). split; [eapply graph_built_wf; exact HB|]. split; [exact HT|].
    intros rel la Hr Hla. apply (graph_built_keys cf base _ _ HB). rewrite (proj1 HB) in Hr.
    apply (HK rel Hr). right. exact Hla.
  Qed.
End JobFacts.

