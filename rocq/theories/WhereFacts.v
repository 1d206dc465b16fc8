(** Which files are read and written: facts for C105. *)
From Verif Require Import Base OMap Models Unicode Utf8 Paths MdParser MonoParser RustParser Tracer
  Show Sort Serialize Tags MdFmt Formatters Controller FmtSpec CtlSpec CtlFacts CtlCor JobFacts JobCor Where.
Open Scope N_scope.

Section Reads.
  Context {U : UnicodeTables} {D : Debug} {I : Inputs}.

  Lemma reads_seen ac base p q : ac_parser ac <> PRust -> ac_paths ac = [p] -> seen_from base p q ->
    match parse_files ac base with
    | Done (files, reqs, errs) => files = [q] /\ file_result (ac_parser ac) q (reqs, errs)
    | Panic => file_panics (ac_parser ac) q
    end.
  Proof.
    intros HR HP HS. apply join_seen in HS. subst q. pose proof (parse_files_spec ac base) as H.
    destruct (parse_files ac base) as [[[files reqs] errs]|].
    - inversion H; subst; try contradiction.
      + match goal with X : ac_paths ac = [?y] |- _ => assert (y = p) by congruence; subst y end.
        split; [reflexivity|]. destruct x; assumption.
      + match goal with X : length (ac_paths ac) <> 1%nat |- _ => elim X end. rewrite HP. reflexivity.
    - destruct H as (f & [(_ & y & Ey & ->)|(Hr & _)] & HF); [|contradiction].
      assert (y = p) by congruence. subst y. exact HF.
  Qed.

  Lemma pattern_seen base p q : pattern_from base p q <-> pattern_of base p = q.
  Proof.
    unfold pattern_of. split.
    - intros [b x H|b x H]; [apply absolute_spec in H|apply relative_spec in H]; rewrite H; reflexivity.
    - intros <-. destruct (is_absolute p) eqn:E; constructor; [apply absolute_spec|apply relative_spec]; exact E.
  Qed.

  Lemma patterns_seen ac base p q : ac_parser ac = PRust -> ac_paths ac = [p] -> pattern_from base p q ->
    (forall m, in_glob q = inr m -> parse_files ac base = Done ([p], [], [EIo p m])) /\
    (forall fs files reqs errs, in_glob q = inl (map inl fs) -> parse_files ac base = Done (files, reqs, errs) -> files = fs).
  Proof.
    intros HR HP HS. apply pattern_seen in HS. subst q.
    assert (HX : forall fs, in_glob (pattern_of base p) = inl (map inl fs) -> expands base (ac_paths ac) (fs ++ [])).
    { intros fs H. rewrite HP. constructor; [exact H|constructor]. }
    pose proof (parse_files_spec ac base) as H. split.
    - intros m HG. assert (HF : expansion_fails base (ac_paths ac) (EIo p m)) by (rewrite HP; constructor; exact HG).
      destruct (parse_files ac base) as [[[files reqs] errs]|].
      + destruct (sources_unique base ac _ _ _ _ _ _ H (so_fails base ac _ HR HF)) as (-> & -> & ->). rewrite HP. reflexivity.
      + exfalso. destruct H as (f & [(Hr & _)|(_ & files & Hx & _)] & _); [contradiction|].
        rewrite HP in Hx. inversion Hx; subst. congruence.
    - intros fs files reqs errs HG HD. rewrite HD in H. pose proof (HX fs HG) as HE. clear HX.
      assert (HN : forall e, ~ expansion_fails base (ac_paths ac) e).
      { intros e X. rewrite HP in X. inversion X as [y ys m HG'|y ys gs f m rest HG'|y ys gs e' HG' X']; subst.
        - congruence.
        - rewrite HG in HG'. injection HG' as HG'.
          assert (Y : In (inr (f, m)) (map (inl (B := path * str)) fs)) by (rewrite HG'; apply in_or_app; right; left; reflexivity).
          apply in_map_iff in Y. destruct Y as (z & Y & _). discriminate.
        - inversion X'. }
      inversion H as [y x HO|HO|HR' HP'|e HR' HF|fs' xs HR' HP' HE']; subst.
      + elim (HO HR).
      + elim (HO HR).
      + congruence.
      + elim (HN _ HF).
      + rewrite HP in HE'. inversion HE' as [|y ys gs gs' HG' HE'']; subst. inversion HE''; subst. rewrite app_nil_r.
        rewrite HG in HG'. injection HG' as HG'. clear -HG'. revert fs HG'. induction gs as [|y ys IH]; intros [|z zs] X; try discriminate.
        * reflexivity.
        * cbn in X. injection X as -> X. f_equal. apply IH. exact X.
  Qed.
End Reads.

Section Writes.
  Context {D : Debug} {US : UnstableSort} {CT : CaseTables} {J : JsonText} {O : Outputs}.

  Definition only_in (q : path) (e : event) : Prop :=
    match e with
    | EvMakeDirs d _ => out_parent q = Some d
    | EvCreate p _ => p = q
    | EvWrite s _ _ => s = ToFile q
    end.

  Lemma output_seen c j q : seen_from (ctl_base c) (job_file j) q -> output_path c j = q.
  Proof.
    intros H. apply join_seen in H. subst q. unfold output_path, path_join. destruct (is_absolute (job_file j)); reflexivity.
  Qed.

  Lemma writes_seen c j h h' r q : job_file j <> L "-" -> seen_from (ctl_base c) (job_file j) q -> run c j h = (h', r) ->
    exists ev, h' = h ++ ev /\ Forall (only_in q) ev.
  Proof.
    intros HF HS HR. apply output_seen in HS. destruct (run_cases c j h h' r HR) as (ev & -> & _ & E).
    exists ev. split; [reflexivity|]. eapply Forall_impl; [|exact (effects_concern c j ev r E)].
    intros [d m|p m|[|p] t m]; cbn; intros H; [| |elim (HF H)|]; destruct H as [_ H]; congruence.
  Qed.
End Writes.

Lemma controller_base {U : UnicodeTables} {D : Debug} {I : Inputs} cf base c : controller_new cf base = Done c -> ctl_base c = base.
Proof. intros H. pose proof (controller_new_spec cf base) as HS. rewrite H in HS. apply HS. Qed.
