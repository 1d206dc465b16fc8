(** A run depends only on the files it opens and on what its patterns match. *)
From Verif Require Import Base OMap Models Unicode Utf8 Paths MdParser MonoParser RustParser Tracer TraceSpec Show Sort Aggregator
  Serialize Tags MdFmt Formatters Controller FmtSpec CtlSpec CtlFacts CtlCor DocCtl E2E.

(** The two worlds have the same libraries. *)
Definition same_libraries (I1 I2 : Inputs) : Prop :=
  @in_syn I1 = @in_syn I2 /\ @in_debug_tokens I1 = @in_debug_tokens I2 /\
  @in_json I1 = @in_json I2 /\ @in_json_error I1 = @in_json_error I2.
(** The patterns of the Rust artefacts match the same files. *)
Definition same_matches (I1 I2 : Inputs) (cf : config) (base : path) : Prop :=
  forall ac p, In ac (cf_artefacts cf) -> ac_parser ac = PRust -> In p (ac_paths ac) ->
    @in_glob I1 (pattern_of base p) = @in_glob I2 (pattern_of base p).

Lemma for_each_same {S A} (l : list A) (f f' : S -> A -> outcome S) :
  (forall a s, In a l -> f s a = f' s a) -> forall s, for_each l f s = for_each l f' s.
Proof.
  induction l as [|a l IH]; intros H s; [reflexivity|]. cbn [for_each].
  rewrite (H a s (or_introl eq_refl)). destruct (f' s a); [|reflexivity]. cbn [obind].
  apply IH. intros b t Hb. apply H. right. exact Hb.
Qed.

Section Cache.
  Context {U : UnicodeTables} {D : Debug}.
  Variables I1 I2 : Inputs.
  Hypothesis HL : same_libraries I1 I2.

  Lemma glob_same base ps :
    (forall p, In p ps -> @in_glob I1 (pattern_of base p) = @in_glob I2 (pattern_of base p)) ->
    @glob_paths I1 base ps = @glob_paths I2 base ps.
  Proof.
    induction ps as [|p ps IH]; intros H; [reflexivity|]. cbn [glob_paths].
    pose proof (H p (or_introl eq_refl)) as E. unfold pattern_of in E. rewrite E.
    rewrite IH by (intros q Hq; apply H; right; exact Hq). reflexivity.
  Qed.

  Lemma parse_same cf base ac :
    In ac (cf_artefacts cf) -> same_matches I1 I2 cf base ->
    (forall f, @opened I1 base ac f -> @in_open I1 f = @in_open I2 f) ->
    @parse_from_config U D I1 ac base = @parse_from_config U D I2 ac base.
  Proof.
    intros Hin HM HO. destruct HL as (L1 & L2 & L3 & L4).
    unfold parse_from_config. assert (E : @parse_files U D I1 ac base = @parse_files U D I2 ac base); [|rewrite E; reflexivity].
    unfold parse_files.
    assert (HS : ac_parser ac <> PRust -> @parse_single_file U D I1 ac base = @parse_single_file U D I2 ac base).
    { intros HR. unfold parse_single_file. destruct (ac_paths ac) as [|p [|q ps]] eqn:EP; try reflexivity.
      rewrite <- (HO (path_join base p)) by (left; split; [exact HR|exists p; auto]).
      destruct (@in_open I1 (path_join base p)) as [r|m]; [|reflexivity].
      unfold json_parse. rewrite L3, L4. reflexivity. }
    destruct (ac_parser ac) eqn:EP; try (apply HS; discriminate).
    unfold parse_multiple_files. destruct (is_nil (ac_paths ac)); [reflexivity|].
    pose proof (@glob_paths_spec I1 base (ac_paths ac)) as HG.
    rewrite <- (glob_same base (ac_paths ac)) by (intros p Hp; exact (HM ac p Hin EP Hp)).
    destruct (@glob_paths I1 base (ac_paths ac)) as [fs|e]; [|reflexivity].
    assert (HF : for_each fs (@parse_next_file I1 ac) ([], []) = for_each fs (@parse_next_file I2 ac) ([], []));
      [|rewrite HF; reflexivity].
    apply for_each_same. intros f s Hf. unfold parse_next_file.
    rewrite <- (HO f) by (right; split; [exact EP|exists fs; auto]).
    rewrite L1, L2. reflexivity.
  Qed.

  Lemma controller_same cf base : same_matches I1 I2 cf base ->
    (forall ac f, In ac (cf_artefacts cf) -> @opened I1 base ac f -> @in_open I1 f = @in_open I2 f) ->
    @controller_new U D I1 cf base = @controller_new U D I2 cf base.
  Proof.
    intros HM HO. unfold controller_new.
    destruct (for_each (cf_relations cf) roots_relation (roots_init (cf_artefacts cf))) as [roots|]; [|reflexivity].
    cbn [obind].
    assert (HF : for_each (cf_artefacts cf) (@add_artefact U D I1 roots base) [] =
                 for_each (cf_artefacts cf) (@add_artefact U D I2 roots base) []); [|rewrite HF; reflexivity].
    apply for_each_same. intros ac arts Hac. unfold add_artefact.
    rewrite (parse_same cf base ac Hac HM (fun f => HO ac f Hac)). reflexivity.
  Qed.

  (** The files that the first run records are enough. *)
  Lemma recorded_same cf base c : NoDup (map ac_id (cf_artefacts cf)) ->
    @controller_new U D I1 cf base = Done c -> same_matches I1 I2 cf base ->
    (forall a f, In a (ovalues (g_artefacts (ctl_graph c))) -> In f (art_files a) -> @in_open I1 f = @in_open I2 f) ->
    @controller_new U D I2 cf base = Done c.
  Proof.
    intros HN HC HM HF. rewrite <- HC. symmetry. apply controller_same; [exact HM|].
    intros ac f Hac Hf.
    assert (Hl : last_config cf (ac_id ac) = Some ac).
    { unfold last_config. apply in_rev in Hac. apply NoDup_rev in HN. rewrite <- map_rev in HN.
      induction (rev (cf_artefacts cf)) as [|x l IH]; [destruct Hac|]. cbn [find map] in *.
      inversion HN as [|? ? H1 H2]; subst. destruct Hac as [->|Hac]; [rewrite eqb_refl; reflexivity|].
      destruct (eqb_spec (ac_id x) (ac_id ac)) as [E|_]; [|exact (IH H2 Hac)].
      elim H1. rewrite E. apply in_map. exact Hac. }
    destruct (known_artefact cf base c _ ac HC Hl) as (a & Ha).
    destruct (artefact_files cf base c _ a ac HC Ha Hl) as [H _].
    apply (HF a f); [|apply H; exact Hf]. apply ovalues_In. exists (ac_id ac). apply oget_Some_In. exact Ha.
  Qed.

  Lemma cached_run {US : UnstableSort} {CT : CaseTables} {J : JsonText} {O : Outputs} cf base c jobs :
    NoDup (map ac_id (cf_artefacts cf)) -> usable (Some cf) cf ->
    @controller_new U D I1 cf base = Done c -> same_matches I1 I2 cf base ->
    (forall a f, In a (ovalues (g_artefacts (ctl_graph c))) -> In f (art_files a) -> @in_open I1 f = @in_open I2 f) ->
    @main_rc U D US CT J I1 O (Some cf) base jobs = @main_rc U D US CT J I2 O (Some cf) base jobs.
  Proof.
    intros HN [_ HV] HC HM HF. unfold main_rc.
    assert (E : get_config (Some cf) = Some cf).
    { cbn [get_config]. destruct HV as [->| ->]; reflexivity. }
    rewrite E, (recorded_same cf base c HN HC HM HF), HC. reflexivity.
  Qed.
End Cache.
