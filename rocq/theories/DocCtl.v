(** Lemmas behind PropsDoc.v about the configuration: tags, files, order. *)
From Verif Require Import Base OMap Models Unicode Utf8 Paths MdSyntax MdParser MdSpec MonoParser RustParser Tracer
  TraceSpec Aggregator Show Sort Serialize Tags MdFmt Formatters Controller FmtSpec CtlSpec CtlFacts CtlCor DocFacts.
From Coq Require Import Permutation.
Open Scope N_scope.

Section DocCtl.
  Context {U : UnicodeTables} {D : Debug} {I : Inputs}.

  (** ** Tags *)
  Lemma file_no_tags ps p x : ps <> PJson -> file_result ps p x -> forall q, In q (fst x) -> req_tags q = [].
  Proof.
    intros HJ H. destruct H as [ps p m _|p r [rs es] _ H|p r [rs es] _ H|p r [rs es] _ H|p r v rs _ _ _|p r _ _].
    - intros q [].
    - exact (md_no_tags p r rs es H).
    - exact (mono_no_tags p r rs es H).
    - exact (rust_no_tags _ _ p r rs es H).
    - congruence.
    - congruence.
  Qed.

  Lemma sources_no_tags base ac f reqs e : ac_parser ac <> PJson -> sources base ac f reqs e ->
    forall q, In q reqs -> req_tags q = [].
  Proof.
    intros HJ H q Hq. destruct H as [p x _ _ H|_ _|_ _|e _ _|files xs Hp _ _ H]; try (destruct Hq; fail).
    - exact (file_no_tags _ _ x HJ H q Hq).
    - apply in_flat_map in Hq. destruct Hq as (x & Hx & Hq).
      assert (HR : PRust <> PJson) by discriminate.
      clear -H Hx Hq HR. induction H as [|p y fs ys Hy _ IH]; [destruct Hx|]. destruct Hx as [->|Hx]; [|auto].
      exact (file_no_tags _ _ _ HR Hy q Hq).
  Qed.

  Lemma artefact_no_tags cf base c id a ac : controller_new cf base = Done c ->
    oget id (g_artefacts (ctl_graph c)) = Some a -> last_config cf id = Some ac -> ac_parser ac <> PJson ->
    forall q, In q (ovalues (art_requirements a)) -> req_tags q = [].
  Proof.
    intros HC Ha Hl HJ q Hq. destruct (controller_has cf base c id a HC Ha) as (ac' & El & HB).
    assert (ac' = ac) by congruence. subst ac'.
    destruct HB as (reqs & errs & HS & _ & _ & _ & Hs & Hg & _).
    apply ovalues_In in Hq. destruct Hq as (k & Hq). apply In_oget in Hq; [|exact Hs].
    rewrite Hg in Hq. unfold first_with in Hq. apply find_some in Hq.
    exact (sources_no_tags base ac _ reqs errs HJ HS q (proj1 Hq)).
  Qed.

  (** ** Files *)
  Lemma files_opened base ac files reqs errs : sources base ac files reqs errs ->
    (forall f, opened base ac f -> In f files) /\
    ((forall e, ac_parser ac = PRust -> ~ expansion_fails base (ac_paths ac) e) ->
     forall f, In f files -> opened base ac f).
  Proof.
    intros H. unfold opened. destruct H as [p x H1 H2 H|H1 H2|H1 H2|e H1 H2|files xs H1 H2 H3 H].
    - split.
      + intros f [(_ & q & E & ->)|(E & _)]; [|elim (H1 E)]. left. congruence.
      + intros _ f [<-|[]]. left. eauto.
    - split; [|intros _ f []]. intros f [(_ & q & E & _)|(E & _)]; [|elim (H1 E)]. rewrite E in H2. elim H2. reflexivity.
    - split; [|intros _ f []]. intros f [(Ho & _)|(_ & fs & HE & Hf)]; [elim (Ho H1)|].
      rewrite H2 in HE. inversion HE; subst. exact Hf.
    - split.
      + intros f [(Ho & _)|(_ & fs & HE & Hf)]; [elim (Ho H1)|]. elim (expands_not_fails _ _ _ _ HE H2).
      + intros HN. elim (HN e H1 H2).
    - split.
      + intros f [(Ho & _)|(_ & fs & HE & Hf)]; [elim (Ho H1)|]. rewrite (expands_unique _ _ _ _ H3 HE). exact Hf.
      + intros _ f Hf. right. eauto.
  Qed.

  Lemma artefact_files cf base c id a ac : controller_new cf base = Done c ->
    oget id (g_artefacts (ctl_graph c)) = Some a -> last_config cf id = Some ac ->
    (forall f, opened base ac f -> In f (art_files a)) /\
    ((forall e, ac_parser ac = PRust -> ~ expansion_fails base (ac_paths ac) e) ->
     forall f, In f (art_files a) -> opened base ac f).
  Proof.
    intros HC Ha Hl. destruct (controller_has cf base c id a HC Ha) as (ac' & El & HB).
    assert (ac' = ac) by congruence. subst ac'. destruct HB as (reqs & errs & HS & _).
    exact (files_opened _ _ _ _ _ HS).
  Qed.

  (** The other files of an artefact do not matter for what a file contributes. *)
  Lemma file_contributes base ac files reqs errs f x : sources base ac files reqs errs ->
    opened base ac f -> file_result (ac_parser ac) f x ->
    incl (fst x) reqs /\ incl (snd x) errs.
  Proof.
    intros H Ho Hx. destruct H as [p y H1 H2 H|H1 H2|H1 H2|e H1 H2|files xs H1 H2 H3 H].
    - destruct Ho as [(_ & q & E & ->)|(E & _)]; [|elim (H1 E)]. assert (q = p) by congruence. subst q.
      rewrite (file_result_unique _ _ _ _ H Hx). split; apply incl_refl.
    - destruct Ho as [(_ & q & E & _)|(E & _)]; [|elim (H1 E)]. rewrite E in H2. elim H2. reflexivity.
    - destruct Ho as [(Ho & _)|(_ & fs & HE & Hf)]; [elim (Ho H1)|]. rewrite H2 in HE. inversion HE; subst. destruct Hf.
    - destruct Ho as [(Ho & _)|(_ & fs & HE & Hf)]; [elim (Ho H1)|]. elim (expands_not_fails _ _ _ _ HE H2).
    - destruct Ho as [(Ho & _)|(_ & fs & HE & Hf)]; [elim (Ho H1)|].
      rewrite (expands_unique _ _ _ _ HE H3) in Hf. rewrite H1 in Hx. clear -H Hf Hx.
      induction H as [|g y fs ys Hy _ IH]; [destruct Hf|]. cbn [flat_map]. destruct Hf as [->|Hf].
      + rewrite (file_result_unique _ _ _ _ Hy Hx). split; apply incl_appl; apply incl_refl.
      + destruct (IH Hf) as [Ha Hb]. split; apply incl_appr; assumption.
  Qed.

  (** A path that does not exist. *)
  Lemma missing_single base ac p m : one_file (ac_parser ac) -> ac_paths ac = [p] ->
    in_open (path_join base p) = inr m ->
    sources base ac [path_join base p] [] [EIo (path_join base p) m].
  Proof.
    intros H1 H2 H3. change (sources base ac [path_join base p] (fst (([] : list requirement), [EIo (path_join base p) m]))
      (snd (([] : list requirement), [EIo (path_join base p) m]))).
    apply so_single; [exact H1|exact H2|]. apply fr_unreadable. exact H3.
  Qed.

  (** ** Order of the configured artefacts *)
  Lemma find_perm {A} (q : A -> bool) (l l' : list A) : Permutation l l' ->
    (forall x y, In x l -> In y l -> q x = true -> q y = true -> x = y) -> find q l = find q l'.
  Proof.
    intros HP HU. destruct (find q l) as [x|] eqn:E; destruct (find q l') as [y|] eqn:E'.
    - f_equal. apply find_some in E. apply find_some in E'. destruct E, E'. apply HU; auto.
      apply (Permutation_in _ (Permutation_sym HP)). assumption.
    - apply find_some in E. destruct E as [E1 E2]. rewrite (find_none _ _ E' x (Permutation_in _ HP E1)) in E2. discriminate.
    - apply find_some in E'. destruct E' as [E1 E2].
      rewrite (find_none _ _ E y (Permutation_in _ (Permutation_sym HP) E1)) in E2. discriminate.
    - reflexivity.
  Qed.

  Lemma nodup_map_inj {A B} (f : A -> B) l : NoDup (map f l) -> forall x y, In x l -> In y l -> f x = f y -> x = y.
  Proof.
    induction l as [|a l IH]; intros H x y Hx Hy E; [destruct Hx|]. inversion H; subst.
    destruct Hx as [<-|Hx]; destruct Hy as [<-|Hy]; auto.
    - elim H2. rewrite E. apply in_map. exact Hy.
    - elim H2. rewrite <- E. apply in_map. exact Hx.
  Qed.

  Lemma built_unique cf cf' base ac a a' : cf_relations cf = cf_relations cf' ->
    built cf base ac a -> built cf' base ac a' -> a = a'.
  Proof.
    intros ER (reqs & errs & HS & Hi & Hd & Ht & Hs & Hg & He) (reqs' & errs' & HS' & Hi' & Hd' & Ht' & Hs' & Hg' & He').
    destruct (sources_unique _ _ _ _ _ _ _ _ HS HS') as (Ef & <- & <-).
    assert (Em : art_requirements a = art_requirements a').
    { apply osorted_ext; [exact Hs|exact Hs'|]. intros k. rewrite Hg, Hg'. reflexivity. }
    destruct a as [i f d t m e], a' as [i' f' d' t' m' e']. cbn in *. subst.
    f_equal. destruct (ac_ignore_derived ac); [congruence|].
    unfold is_root in Hd, Hd'. rewrite <- ER in Hd'. destruct d, d'; try reflexivity.
    - symmetry. apply Hd'. apply Hd. reflexivity.
    - apply Hd. apply Hd'. reflexivity.
  Qed.

  Lemma artefact_order acs acs' v rels js ds base : Permutation acs acs' -> NoDup (map ac_id acs) ->
    controller_new (mkConfig v acs rels js ds) base = controller_new (mkConfig v acs' rels js ds) base.
  Proof.
    intros HP HN. set (cf := mkConfig v acs rels js ds). set (cf' := mkConfig v acs' rels js ds).
    assert (HL : forall id, last_config cf id = last_config cf' id).
    { intros id. unfold last_config. cbn [cf cf' cf_artefacts].
      apply find_perm.
      - etransitivity; [apply Permutation_sym, Permutation_rev|]. etransitivity; [exact HP|apply Permutation_rev].
      - intros x y Hx Hy Ex Ey. apply in_rev in Hx. apply in_rev in Hy. apply eqb_true in Ex. apply eqb_true in Ey.
        apply (nodup_map_inj ac_id acs HN x y Hx Hy). congruence. }
    assert (HPn : controller_new cf base = Panic <-> controller_new cf' base = Panic).
    { rewrite !controller_panics. unfold relations_known. cbn [cf cf' cf_relations cf_artefacts].
      assert (HI : forall id, In id (map ac_id acs) <-> In id (map ac_id acs')).
      { intros id. split; apply Permutation_in; [|apply Permutation_sym]; apply Permutation_map; exact HP. }
      split; (intros [H|(ac & f & H1 & H2)]; [left|right]).
      - intros HK. apply H. intros rel Hr id Hid. apply HI. exact (HK rel Hr id Hid).
      - exists ac, f. split; [exact (Permutation_in _ HP H1)|exact H2].
      - intros HK. apply H. intros rel Hr id Hid. apply HI. exact (HK rel Hr id Hid).
      - exists ac, f. split; [exact (Permutation_in _ (Permutation_sym HP) H1)|exact H2]. }
    destruct (controller_new cf base) as [c|] eqn:E.
    2:{ symmetry. apply HPn. reflexivity. }
    destruct (controller_new cf' base) as [c'|] eqn:E'.
    2:{ assert (Done c = Panic) by (apply HPn; reflexivity). discriminate. }
    pose proof (controller_new_spec cf base) as H. rewrite E in H.
    pose proof (controller_new_spec cf' base) as H'. rewrite E' in H'.
    destruct H as (_ & (Hr & Hs & Hg) & Ht & Hb & Hj & Hdj & _).
    destruct H' as (_ & (Hr' & Hs' & Hg') & Ht' & Hb' & Hj' & Hdj' & _).
    assert (Eg : ctl_graph c = ctl_graph c').
    { assert (Ea : g_artefacts (ctl_graph c) = g_artefacts (ctl_graph c')).
      { apply osorted_ext; [exact Hs|exact Hs'|]. intros id. specialize (Hg id). specialize (Hg' id).
        rewrite HL in Hg. destruct (last_config cf' id) as [ac|].
        - destruct Hg as (a & -> & HB). destruct Hg' as (a' & -> & HB'). f_equal.
          exact (built_unique cf cf' base ac a a' eq_refl HB HB').
        - congruence. }
      destruct (ctl_graph c) as [x y], (ctl_graph c') as [x' y']. cbn in *. congruence. }
    destruct c as [b1 g1 t1 j1 d1], c' as [b2 g2 t2 j2 d2]. cbn in *. subst. congruence.
  Qed.

  (** ** Order of the paths of an artefact *)
  Lemma expands_perm base ps ps' files : Permutation ps ps' -> expands base ps files ->
    exists files', expands base ps' files' /\ Permutation files files'.
  Proof.
    intros HP. revert files. induction HP as [|p ps ps' _ IH|p q ps|ps1 ps2 ps3 _ IH1 _ IH2]; intros files H.
    - exists files. split; [exact H|apply Permutation_refl].
    - inversion H; subst. destruct (IH _ H4) as (fs' & He & Hp). exists (fs ++ fs').
      split; [constructor; assumption|]. apply Permutation_app_head. exact Hp.
    - inversion H as [|p1 ps1 f1 g1 E1 H1]; subst. inversion H1 as [|p2 ps2 f2 g2 E2 H2]; subst.
      exists (f2 ++ f1 ++ g2). split; [constructor; [assumption|constructor; assumption]|].
      rewrite !app_assoc. apply Permutation_app_tail, Permutation_app_comm.
    - destruct (IH1 _ H) as (f2 & H2 & P2). destruct (IH2 _ H2) as (f3 & H3 & P3).
      exists f3. split; [exact H3|]. etransitivity; eassumption.
  Qed.

  Lemma Forall2_perm {A B} (R : A -> B -> Prop) l l' xs : Permutation l l' -> Forall2 R l xs ->
    exists xs', Forall2 R l' xs' /\ Permutation xs xs'.
  Proof.
    intros HP. revert xs. induction HP as [|a l l' _ IH|a b l|l1 l2 l3 _ IH1 _ IH2]; intros xs H.
    - exists xs. split; [exact H|apply Permutation_refl].
    - inversion H; subst. destruct (IH _ H4) as (ys & Hy & Hp). exists (y :: ys).
      split; [constructor; assumption|]. apply perm_skip. exact Hp.
    - inversion H as [|a1 x1 l1 xs1 R1 H1]; subst. inversion H1 as [|a2 x2 l2 xs2 R2 H2]; subst.
      exists (x2 :: x1 :: xs2). split; [constructor; [assumption|constructor; assumption]|]. apply perm_swap.
    - destruct (IH1 _ H) as (f2 & H2 & P2). destruct (IH2 _ H2) as (f3 & H3 & P3).
      exists f3. split; [exact H3|]. etransitivity; eassumption.
  Qed.

  Definition with_paths (ac : artefact_config) (ps : list str) : artefact_config :=
    mkArtefactConfig (ac_id ac) ps (ac_parser ac) (ac_ignore_derived ac) (ac_reference_with_title ac).

  Lemma repeats_none l : NoDup (map req_id l) -> repeats [] l = [].
  Proof.
    assert (H : forall before, NoDup (map req_id (before ++ l)) -> repeats before l = []).
    { induction l as [|r l IH]; intros before HN; [reflexivity|]. cbn [repeats].
      rewrite IH by (rewrite <- app_assoc; exact HN). rewrite app_nil_r.
      destruct (first_with (req_id r) before) as [x|] eqn:E; [|reflexivity].
      unfold first_with in E. apply find_some in E. destruct E as [E1 E2]. apply eqb_true in E2.
      rewrite map_app in HN. cbn [map] in HN. apply NoDup_remove_2 in HN. elim HN. apply in_or_app. left.
      rewrite <- E2. apply in_map. exact E1. }
    intros HN. exact (H [] HN).
  Qed.

  Lemma path_order base ac ps' files reqs errs : ac_parser ac = PRust -> Permutation (ac_paths ac) ps' ->
    (forall e, ~ expansion_fails base (ac_paths ac) e) ->
    sources base ac files reqs errs ->
    exists files' reqs' errs', sources base (with_paths ac ps') files' reqs' errs' /\
      Permutation files files' /\ Permutation reqs reqs' /\ Permutation errs errs' /\
      (NoDup (map req_id reqs) -> repeats [] reqs = [] /\ repeats [] reqs' = [] /\
       forall id, first_with id reqs = first_with id reqs').
  Proof.
    intros HR HP HF HS.
    assert (HX : exists files' reqs' errs', sources base (with_paths ac ps') files' reqs' errs' /\
      Permutation files files' /\ Permutation reqs reqs' /\ Permutation errs errs').
    { destruct HS as [p x H1 H2 H|H1 H2|H1 H2|e H1 H2|files xs H1 H2 H3 H]; try (elim (H1 HR); fail).
      - rewrite H2 in HP. apply Permutation_nil in HP. subst ps'. exists [], [], [EConfig (L "No Paths for artefact " ++ ac_id ac)].
        split; [apply (so_none base (with_paths ac [])); [exact HR|reflexivity]|]. repeat split; apply Permutation_refl.
      - elim (HF e H2).
      - destruct (expands_perm _ _ _ _ HP H3) as (files' & He & Hp).
        destruct (Forall2_perm _ _ _ _ Hp H) as (xs' & Hx & Hpx).
        exists files', (flat_map fst xs'), (flat_map snd xs'). split; [|split; [exact Hp|]].
        + apply so_many; [exact HR| |exact He|exact Hx]. cbn. intros ->. apply Permutation_sym, Permutation_nil in HP. auto.
        + split; apply Permutation_flat_map; exact Hpx. }
    destruct HX as (files' & reqs' & errs' & H1 & H2 & H3 & H4). exists files', reqs', errs'.
    repeat (split; [assumption|]). intros HN. split; [apply repeats_none; exact HN|]. split.
    - apply repeats_none. eapply Permutation_NoDup; [apply Permutation_map; exact H3|exact HN].
    - intros id. apply find_perm; [exact H3|]. intros x y Hx Hy Ex Ey. apply eqb_true in Ex. apply eqb_true in Ey.
      apply (nodup_map_inj req_id reqs HN x y Hx Hy). congruence.
  Qed.

  Lemma path_order_run base ac ps' files reqs errs : ac_parser ac = PRust -> Permutation (ac_paths ac) ps' ->
    (forall e, ~ expansion_fails base (ac_paths ac) e) ->
    parse_files ac base = Done (files, reqs, errs) ->
    exists files' reqs' errs', parse_files (with_paths ac ps') base = Done (files', reqs', errs') /\
      Permutation files files' /\ Permutation reqs reqs' /\ Permutation errs errs' /\
      (NoDup (map req_id reqs) ->
       exists m, parse_from_config ac base = Done (files, m, errs) /\
                 parse_from_config (with_paths ac ps') base = Done (files', m, errs')).
  Proof.
    intros HR HP HF HD. pose proof (parse_files_spec ac base) as HS. rewrite HD in HS.
    destruct (path_order base ac ps' files reqs errs HR HP HF HS) as (files' & reqs' & errs' & HS' & P1 & P2 & P3 & HN).
    pose proof (parse_files_spec (with_paths ac ps') base) as HQ.
    destruct (parse_files (with_paths ac ps') base) as [[[f q] e]|] eqn:E.
    2:{ destruct HQ as (g & Ho & Hp). elim (sources_not_panics _ _ _ _ _ _ HS' Ho Hp). }
    destruct (sources_unique _ _ _ _ _ _ _ _ HQ HS') as (-> & -> & ->).
    exists files', reqs', errs'. split; [reflexivity|]. repeat (split; [assumption|]). intros H.
    destruct (HN H) as (R1 & R2 & HW). unfold parse_from_config. rewrite HD, E. cbn [obind]. cbv zeta.
    destruct (fold_store reqs [] [] errs) as (m & E1 & S1 & G1); [constructor|reflexivity|].
    destruct (fold_store reqs' [] [] errs') as (m' & E2 & S2 & G2); [constructor|reflexivity|].
    setoid_rewrite E1. setoid_rewrite E2. cbn [fst snd]. rewrite R1, R2, !app_nil_r. exists m. split; [reflexivity|].
    repeat f_equal. apply osorted_ext; [exact S2|exact S1|]. intros id. rewrite G1, G2. cbn [app]. symmetry. apply HW.
  Qed.
End DocCtl.
