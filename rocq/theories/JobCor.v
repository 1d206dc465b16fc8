(** Consequences: soundness of success, what is written where. *)
From Coq Require Import Permutation Sorting.Sorted.
From Verif Require Import Base OMap Models Unicode Utf8 Paths MdParser MonoParser RustParser Tracer
  TraceSpec TraceIndex TraceFacts TraceCor Aggregator AggFacts Show Sort Serialize GnuErr Tags MdFmt Formatters
  Controller FmtSpec FmtFacts CtlSpec CtlFacts JobFacts.
Open Scope N_scope.

(** ** Unique ids *)
Lemma NoDup_flat_map_disjoint {A B} (f : A -> list B) l :
  (forall a, In a l -> NoDup (f a)) ->
  ForallOrdPairs (fun a b => forall x, In x (f a) -> ~ In x (f b)) l ->
  NoDup (flat_map f l).
Proof.
  intros H1 H2. induction H2 as [|a l HF _ IH]; cbn [flat_map]; [constructor|].
  rewrite Forall_forall in HF.
  assert (HN : NoDup (f a)) by (apply H1; left; reflexivity).
  assert (HI : NoDup (flat_map f l)) by (apply IH; intros x Hx; apply H1; right; exact Hx).
  assert (HD : forall x, In x (f a) -> ~ In x (flat_map f l)).
  { intros x Hx Hy. apply in_flat_map in Hy. destruct Hy as (b & Hb & Hy). exact (HF b Hb x Hx Hy). }
  clear -HN HI HD. induction HN as [|x l' Hx HN IH]; cbn [app]; [exact HI|].
  constructor.
  - rewrite in_app_iff. intros [H|H]; [exact (Hx H)|]. exact (HD x (or_introl eq_refl) H).
  - apply IH. intros y Hy. apply HD. right. exact Hy.
Qed.

Section Sound.
  Variable g : graph.
  Hypothesis WF : graph_wf g.

  Lemma reqs_of_entry k a : In (k, a) (g_artefacts g) -> reqs_of g k = ovalues (art_requirements a).
  Proof. intros H. unfold reqs_of. rewrite (In_oget _ _ _ (proj1 WF) H). reflexivity. Qed.

  Lemma no_dup_errors : dup_errors g = [] ->
    forall k a r, In (k, a) (g_artefacts g) -> In r (ovalues (art_requirements a)) ->
      defined_before g k (req_id r) = false.
  Proof.
    intros HD k a r Hk Hr. destruct (defined_before g k (req_id r)) eqn:E; [|reflexivity].
    exfalso. assert (X : dup_errors_of g k r = []).
    { unfold dup_errors in HD.
      assert (HE : forall e, In e (g_artefacts g) ->
                flat_map (dup_errors_of g (fst e)) (ovalues (art_requirements (snd e))) = []).
      { clear -HD. induction (g_artefacts g) as [|e m IH]; [intros ? []|]. cbn [flat_map] in HD.
        apply app_eq_nil in HD. destruct HD as [H1 H2]. intros x [<-|Hx]; [exact H1|apply IH; assumption]. }
      specialize (HE _ Hk). cbn [fst snd] in HE. clear -HE Hr.
      induction (ovalues (art_requirements a)) as [|r0 l IH]; [destruct Hr|]. cbn [flat_map] in HE.
      apply app_eq_nil in HE. destruct HE as [H1 H2]. destruct Hr as [->|Hr]; [exact H1|auto]. }
    unfold dup_errors_of in X. rewrite E in X.
    destruct (first_of g (req_id r)) as [r0|] eqn:F; [discriminate|].
    unfold first_of in F. assert (HI : In r (all_reqs g)).
    { unfold all_reqs. apply in_flat_map. exists (k, a). auto. }
    pose proof (find_none _ _ F r HI) as Y. cbn in Y. rewrite eqb_refl in Y. discriminate.
  Qed.

  Lemma dup_errors_unique : dup_errors g = [] <-> unique_ids g.
  Proof.
    split.
    - intros HD. unfold unique_ids, all_reqs.
      assert (E : map req_id (flat_map (fun e => ovalues (art_requirements (snd e))) (g_artefacts g)) =
                  flat_map (fun e => map req_id (ovalues (art_requirements (snd e)))) (g_artefacts g)).
      { induction (g_artefacts g) as [|e m IH]; cbn [flat_map map]; [reflexivity|]. rewrite map_app, IH. reflexivity. }
      rewrite E. apply NoDup_flat_map_disjoint.
      + intros [k a] Hk. cbn [snd]. rewrite <- (reqs_of_entry k a Hk). apply reqs_of_nodup. exact WF.
      + pose proof (proj1 WF) as HS. unfold osorted, okeys in HS.
        pose proof (no_dup_errors HD) as HN.
        assert (HI : forall e, In e (g_artefacts g) -> In e (g_artefacts g)) by auto.
        revert HI HS. generalize (g_artefacts g) at 1 3 4 as m. induction m as [|[k a] m IH]; intros HI HS; [constructor|].
        cbn [map fst] in HS. apply StronglySorted_inv in HS. destruct HS as [HS HF].
        constructor; [|apply IH; [intros e He; apply HI; right; exact He|exact HS]].
        apply Forall_forall. intros [k' a'] He x Hx Hy. cbn [snd] in Hx, Hy.
        apply in_map_iff in Hx. destruct Hx as (r & <- & Hr).
        apply in_map_iff in Hy. destruct Hy as (r' & E' & Hr').
        assert (X : defined_before g k' (req_id r') = true).
        { unfold defined_before. apply existsb_exists. exists (k, a). split; [apply HI; left; reflexivity|].
          cbn [fst snd]. apply andb_true_iff. split.
          - rewrite Forall_forall in HF. assert (HL : lt k k') by (apply HF; apply in_map_iff; exists (k', a'); auto).
            unfold lt in HL. rewrite HL. reflexivity.
          - apply existsb_exists. exists r. split; [exact Hr|]. apply eqb_true. congruence. }
        rewrite (HN k' a' r' (HI _ (or_intror He)) Hr') in X. discriminate.
    - intros HU. unfold dup_errors. apply flat_map_nil_iff. intros [k a] Hk. cbn [fst snd].
      apply flat_map_nil_iff. intros r Hr. unfold dup_errors_of.
      assert (HF : In r (first_defs g k)).
      { rewrite (unique_first_defs g WF k HU), (reqs_of_entry k a Hk). exact Hr. }
      apply filter_In in HF. destruct HF as [_ HF]. apply negb_true_iff in HF. rewrite HF. reflexivity.
  Qed.

  Variable tg : traced_graph.
  Hypothesis TR : trace g = Done tg.

  Lemma relation_errors_nil rel : relation_errors g rel = [] <->
    (exists l, is_link g rel l) /\
    forall l, is_link g rel l ->
      match ref_title (lk_ref l) with
      | Some t => req_title (referenced l) = Some t
      | None => wants_title g (referenced_artefact rel l) = false
      end.
  Proof.
    unfold relation_errors, unused_errors. split.
    - intros H. apply app_eq_nil in H. destruct H as [H1 H2]. split.
      + destruct (links g rel) as [|l ls] eqn:E; [discriminate|]. exists l. apply in_links. rewrite E. left. reflexivity.
      + intros l Hl. apply in_links in Hl. rewrite flat_map_nil_iff in H1. specialize (H1 l Hl).
        unfold link_errors, wrong_title_errors, missing_title_errors in H1. destruct (ref_title (lk_ref l)) as [t|].
        * destruct (option_eqb str_eqb (Some t) (req_title (referenced l))) eqn:E; [|discriminate].
          destruct (req_title (referenced l)) as [t'|]; [|discriminate]. cbn in E. apply eqb_true in E. congruence.
        * cbn [app] in H1. destruct (wants_title g (referenced_artefact rel l)); [discriminate|reflexivity].
    - intros [(l & Hl) H]. apply in_links in Hl.
      assert (E : is_nil (links g rel) = false) by (destruct (links g rel); [destruct Hl|reflexivity]).
      rewrite E, app_nil_r. apply flat_map_nil_iff. intros l' Hl'. apply in_links in Hl'. specialize (H l' Hl').
      unfold link_errors, wrong_title_errors, missing_title_errors. destruct (ref_title (lk_ref l')) as [t|].
      + rewrite H. cbn [option_eqb]. unfold str_eqb. rewrite eqb_refl. reflexivity.
      + rewrite H. reflexivity.
  Qed.

  (** No errors, nothing uncovered, nothing derived. *)
  Definition spotless : Prop :=
    tg_errors tg = [] /\
    (forall a, In a (ovalues (tg_artefacts tg)) -> art_errors a = []) /\
    (forall t, In t (tg_relations tg) -> tr_uncovered t = []) /\
    (forall d, In d (ovalues (tg_derived tg)) -> d = []).

  Lemma covers_error_nonempty u l : dangling_covers g u l -> covers_error g (u, l) <> [].
  Proof.
    intros [(low & c & H1 & H2 & H3) _]. unfold covers_error. cbn [fst snd]. rewrite H1.
    unfold first_location. destruct (find (fun r => eqb (ref_id r) u) (req_covers low)) as [x|] eqn:E; [discriminate|].
    pose proof (find_none _ _ E c H2) as X. cbn in X. subst u. rewrite eqb_refl in X. discriminate.
  Qed.
  Lemma depends_error_nonempty u l : dangling_depends g u l -> depends_error g (u, l) <> [].
  Proof.
    intros [(up & d & H1 & H2 & H3) _]. unfold depends_error. cbn [fst snd]. rewrite H1.
    unfold first_location. destruct (find (fun r => eqb (ref_id r) l) (req_depends up)) as [x|] eqn:E; [discriminate|].
    pose proof (find_none _ _ E d H2) as X. cbn in X. subst l. rewrite eqb_refl in X. discriminate.
  Qed.

  Theorem spotless_sound : spotless <-> sound_project g.
  Proof.
    destruct (trace_done g WF tg TR) as (pc & pd & A1 & _ & _ & _ & Hpc & _ & Hpd & HE).
    pose proof (tg_rels g WF tg TR) as HR. pose proof (tg_der g WF tg TR) as HD.
    unfold spotless. rewrite A1. split.
    - intros (H1 & H2 & H3 & H4). rewrite HE in H1.
      apply app_eq_nil in H1. destruct H1 as [E1 H1]. apply app_eq_nil in H1. destruct H1 as [E2 H1].
      apply app_eq_nil in H1. destruct H1 as [E3 E4].
      pose proof (proj1 dup_errors_unique E1) as HU.
      pose proof (proj1 (flat_map_nil_iff _ _) E2) as F2. pose proof (proj1 (flat_map_nil_iff _ _) E3) as F3.
      pose proof (proj1 (flat_map_nil_iff _ _) E4) as F4. clear E2 E3 E4.
      pose proof (fun rel Hrel => proj1 (relation_errors_nil rel) (F2 rel Hrel)) as ER.
      assert (EC : forall u l, ~ dangling_covers g u l).
      { intros u l X. apply (covers_error_nonempty u l X). apply F3. apply Hpc. exact X. }
      assert (EDp : forall u l, ~ dangling_depends g u l).
      { intros u l X. apply (depends_error_nonempty u l X). apply F4. apply Hpd. exact X. }
      split.
      + exact H2.
      + exact HU.
      + intros rel r Hrel Hr. apply (is_nil_links_of g rel r Hr).
        assert (X : uncovered_reqs g rel = []).
        { apply (map_eq_nil req_id). apply (H3 (mkTracedRelation rel (map link_coverage (links g rel)) (map req_id (uncovered_reqs g rel)))).
          rewrite HR. apply in_map_iff. exists rel. auto. }
        destruct (is_nil (links_of g rel r)) eqn:E; [|reflexivity].
        assert (Y : In r (uncovered_reqs g rel)) by (apply filter_In; auto). rewrite X in Y. destruct Y.
      + intros rel Hrel. apply (ER rel Hrel).
      + intros k r c Hr Hc. destruct (linked_dec g Upwards (ref_id c) (req_id r)) as [X|X]; [exact X|].
        exfalso. apply (EC (ref_id c) (req_id r)). split; [|exact X].
        exists r, c. split; [exact (reqs_of_first g WF k r HU Hr)|auto].
      + intros k r d Hr Hd. destruct (linked_dec g Downwards (req_id r) (ref_id d)) as [X|X]; [exact X|].
        exfalso. apply (EDp (req_id r) (ref_id d)). split; [|exact X].
        exists r, d. split; [exact (reqs_of_first g WF k r HU Hr)|auto].
      + intros rel l Hrel Hl. apply (ER rel Hrel). exact Hl.
      + intros k a r Ha Hi Hr.
        assert (X : derived_reqs g k a = []).
        { apply (map_eq_nil req_id). apply H4. rewrite HD. apply ovalues_In. exists k. apply in_map_iff.
          exists (k, a). split; [reflexivity|]. apply oget_Some_In. exact Ha. }
        unfold derived_reqs in X. rewrite Hi in X.
        assert (HF : In r (first_defs g k)) by (rewrite (unique_first_defs g WF k HU); exact Hr).
        apply (covers_along_spec g WF k r HF).
        destruct (existsb (covers_along g k r) (g_relations g)) eqn:E; [reflexivity|].
        assert (Y : In r (filter (fun r => negb (existsb (covers_along g k r) (g_relations g))) (first_defs g k)))
          by (apply filter_In; rewrite E; auto).
        rewrite X in Y. destruct Y.
    - intros HS. pose proof (so_unique g HS) as HU. split; [|split; [|split]].
      + rewrite HE, (proj2 dup_errors_unique HU).
        assert (X1 : flat_map (relation_errors g) (g_relations g) = []).
        { apply flat_map_nil_iff. intros rel Hrel. apply relation_errors_nil. split; [apply (so_used g HS rel Hrel)|].
          intros l Hl. exact (so_titles g HS rel l Hrel Hl). }
        assert (X2 : flat_map (covers_error g) pc = []).
        { apply flat_map_nil_iff. intros [u l] Hp. apply Hpc in Hp. exfalso. destruct Hp as [(low & c & F & H1 & H2) HN].
          apply HN. subst u. apply (first_of_spec g WF) in F. destruct F as (<- & k & a & _ & Hlow).
          apply filter_In in Hlow. destruct Hlow as [Hlow _]. exact (so_covers g HS k low c Hlow H1). }
        assert (X3 : flat_map (depends_error g) pd = []).
        { apply flat_map_nil_iff. intros [u l] Hp. apply Hpd in Hp. exfalso. destruct Hp as [(up & d & F & H1 & H2) HN].
          apply HN. subst l. apply (first_of_spec g WF) in F. destruct F as (<- & k & a & _ & Hup).
          apply filter_In in Hup. destruct Hup as [Hup _]. exact (so_depends g HS k up d Hup H1). }
        rewrite X1, X2, X3. reflexivity.
      + apply (so_parsed g HS).
      + intros t Ht. rewrite HR in Ht. apply in_map_iff in Ht. destruct Ht as (rel & <- & Hrel). cbn [tr_uncovered].
        destruct (uncovered_reqs g rel) as [|r l] eqn:E; [reflexivity|]. exfalso.
        assert (Hr : In r (uncovered_reqs g rel)) by (rewrite E; left; reflexivity).
        apply filter_In in Hr. destruct Hr as [Hr HN].
        pose proof (so_covered g HS rel r Hrel Hr) as HC. apply (is_nil_links_of g rel r Hr) in HC. congruence.
      + intros d Hd. rewrite HD in Hd. apply ovalues_In in Hd. destruct Hd as [k Hd]. apply in_map_iff in Hd.
        destruct Hd as ([k' a] & E & Hk). cbn [fst snd] in E. inversion E; subst. clear E.
        destruct (derived_reqs g k a) as [|r l] eqn:E; [reflexivity|]. exfalso.
        assert (Hr : In r (derived_reqs g k a)) by (rewrite E; left; reflexivity).
        pose proof (derived_reqs_in g k a r Hr) as Hr'.
        unfold derived_reqs in Hr. destruct (art_ignore_derived a) eqn:Hi; [destruct Hr|].
        apply filter_In in Hr. destruct Hr as [HF HN].
        pose proof (so_underived g HS k a r (In_oget _ _ _ (proj1 WF) Hk) Hi Hr') as HC.
        apply (covers_along_spec g WF k r HF) in HC. rewrite HC in HN. discriminate.
  Qed.
End Sound.

Section JobCor.
  Context {U : UnicodeTables} {D : Debug} {US : UnstableSort} {CT : CaseTables} {J : JsonText}
    {I : Inputs} {O : Outputs}.

  Lemma clean_trace c : well_made c -> (clean c QTrace <-> sound_project (ctl_graph c)).
  Proof. intros (WF & HT & _). apply (spotless_sound _ WF _ HT). Qed.

  (** ** What the exit status says *)
  Lemma in_combine_run c js : forall h ss h' j,
    all_run c js h ss h' -> In j js -> exists s h1 h2, In (j, s) (combine js ss) /\ run c j h1 = (h2, ROkay s).
  Proof.
    intros h ss h' j H. induction H as [h|i js h s0 h1 ss h2 HR _ IH]; intros Hj; [destruct Hj|]. cbn [combine].
    destruct Hj as [->|Hj].
    - exists s0, h, h1. split; [left; reflexivity|exact HR].
    - destruct (IH Hj) as (s' & h3 & h4 & H1 & H2). exists s', h3, h4. split; [right; exact H1|exact H2].
  Qed.
  Lemma combine_run_in c js : forall h ss h' j s,
    all_run c js h ss h' -> In (j, s) (combine js ss) -> In j js /\ exists h1 h2, run c j h1 = (h2, ROkay s).
  Proof.
    intros h ss h' j s H. induction H as [h|i js h s0 h1 ss h2 HR _ IH]; cbn [combine]; [intros []|].
    intros [E|E].
    - inversion E; subst. split; [left; reflexivity|eauto].
    - destruct (IH E) as [H1 H2]. split; [right; exact H1|exact H2].
  Qed.

  Lemma detected_iff c js h ss h' :
    all_run c js h ss h' ->
    (some_detected js ss <-> exists j, In j js /\ counts j /\ ~ clean c (job_query j)).
  Proof.
    intros HA. split.
    - intros (j & Hin & HC). destruct (combine_run_in c js h ss h' j _ HA Hin) as [Hj (h1 & h2 & HR)].
      exists j. split; [exact Hj|]. split; [exact HC|]. intros X. apply (run_success c j h1 h2 _ HR) in X. discriminate.
    - intros (j & Hj & HC & HN). destruct (in_combine_run c js h ss h' j HA Hj) as (s & h1 & h2 & Hin & HR).
      exists j. split; [|exact HC]. destruct s; [|exact Hin]. elim HN. apply (run_success c j h1 h2 _ HR). reflexivity.
  Qed.

  (** ** Where output goes *)
  Lemma effects_concern c j ev r : effects c j ev r -> Forall (concerns c j) ev.
  Proof.
    assert (HO : forall ev r, opens c j ev r -> Forall (concerns c j) ev /\
                   (forall k, r = ROkay k -> forall t m, concerns c j (EvWrite k t m))).
    { intros ev0 r0 [E|d m E EP|pre q E HP].
      - split; [constructor|]. intros k X. inversion X; subst. intros t m. exact E.
      - split; [repeat constructor; assumption|discriminate].
      - split.
        + apply Forall_app. split; [|repeat constructor; exact E].
          destruct HP as [[-> _]|(d & HD & ->)]; [constructor|]. repeat constructor; assumption.
        + destruct q; [discriminate|]. intros k X. inversion X; subst. intros t m. cbn. auto. }
    intros H. destruct H as [ev e H|ev k H _|ev k t n m H _|ev k t s H _ _]; destruct (HO _ _ H) as [H1 H2].
    - exact H1.
    - exact H1.
    - apply Forall_app. split; [exact H1|]. repeat constructor. apply H2. reflexivity.
    - apply Forall_app. split; [exact H1|]. repeat constructor. apply H2. reflexivity.
  Qed.

  Lemma all_run_history c js h ss h' : all_run c js h ss h' ->
    exists ev, h' = h ++ ev /\ faithful h ev /\ Forall (fun e => exists j, In j js /\ concerns c j e) ev.
  Proof.
    intros H. induction H as [h|j js h s h1 ss h2 HR _ IH].
    - exists []. rewrite app_nil_r. split; [reflexivity|]. split; constructor.
    - destruct (run_cases c j h h1 _ HR) as (ev1 & -> & F1 & E1). destruct IH as (ev2 & -> & F2 & E2).
      exists (ev1 ++ ev2). rewrite app_assoc. split; [reflexivity|]. split; [apply faithful_app; assumption|].
      apply Forall_app. split.
      + eapply Forall_impl; [|apply (effects_concern c j ev1 _ E1)]. intros e He. exists j. split; [left; reflexivity|exact He].
      + eapply Forall_impl; [|exact E2]. intros e (i & Hi & He). exists i. split; [right; exact Hi|exact He].
  Qed.

  Lemma by_name_history c names h h' r :
    run_jobs_by_name c names h = (h', r) ->
    exists ev, h' = h ++ ev /\ faithful h ev /\
      Forall (fun e => exists n j, In n names /\ oget n (ctl_jobs c) = Some j /\ concerns c j e) ev.
  Proof.
    assert (HN : forall js j, jobs_named c names js -> In j js -> exists n, In n names /\ oget n (ctl_jobs c) = Some j).
    { intros js j H. induction H as [|n i ns js Hn _ IH]; [intros []|]. intros [->|Hj].
      - exists n. split; [left; reflexivity|exact Hn].
      - destruct (IH Hj) as (m & H1 & H2). exists m. split; [right; exact H1|exact H2]. }
    destruct r as [s|e|]; intros H.
    - destruct (proj1 (by_name_ok c names h h' s) H) as (js & ss & H1 & H2 & _).
      destruct (all_run_history c js h ss h' H2) as (ev & -> & F & HF). exists ev. split; [reflexivity|]. split; [exact F|].
      eapply Forall_impl; [|exact HF]. intros x (j & Hj & Hc). destruct (HN js j H1 Hj) as (n & X & Y). eauto.
    - destruct (proj1 (by_name_fails c names h h' (RFail e) Logic.I) H) as [(n & _ & -> & _)|(js & pre & j & post & ss & h1 & H1 & -> & H2 & H3)].
      + exists []. rewrite app_nil_r. split; [reflexivity|]. split; constructor.
      + destruct (all_run_history c pre h ss h1 H2) as (ev & -> & F & HF).
        destruct (run_cases c j _ h' _ H3) as (ev2 & -> & F2 & E2). exists (ev ++ ev2). rewrite app_assoc.
        split; [reflexivity|]. split; [apply faithful_app; assumption|]. apply Forall_app. split.
        * eapply Forall_impl; [|exact HF]. intros x (i & Hi & Hc).
          destruct (HN _ i H1) as (n & X & Y); [apply in_or_app; left; exact Hi|]. eauto.
        * eapply Forall_impl; [|apply (effects_concern c j ev2 _ E2)]. intros x Hc.
          destruct (HN _ j H1) as (n & X & Y); [apply in_or_app; right; left; reflexivity|]. eauto.
    - destruct (proj1 (by_name_fails c names h h' RPanic Logic.I) H) as [(n & _ & -> & _)|(js & pre & j & post & ss & h1 & H1 & -> & H2 & H3)].
      + exists []. rewrite app_nil_r. split; [reflexivity|]. split; constructor.
      + destruct (all_run_history c pre h ss h1 H2) as (ev & -> & F & HF).
        destruct (run_cases c j _ h' _ H3) as (ev2 & -> & F2 & E2). exists (ev ++ ev2). rewrite app_assoc.
        split; [reflexivity|]. split; [apply faithful_app; assumption|]. apply Forall_app. split.
        * eapply Forall_impl; [|exact HF]. intros x (i & Hi & Hc).
          destruct (HN _ i H1) as (n & X & Y); [apply in_or_app; left; exact Hi|]. eauto.
        * eapply Forall_impl; [|apply (effects_concern c j ev2 _ E2)]. intros x Hc.
          destruct (HN _ j H1) as (n & X & Y); [apply in_or_app; right; left; reflexivity|]. eauto.
  Qed.

  (** ** Panics *)
  Lemma run_panics c j h h' :
    well_made c ->
    (run c j h = (h', RPanic) <->
     ~ supported (job_query j) (job_format j) /\ exists k, open_output c j h = (h', ROkay k)).
  Proof.
    intros WM. unfold run. rewrite <- (job_text_panics c j WM).
    destruct (open_output c j h) as [h1 [k|e|]] eqn:EO.
    - destruct (job_text c j) as [t|].
      + split; [|intros [X _]; discriminate]. destruct (out_write h1 k t) as [[n m]|]; discriminate.
      + split; [intros X; inversion X; subst; eauto|]. intros [_ (k' & X)]. inversion X; subst. reflexivity.
    - split; [discriminate|]. intros [_ (k' & X)]. discriminate.
    - exfalso. pose proof (open_output_cases c j h) as HO. rewrite EO in HO. destruct HO as (ev & _ & _ & HO).
      remember RPanic as r0 eqn:E0. destruct HO as [| |pre q]; try discriminate. destruct q; discriminate.
  Qed.

  (** A file whose job is not supported is emptied before the panic. *)
  Lemma unsupported_truncates c j h :
    well_made c -> ~ supported (job_query j) (job_format j) -> job_file j <> L "-" ->
    forall h' r, run c j h = (h', r) ->
      (r = RPanic /\ exists pre, h' = h ++ pre ++ [EvCreate (output_path c j) None]) \/
      (exists e, r = RFail e).
  Proof.
    intros WM HN HF h' r HR. destruct (run_cases c j h h' r HR) as (ev & -> & _ & HE).
    assert (HP : job_text c j = Panic) by (apply (job_text_panics c j WM); exact HN).
    destruct HE as [ev e H|ev k H _|ev k t n m H X|ev k t s H X _]; try congruence.
    - right. eauto.
    - left. split; [reflexivity|]. remember (ROkay k) as r0 eqn:E0. destruct H as [E|d m E EP|pre q E HP'].
      + contradiction.
      + discriminate.
      + destruct q; [discriminate|]. eauto.
  Qed.
End JobCor.
