(** Consequences of [trace_exact] used by PropsTrace.v. *)
From Verif Require Import Base OMap Models Tracer TraceSpec TraceIndex TraceFacts.
From Coq Require Import Sorting.Sorted Permutation.

(** Error classes *)
Definition is_dup (e : error) := match e with EDuplicateRequirement _ _ => true | _ => false end.
Definition is_wrong_title (e : error) :=
  match e with EDependWithWrongTitle _ _ _ _ | ECoveredWithWrongTitle _ _ _ _ => true | _ => false end.
Definition is_missing_title (e : error) :=
  match e with EReferencedWithoutTitle _ _ => true | _ => false end.
Definition is_unused (e : error) := match e with EUnusedRelation _ => true | _ => false end.
Definition is_covers_unknown (e : error) :=
  match e with ECoversUnknownRequirement _ _ _ => true | _ => false end.
Definition is_depends_unknown (e : error) :=
  match e with EDependOnUnknownRequirement _ _ _ => true | _ => false end.

Lemma filter_flat_map {A B} (p : B -> bool) (f : A -> list B) l :
  filter p (flat_map f l) = flat_map (fun a => filter p (f a)) l.
Proof. induction l as [|a l IH]; cbn; [reflexivity|]. rewrite filter_app, IH. reflexivity. Qed.

Lemma flat_map_nil {A B} (f : A -> list B) l : (forall a, f a = []) -> flat_map f l = [].
Proof. intros Hf. apply flat_map_nil_iff. auto. Qed.

Section Cor.
  Variable g : graph.

  Lemma filter_dup_errors p :
    (forall a b, p (EDuplicateRequirement a b) = false) -> filter p (dup_errors g) = [].
  Proof.
    intros Hp. unfold dup_errors. rewrite filter_flat_map. apply flat_map_nil. intros e.
    rewrite filter_flat_map. apply flat_map_nil. intros r. unfold dup_errors_of.
    destruct (defined_before _ _ _); [|reflexivity].
    destruct (first_of _ _); [|reflexivity]. cbn. rewrite Hp. reflexivity.
  Qed.

  Lemma filter_dup_errors_id : filter is_dup (dup_errors g) = dup_errors g.
  Proof.
    unfold dup_errors. rewrite filter_flat_map. apply flat_map_ext_in. intros e _.
    rewrite filter_flat_map. apply flat_map_ext_in. intros r _. unfold dup_errors_of.
    destruct (defined_before _ _ _); [|reflexivity]. destruct (first_of _ _); reflexivity.
  Qed.

  Lemma filter_covers_error p l :
    (forall a b c, p (ECoversUnknownRequirement a b c) = false) ->
    filter p (flat_map (covers_error g) l) = [].
  Proof.
    intros Hp. rewrite filter_flat_map. apply flat_map_nil. intros q. unfold covers_error.
    destruct (first_of _ _); [|reflexivity]. destruct (first_location _ _); [|reflexivity].
    cbn. rewrite Hp. reflexivity.
  Qed.

  Lemma filter_depends_error p l :
    (forall a b c, p (EDependOnUnknownRequirement a b c) = false) ->
    filter p (flat_map (depends_error g) l) = [].
  Proof.
    intros Hp. rewrite filter_flat_map. apply flat_map_nil. intros q. unfold depends_error.
    destruct (first_of _ _); [|reflexivity]. destruct (first_location _ _); [|reflexivity].
    cbn. rewrite Hp. reflexivity.
  Qed.

  Lemma filter_wrong p l :
    filter p (wrong_title_errors l) =
    match wrong_title_errors l with
    | [e] => if p e then [e] else []
    | _ => []
    end.
  Proof.
    unfold wrong_title_errors. destruct (ref_title _); [|reflexivity].
    destruct (option_eqb _ _ _); reflexivity.
  Qed.

  Lemma filter_relation_errors (p : error -> bool) rel :
    filter p (relation_errors g rel) =
    flat_map (fun l => filter p (wrong_title_errors l) ++ filter p (missing_title_errors g rel l))
             (links g rel) ++ filter p (unused_errors g rel).
  Proof.
    unfold relation_errors. rewrite filter_app, filter_flat_map. f_equal.
    apply flat_map_ext_in. intros l _. apply filter_app.
  Qed.

  Lemma wrong_none p l :
    (forall a b c d, p (EDependWithWrongTitle a b c d) = false) ->
    (forall a b c d, p (ECoveredWithWrongTitle a b c d) = false) ->
    filter p (wrong_title_errors l) = [].
  Proof.
    intros H1 H2. unfold wrong_title_errors. destruct (ref_title _); [|reflexivity].
    destruct (option_eqb _ _ _); [reflexivity|]. cbn. destruct (lk_dir l); rewrite ?H1, ?H2; reflexivity.
  Qed.

  Lemma wrong_all l : filter is_wrong_title (wrong_title_errors l) = wrong_title_errors l.
  Proof.
    unfold wrong_title_errors. destruct (ref_title _); [|reflexivity].
    destruct (option_eqb _ _ _); [reflexivity|]. cbn. destruct (lk_dir l); reflexivity.
  Qed.

  Lemma missing_none p rel l :
    (forall a b, p (EReferencedWithoutTitle a b) = false) ->
    filter p (missing_title_errors g rel l) = [].
  Proof.
    intros H1. unfold missing_title_errors. destruct (ref_title _); [reflexivity|].
    destruct (wants_title _ _); [|reflexivity]. cbn. rewrite H1. reflexivity.
  Qed.

  Lemma missing_all rel l :
    filter is_missing_title (missing_title_errors g rel l) = missing_title_errors g rel l.
  Proof.
    unfold missing_title_errors. destruct (ref_title _); [reflexivity|].
    destruct (wants_title _ _); reflexivity.
  Qed.

  Lemma unused_none p rel :
    (forall r, p (EUnusedRelation r) = false) -> filter p (unused_errors g rel) = [].
  Proof.
    intros H1. unfold unused_errors. destruct (is_nil _); [|reflexivity]. cbn. rewrite H1. reflexivity.
  Qed.

  Hypothesis WF : graph_wf g.
  Variable tg : traced_graph.
  Hypothesis TR : trace g = Done tg.

  Lemma trace_done_ok : forall rel, In rel (g_relations g) -> relation_ok g rel.
  Proof.
    destruct (relations_ok_dec g) as [H|H]; [exact H|].
    rewrite (trace_panic g WF H) in TR. discriminate.
  Qed.

  Lemma trace_done :
    exists pc pd,
      tg_artefacts tg = g_artefacts g /\
      tg_relations tg = map (traced_of g) (g_relations g) /\
      (osorted (tg_derived tg) /\ okeys (tg_derived tg) = okeys (g_artefacts g) /\
       forall k a, oget k (g_artefacts g) = Some a ->
         exists d, oget k (tg_derived tg) = Some d /\ ssorted d /\
           forall id, In id d <->
             art_ignore_derived a = false /\
             exists r, In r (first_defs g k) /\ req_id r = id /\ ~ covers_something g k r) /\
      ssorted pc /\ (forall u l, In (u, l) pc <-> dangling_covers g u l) /\
      ssorted pd /\ (forall u l, In (u, l) pd <-> dangling_depends g u l) /\
      tg_errors tg = dup_errors g ++ flat_map (relation_errors g) (g_relations g) ++
                     flat_map (covers_error g) pc ++ flat_map (depends_error g) pd.
  Proof.
    destruct (trace_exact g WF trace_done_ok) as (tg' & pc & pd & E & Hrest).
    assert (tg' = tg) by congruence. subst tg'. exists pc, pd. exact Hrest.
  Qed.

  (** ** C01, C02 *)
  Lemma coverage_exact tr c :
    In tr (tg_relations tg) ->
    In (tr_relation tr) (g_relations g) /\
    (In c (tr_covered tr) <-> exists l, is_link g (tr_relation tr) l /\ link_coverage l = c).
  Proof.
    destruct trace_done as (pc & pd & _ & Hrel & _). rewrite Hrel. intros Hin.
    apply in_map_iff in Hin. destruct Hin as (rel & <- & Hin). cbn. split; [exact Hin|].
    rewrite in_map_iff. split; intros (l & H1 & H2); exists l; rewrite in_links in *; auto.
  Qed.

  Lemma coverage_list :
    map tr_covered (tg_relations tg) = map (fun rel => map link_coverage (links g rel)) (g_relations g).
  Proof.
    destruct trace_done as (pc & pd & _ & Hrel & _). rewrite Hrel, map_map. reflexivity.
  Qed.

  Lemma is_nil_links_of rel up :
    In up (reqs_of g (rel_upper rel)) ->
    (is_nil (links_of g rel up) = false <-> covered_along g rel up).
  Proof.
    intros Hup. rewrite is_nil_false. unfold covered_along. split.
    - intros Hn. destruct (links_of g rel up) as [|l ls] eqn:E; [congruence|].
      assert (Hin : In l (links_of g rel up)) by (rewrite E; left; reflexivity).
      exists l. apply in_links_of in Hin. unfold is_link. destruct Hin as (<- & Hrest). auto.
    - intros (l & Hl & <-) He. destruct Hl as (_ & H1).
      assert (Hin : In l (links_of g rel (lk_upper l))) by (apply in_links_of; auto).
      rewrite He in Hin. destruct Hin.
  Qed.

  Lemma coverage_of_id rel up :
    In up (reqs_of g (rel_upper rel)) ->
    (covered_along g rel up <->
     exists c, In c (map link_coverage (links g rel)) /\ cov_upper c = req_id up).
  Proof.
    intros Hup. split.
    - intros (l & Hl & <-). exists (link_coverage l). split; [|reflexivity].
      apply in_map, in_links. exact Hl.
    - intros (c & Hc & Hid). apply in_map_iff in Hc. destruct Hc as (l & <- & Hl).
      apply in_links in Hl. exists l. split; [exact Hl|]. cbn in Hid.
      destruct Hl as (Hu & _).
      pose proof (find_nodup_in _ _ (reqs_of_nodup g WF (rel_upper rel)) Hu) as F1.
      pose proof (find_nodup_in _ _ (reqs_of_nodup g WF (rel_upper rel)) Hup) as F2.
      rewrite Hid in F1. congruence.
  Qed.

  Lemma uncovered_exact tr :
    In tr (tg_relations tg) ->
    ssorted (tr_uncovered tr) /\
    forall id, In id (tr_uncovered tr) <->
      In id (map req_id (reqs_of g (rel_upper (tr_relation tr)))) /\
      ~ exists c, In c (tr_covered tr) /\ cov_upper c = id.
  Proof.
    destruct trace_done as (pc & pd & _ & Hrel & _). rewrite Hrel. intros Hin.
    apply in_map_iff in Hin. destruct Hin as (rel & <- & Hin). cbn [traced_of tr_relation tr_covered tr_uncovered].
    split; [apply map_filter_sorted, reqs_of_sorted; exact WF|].
    intros id. rewrite !in_map_iff. split.
    - intros (up & <- & Hup). apply filter_In in Hup. destruct Hup as [Hup Hn]. split; [eauto|].
      intros (c & Hc). pose proof (proj2 (coverage_of_id rel up Hup) (ex_intro _ c Hc)) as Hcov.
      apply is_nil_links_of in Hcov; [|exact Hup]. congruence.
    - intros ((up & <- & Hup) & Hno). exists up. split; [reflexivity|].
      apply filter_In. split; [exact Hup|].
      destruct (is_nil (links_of g rel up)) eqn:E; [reflexivity|].
      exfalso. apply Hno. apply (coverage_of_id rel up Hup). apply is_nil_links_of; assumption.
  Qed.

  (** ** C03 *)
  Lemma derived_exact k a :
    oget k (g_artefacts g) = Some a ->
    exists d, oget k (tg_derived tg) = Some d /\ ssorted d /\
      forall id, In id d <->
        art_ignore_derived a = false /\
        exists r, In r (first_defs g k) /\ req_id r = id /\ ~ covers_something g k r.
  Proof. destruct trace_done as (pc & pd & _ & _ & (_ & _ & Hd) & _). apply Hd. Qed.

  (** ** C04 *)
  Lemma errors_covers_unknown :
    exists pc, ssorted pc /\ (forall u l, In (u, l) pc <-> dangling_covers g u l) /\
               filter is_covers_unknown (tg_errors tg) = flat_map (covers_error g) pc.
  Proof.
    destruct trace_done as (pc & pd & _ & _ & _ & Hs & Hd & _ & _ & He).
    exists pc. split; [exact Hs|]. split; [exact Hd|]. rewrite He, !filter_app.
    rewrite filter_dup_errors by reflexivity. rewrite (filter_depends_error _ pd) by reflexivity.
    rewrite app_nil_r. cbn [app].
    assert (Hr : filter is_covers_unknown (flat_map (relation_errors g) (g_relations g)) = []).
    { rewrite filter_flat_map. apply flat_map_nil. intros rel.
      rewrite filter_relation_errors, unused_none, app_nil_r by reflexivity.
      apply flat_map_nil. intros l. rewrite wrong_none, missing_none by reflexivity. reflexivity. }
    rewrite Hr. cbn [app]. rewrite filter_flat_map. apply flat_map_ext_in. intros p _.
    unfold covers_error. destruct (first_of _ _); [|reflexivity].
    destruct (first_location _ _); reflexivity.
  Qed.

  Lemma errors_depends_unknown :
    exists pd, ssorted pd /\ (forall u l, In (u, l) pd <-> dangling_depends g u l) /\
               filter is_depends_unknown (tg_errors tg) = flat_map (depends_error g) pd.
  Proof.
    destruct trace_done as (pc & pd & _ & _ & _ & _ & _ & Hs & Hd & He).
    exists pd. split; [exact Hs|]. split; [exact Hd|]. rewrite He, !filter_app.
    rewrite filter_dup_errors by reflexivity. rewrite (filter_covers_error _ pc) by reflexivity.
    cbn [app].
    assert (Hr : filter is_depends_unknown (flat_map (relation_errors g) (g_relations g)) = []).
    { rewrite filter_flat_map. apply flat_map_nil. intros rel.
      rewrite filter_relation_errors, unused_none, app_nil_r by reflexivity.
      apply flat_map_nil. intros l. rewrite wrong_none, missing_none by reflexivity. reflexivity. }
    rewrite Hr. cbn [app]. rewrite filter_flat_map. apply flat_map_ext_in. intros p _.
    unfold depends_error. destruct (first_of _ _); [|reflexivity].
    destruct (first_location _ _); reflexivity.
  Qed.

  Lemma in_filter_iff {A} (p : A -> bool) l x : p x = true -> (In x (filter p l) <-> In x l).
  Proof. intros Hp. rewrite filter_In. tauto. Qed.

  Lemma NoDup_flat_map_opt {A B} (f : A -> list B) l :
    NoDup l -> (forall a, f a = [] \/ exists b, f a = [b]) ->
    (forall a a' b, f a = [b] -> f a' = [b] -> a = a') ->
    NoDup (flat_map f l).
  Proof.
    intros Hnd Hf Hinj. induction l as [|a l IH]; cbn; [constructor|].
    inversion Hnd as [|? ? Hni Hnd']; subst.
    destruct (Hf a) as [E|[b E]]; rewrite E; cbn; [auto|].
    constructor; [|auto]. intros Hin. apply in_flat_map in Hin. destruct Hin as (a' & Ha' & Hb).
    destruct (Hf a') as [E'|[b' E']]; rewrite E' in Hb; [destruct Hb|].
    destruct Hb as [->|[]]. rewrite (Hinj a a' b E E') in Hni. contradiction.
  Qed.

  Lemma covers_unknown_exact :
    (forall low u loc,
       In (ECoversUnknownRequirement low u loc) (tg_errors tg) <->
       dangling_covers g u (req_id low) /\ first_of g (req_id low) = Some low /\
       first_location u (req_covers low) = Some loc) /\
    NoDup (filter is_covers_unknown (tg_errors tg)).
  Proof.
    destruct errors_covers_unknown as (pc & Hs & Hd & He). split.
    - intros low u loc. rewrite <- (in_filter_iff is_covers_unknown) by reflexivity.
      rewrite He, in_flat_map. split.
      + intros ([u' l'] & Hin & Hx). apply Hd in Hin. unfold covers_error in Hx. cbn in Hx.
        destruct (first_of g l') as [low'|] eqn:Ef; [|destruct Hx].
        destruct (first_location u' (req_covers low')) as [loc'|] eqn:El; [|destruct Hx].
        destruct Hx as [Hx|[]]. inversion Hx; subst.
        pose proof (proj1 (first_of_spec g WF _ _) Ef) as [Hid _]. rewrite Hid. auto.
      + intros (Hdang & Hf & Hl). exists (u, req_id low). split; [apply Hd; exact Hdang|].
        unfold covers_error. cbn. rewrite Hf, Hl. left. reflexivity.
    - rewrite He. apply NoDup_flat_map_opt.
      + apply ssorted_nodup. exact Hs.
      + intros [u l]. unfold covers_error. cbn. destruct (first_of g l); [|auto].
        destruct (first_location _ _); eauto.
      + intros [u l] [u' l'] b. unfold covers_error. cbn. intros E1 E2.
        destruct (first_of g l) as [x|] eqn:F1; [|discriminate].
        destruct (first_location u (req_covers x)); [|discriminate].
        destruct (first_of g l') as [x'|] eqn:F2; [|discriminate].
        destruct (first_location u' (req_covers x')); [|discriminate].
        apply (first_of_spec g WF) in F1. apply (first_of_spec g WF) in F2.
        destruct F1 as [F1 _]. destruct F2 as [F2 _].
        inversion E1; subst. inversion E2; subst. reflexivity.
  Qed.

  Lemma depends_unknown_exact :
    (forall up l loc,
       In (EDependOnUnknownRequirement up l loc) (tg_errors tg) <->
       dangling_depends g (req_id up) l /\ first_of g (req_id up) = Some up /\
       first_location l (req_depends up) = Some loc) /\
    NoDup (filter is_depends_unknown (tg_errors tg)).
  Proof.
    destruct errors_depends_unknown as (pd & Hs & Hd & He). split.
    - intros up l loc. rewrite <- (in_filter_iff is_depends_unknown) by reflexivity.
      rewrite He, in_flat_map. split.
      + intros ([u' l'] & Hin & Hx). apply Hd in Hin. unfold depends_error in Hx. cbn in Hx.
        destruct (first_of g u') as [up'|] eqn:Ef; [|destruct Hx].
        destruct (first_location l' (req_depends up')) as [loc'|] eqn:El; [|destruct Hx].
        destruct Hx as [Hx|[]]. inversion Hx; subst.
        pose proof (proj1 (first_of_spec g WF _ _) Ef) as [Hid _]. rewrite Hid. auto.
      + intros (Hdang & Hf & Hl). exists (req_id up, l). split; [apply Hd; exact Hdang|].
        unfold depends_error. cbn. rewrite Hf, Hl. left. reflexivity.
    - rewrite He. apply NoDup_flat_map_opt.
      + apply ssorted_nodup. exact Hs.
      + intros [u l]. unfold depends_error. cbn. destruct (first_of g u); [|auto].
        destruct (first_location _ _); eauto.
      + intros [u l] [u' l'] b. unfold depends_error. cbn. intros E1 E2.
        destruct (first_of g u) as [x|] eqn:F1; [|discriminate].
        destruct (first_location l (req_depends x)); [|discriminate].
        destruct (first_of g u') as [x'|] eqn:F2; [|discriminate].
        destruct (first_location l' (req_depends x')); [|discriminate].
        apply (first_of_spec g WF) in F1. apply (first_of_spec g WF) in F2.
        destruct F1 as [F1 _]. destruct F2 as [F2 _].
        inversion E1; subst. inversion E2; subst. reflexivity.
  Qed.

  (** ** C05 - C08 *)
  Lemma errors_wrong_title :
    filter is_wrong_title (tg_errors tg) =
    flat_map (fun rel => flat_map wrong_title_errors (links g rel)) (g_relations g).
  Proof.
    destruct trace_done as (pc & pd & _ & _ & _ & _ & _ & _ & _ & He).
    rewrite He, !filter_app.
    rewrite filter_dup_errors, filter_covers_error, filter_depends_error by reflexivity.
    rewrite !app_nil_r. cbn [app]. rewrite filter_flat_map. apply flat_map_ext_in. intros rel _.
    rewrite filter_relation_errors, unused_none, app_nil_r by reflexivity.
    apply flat_map_ext_in. intros l _. rewrite wrong_all, missing_none by reflexivity. apply app_nil_r.
  Qed.

  Lemma errors_missing_title :
    filter is_missing_title (tg_errors tg) =
    flat_map (fun rel => flat_map (missing_title_errors g rel) (links g rel)) (g_relations g).
  Proof.
    destruct trace_done as (pc & pd & _ & _ & _ & _ & _ & _ & _ & He).
    rewrite He, !filter_app.
    rewrite filter_dup_errors, filter_covers_error, filter_depends_error by reflexivity.
    rewrite !app_nil_r. cbn [app]. rewrite filter_flat_map. apply flat_map_ext_in. intros rel _.
    rewrite filter_relation_errors, unused_none, app_nil_r by reflexivity.
    apply flat_map_ext_in. intros l _. rewrite wrong_none, missing_all by reflexivity. reflexivity.
  Qed.

  Lemma errors_dup : filter is_dup (tg_errors tg) = dup_errors g.
  Proof.
    destruct trace_done as (pc & pd & _ & _ & _ & _ & _ & _ & _ & He).
    rewrite He, !filter_app.
    rewrite filter_dup_errors_id, filter_covers_error, filter_depends_error by reflexivity.
    assert (Hr : filter is_dup (flat_map (relation_errors g) (g_relations g)) = []).
    { rewrite filter_flat_map. apply flat_map_nil. intros rel.
      rewrite filter_relation_errors, unused_none, app_nil_r by reflexivity.
      apply flat_map_nil. intros l. rewrite wrong_none, missing_none by reflexivity. reflexivity. }
    rewrite Hr, !app_nil_r. reflexivity.
  Qed.

  (** ** C07: which definition a reference is resolved to *)
  Lemma coverage_first tr c :
    In tr (tg_relations tg) -> In c (tr_covered tr) ->
    exists la low, In la (rel_lower (tr_relation tr)) /\ In low (reqs_of g la) /\
      first_of g (cov_lower c) = Some low /\ defined_before g la (cov_lower c) = false.
  Proof.
    intros Hin Hc. apply (proj1 (proj2 (coverage_exact tr c Hin))) in Hc.
    destruct Hc as (l & (_ & Hla & Hlow & _) & <-). exists (lk_lower_art l), (lk_lower l).
    pose proof (first_defs_first_of g WF _ _ Hlow) as Hf.
    apply filter_In in Hlow. destruct Hlow as [H1 H2]. apply negb_true_iff in H2.
    cbn [link_coverage cov_lower]. auto.
  Qed.

  Lemma in_wrong_title e :
    In e (tg_errors tg) -> is_wrong_title e = true ->
    exists rel l, In rel (g_relations g) /\ is_link g rel l /\ In e (wrong_title_errors l).
  Proof.
    intros He Hw. assert (H : In e (filter is_wrong_title (tg_errors tg))) by (apply filter_In; auto).
    rewrite errors_wrong_title in H. apply in_flat_map in H. destruct H as (rel & Hr & H).
    apply in_flat_map in H. destruct H as (l & Hl & H). apply in_links in Hl. eauto.
  Qed.

  Lemma wrong_title_first e low :
    In e (tg_errors tg) ->
    (exists up t loc, e = EDependWithWrongTitle up low t loc \/ e = ECoveredWithWrongTitle up low t loc) ->
    first_of g (req_id low) = Some low.
  Proof.
    intros He (up & t & loc & Ht).
    destruct (in_wrong_title e He) as (rel & l & _ & (_ & _ & Hlow & _) & H);
      [destruct Ht as [->| ->]; reflexivity|].
    apply (first_defs_first_of g WF) in Hlow. unfold wrong_title_errors in H.
    destruct (ref_title _); [|destruct H]. destruct (option_eqb _ _ _); [destruct H|].
    destruct H as [<-|[]]. destruct (lk_dir l); destruct Ht as [Ht|Ht]; inversion Ht; subst; exact Hlow.
  Qed.

  Lemma errors_unused :
    filter is_unused (tg_errors tg) =
    map EUnusedRelation (filter (fun rel => is_nil (links g rel)) (g_relations g)).
  Proof.
    destruct trace_done as (pc & pd & _ & _ & _ & _ & _ & _ & _ & He).
    rewrite He, !filter_app.
    rewrite filter_dup_errors, filter_covers_error, filter_depends_error by reflexivity.
    rewrite !app_nil_r. cbn [app]. rewrite filter_flat_map. clear He.
    induction (g_relations g) as [|rel rels IH]; cbn; [reflexivity|].
    rewrite IH, filter_relation_errors.
    rewrite (flat_map_nil (fun l => filter is_unused (wrong_title_errors l) ++
                                    filter is_unused (missing_title_errors g rel l)))
      by (intros l; rewrite wrong_none, missing_none by reflexivity; reflexivity).
    unfold unused_errors. destruct (is_nil (links g rel)); reflexivity.
  Qed.

  Lemma errors_classified e :
    In e (tg_errors tg) ->
    is_dup e || is_wrong_title e || is_missing_title e || is_unused e ||
    is_covers_unknown e || is_depends_unknown e = true.
  Proof.
    destruct trace_done as (pc & pd & _ & _ & _ & _ & _ & _ & _ & He).
    rewrite He, !in_app_iff, !in_flat_map. intros [H|[H|[H|H]]].
    - unfold dup_errors in H. apply in_flat_map in H. destruct H as (x & _ & H).
      apply in_flat_map in H. destruct H as (r & _ & H). unfold dup_errors_of in H.
      destruct (defined_before _ _ _); [|destruct H]. destruct (first_of _ _); [|destruct H].
      destruct H as [<-|[]]. reflexivity.
    - destruct H as (rel & _ & H). unfold relation_errors in H. rewrite in_app_iff, in_flat_map in H.
      destruct H as [(l & _ & H)|H].
      + unfold link_errors in H. apply in_app_or in H. destruct H as [H|H].
        * unfold wrong_title_errors in H. destruct (ref_title _); [|destruct H].
          destruct (option_eqb _ _ _); [destruct H|]. destruct H as [<-|[]].
          destruct (lk_dir l); reflexivity.
        * unfold missing_title_errors in H. destruct (ref_title _); [destruct H|].
          destruct (wants_title _ _); [|destruct H]. destruct H as [<-|[]]. reflexivity.
      + unfold unused_errors in H. destruct (is_nil _); [|destruct H]. destruct H as [<-|[]]. reflexivity.
    - destruct H as (p & _ & H). unfold covers_error in H. destruct (first_of _ _); [|destruct H].
      destruct (first_location _ _); [|destruct H]. destruct H as [<-|[]]. reflexivity.
    - destruct H as (p & _ & H). unfold depends_error in H. destruct (first_of _ _); [|destruct H].
      destruct (first_location _ _); [|destruct H]. destruct H as [<-|[]]. reflexivity.
  Qed.

  Lemma relation_eq_dec : forall x y : relation, {x = y} + {x <> y}.
  Proof. apply ord_eq_dec. Qed.

  Lemma unused_count rel :
    length (filter (fun e => match e with EUnusedRelation r => eqb r rel | _ => false end) (tg_errors tg)) =
    (if is_nil (links g rel) then count_occ relation_eq_dec (g_relations g) rel else 0)%nat.
  Proof.
    assert (Hf : filter (fun e => match e with EUnusedRelation r => eqb r rel | _ => false end) (tg_errors tg)
                 = filter (fun e => match e with EUnusedRelation r => eqb r rel | _ => false end)
                          (filter is_unused (tg_errors tg))).
    { generalize (tg_errors tg). induction l as [|e l IH]; cbn; [reflexivity|].
      destruct e; cbn; auto. destruct (eqb rel0 rel); rewrite IH; reflexivity. }
    rewrite Hf, errors_unused. induction (g_relations g) as [|r rels IH]; cbn.
    - destruct (is_nil _); reflexivity.
    - destruct (relation_eq_dec r rel) as [->|Hne].
      + destruct (is_nil (links g rel)); cbn; [|exact IH]. rewrite eqb_refl. cbn. rewrite IH. reflexivity.
      + destruct (is_nil (links g r)); cbn; [|exact IH].
        destruct (eqb_spec r rel); [contradiction|exact IH].
  Qed.

  (** ** C13 *)
  Lemma unique_first_defs k : unique_ids g -> first_defs g k = reqs_of g k.
  Proof.
    intros Hu. unfold first_defs. unfold reqs_of.
    destruct (oget k (g_artefacts g)) as [a|] eqn:E; [|reflexivity].
    apply oget_Some_In in E. apply in_split in E. destruct E as (pre & post & Hg).
    unfold unique_ids, all_reqs in Hu. rewrite Hg in Hu.
    rewrite flat_map_app, map_app in Hu. cbn [flat_map snd] in Hu. rewrite map_app in Hu.
    assert (Hall : forall r, In r (ovalues (art_requirements a)) ->
              negb (defined_before g k (req_id r)) = true).
    { intros r Hr. rewrite (defined_before_split g WF _ _ _ _ _ Hg).
      apply negb_true_iff, not_true_iff_false. rewrite existsb_exists.
      intros (r' & Hr' & He). apply eqb_true in He.
      revert Hu. generalize (map req_id (flat_map (fun e => ovalues (art_requirements (snd e))) post)).
      intros tl Hu.
      assert (Hin1 : In (req_id r) (map req_id (pre_reqs pre))) by (rewrite <- He; apply in_map; exact Hr').
      assert (Hin2 : In (req_id r) (map req_id (ovalues (art_requirements a)) ++ tl))
        by (apply in_or_app; left; apply in_map; exact Hr).
      unfold pre_reqs in Hin1. clear - Hu Hin1 Hin2. revert Hu Hin1.
      generalize (map req_id (flat_map (fun e => ovalues (art_requirements (snd e))) pre)).
      induction l as [|x l IH]; cbn; intros Hnd Hin; [destruct Hin|].
      inversion Hnd as [|? ? Hni Hnd']; subst.
      destruct Hin as [->|Hin]; [apply Hni, in_or_app; right; exact Hin2|auto]. }
    clear - Hall. induction (ovalues (art_requirements a)) as [|r l IH]; cbn; [reflexivity|].
    rewrite Hall by (left; reflexivity). f_equal. apply IH. intros r' Hr'. apply Hall. right. exact Hr'.
  Qed.

  Lemma linked_dec d u l : {linked g d u l} + {~ linked g d u l}.
  Proof.
    set (test := fun lk : link =>
       match lk_dir lk, d with Upwards, Upwards | Downwards, Downwards => true | _, _ => false end &&
       eqb (req_id (lk_upper lk)) u && eqb (req_id (lk_lower lk)) l).
    destruct (existsb test (flat_map (links g) (g_relations g))) eqn:E.
    - left. apply existsb_exists in E. destruct E as (lk & Hin & Ht).
      apply in_all_links in Hin. destruct Hin as (rel & Hrel & Hlk). exists rel, lk.
      unfold test in Ht. apply andb_true_iff in Ht. destruct Ht as [Ht H3].
      apply andb_true_iff in Ht. destruct Ht as [H1 H2]. apply eqb_true in H2. apply eqb_true in H3.
      split; [exact Hrel|]. split; [exact Hlk|]. split; [|auto].
      destruct (lk_dir lk), d; congruence.
    - right. intros (rel & lk & Hrel & Hlk & <- & <- & <-).
      apply not_true_iff_false in E. apply E. apply existsb_exists. exists lk. split.
      + apply in_all_links. eauto.
      + unfold test. rewrite !eqb_refl. destruct (lk_dir lk); reflexivity.
  Qed.

  Lemma reqs_of_first k r : unique_ids g -> In r (reqs_of g k) -> first_of g (req_id r) = Some r.
  Proof.
    intros Hu Hin. apply (first_defs_first_of g WF k). rewrite unique_first_defs by exact Hu. exact Hin.
  Qed.

  Lemma traced_of_in rel :
    In rel (g_relations g) -> In (traced_of g rel) (tg_relations tg).
  Proof.
    destruct trace_done as (pc & pd & _ & Hrel & _). rewrite Hrel. apply in_map.
  Qed.

  Lemma covers_checked k r c :
    unique_ids g -> In r (reqs_of g k) -> In c (req_covers r) ->
    (exists tr, In tr (tg_relations tg) /\
       In (mkCoverage (ref_id c) (req_id r) (ref_location c) Upwards) (tr_covered tr)) \/
    (exists loc, In (ECoversUnknownRequirement r (ref_id c) loc) (tg_errors tg) /\
                 first_location (ref_id c) (req_covers r) = Some loc).
  Proof.
    intros Hu Hr Hc. pose proof (reqs_of_first k r Hu Hr) as Hf.
    destruct (linked_dec Upwards (ref_id c) (req_id r)) as [Hl|Hn].
    - left. destruct Hl as (rel & lk & Hrel & Hlk & Hd & Hup & Hlow).
      exists (traced_of g rel). split; [apply traced_of_in; exact Hrel|].
      cbn [traced_of tr_covered]. apply in_map_iff.
      exists (mkLink (lk_upper lk) (lk_lower_art lk) (lk_lower lk) c Upwards). split.
      + unfold link_coverage. cbn. rewrite Hup, Hlow. reflexivity.
      + apply in_links. destruct Hlk as (L1 & L2 & L3 & L4). rewrite Hd in L4.
        assert (lk_lower lk = r).
        { apply (first_defs_first_of g WF) in L3. congruence. }
        unfold is_link. cbn. split; [exact L1|]. split; [exact L2|]. split; [exact L3|].
        rewrite Hup. split; [congruence|reflexivity].
    - right. destruct (find_ref_some (ref_id c) (req_covers r) c Hc eq_refl) as (rf & _ & Hloc).
      exists (ref_location rf). split; [|exact Hloc].
      apply covers_unknown_exact. split; [|split; [exact Hf|exact Hloc]].
      split; [|exact Hn]. exists r, c. auto.
  Qed.

  Lemma depends_checked k r d :
    unique_ids g -> In r (reqs_of g k) -> In d (req_depends r) ->
    (exists tr, In tr (tg_relations tg) /\
       In (mkCoverage (req_id r) (ref_id d) (ref_location d) Downwards) (tr_covered tr)) \/
    (exists loc, In (EDependOnUnknownRequirement r (ref_id d) loc) (tg_errors tg) /\
                 first_location (ref_id d) (req_depends r) = Some loc).
  Proof.
    intros Hu Hr Hc. pose proof (reqs_of_first k r Hu Hr) as Hf.
    destruct (linked_dec Downwards (req_id r) (ref_id d)) as [Hl|Hn].
    - left. destruct Hl as (rel & lk & Hrel & Hlk & Hd & Hup & Hlow).
      exists (traced_of g rel). split; [apply traced_of_in; exact Hrel|].
      cbn [traced_of tr_covered]. apply in_map_iff.
      exists (mkLink (lk_upper lk) (lk_lower_art lk) (lk_lower lk) d Downwards). split.
      + unfold link_coverage. cbn. rewrite Hup, Hlow. reflexivity.
      + apply in_links. destruct Hlk as (L1 & L2 & L3 & L4). rewrite Hd in L4.
        assert (lk_upper lk = r).
        { apply (reqs_of_first _ _ Hu) in L1. congruence. }
        unfold is_link. cbn. split; [exact L1|]. split; [exact L2|]. split; [exact L3|].
        split; congruence.
    - right. destruct (find_ref_some (ref_id d) (req_depends r) d Hc eq_refl) as (rf & _ & Hloc).
      exists (ref_location rf). split; [|exact Hloc].
      apply depends_unknown_exact. split; [|split; [exact Hf|exact Hloc]].
      split; [|exact Hn]. exists r, d. auto.
  Qed.
End Cor.

Lemma trace_total_iff g :
  graph_wf g ->
  ((exists tg, trace g = Done tg) <-> (forall rel, In rel (g_relations g) -> relation_ok g rel)).
Proof.
  intros WF. split.
  - intros [tg H]. eapply trace_done_ok; eassumption.
  - intros H. destruct (trace_exact g WF H) as (tg & _ & _ & E & _). eauto.
Qed.

(** ** Changing the relations only *)
Section Relations.
  Variables (arts : omap artefact_id artefact) (rels rels' : list relation).
  Let g := mkGraph arts rels.
  Let g' := mkGraph arts rels'.

  Lemma links_rels rel : links g rel = links g' rel.
  Proof. reflexivity. Qed.
  Lemma is_link_rels rel l : is_link g rel l <-> is_link g' rel l.
  Proof. reflexivity. Qed.

  Hypothesis WF : graph_wf g.
  Lemma wf_rels : graph_wf g'.
  Proof. exact WF. Qed.
End Relations.

Lemma dangling_covers_mono arts rels rels' u l :
  (forall r, In r rels -> In r rels') ->
  dangling_covers (mkGraph arts rels') u l -> dangling_covers (mkGraph arts rels) u l.
Proof.
  intros Hsub [Hex Hno]. split; [exact Hex|]. intros (rel & lk & Hrel & Hrest).
  apply Hno. exists rel, lk. split; [apply Hsub; exact Hrel|exact Hrest].
Qed.

Lemma dangling_depends_mono arts rels rels' u l :
  (forall r, In r rels -> In r rels') ->
  dangling_depends (mkGraph arts rels') u l -> dangling_depends (mkGraph arts rels) u l.
Proof.
  intros Hsub [Hex Hno]. split; [exact Hex|]. intros (rel & lk & Hrel & Hrest).
  apply Hno. exists rel, lk. split; [apply Hsub; exact Hrel|exact Hrest].
Qed.

Lemma covers_something_mono arts rels rels' k r :
  (forall r, In r rels -> In r rels') ->
  covers_something (mkGraph arts rels) k r -> covers_something (mkGraph arts rels') k r.
Proof.
  intros Hsub (rel & lk & Hrel & Hrest). exists rel, lk. split; [apply Hsub; exact Hrel|exact Hrest].
Qed.

Lemma trace_permutation arts rels rels' tg :
  graph_wf (mkGraph arts rels) -> Permutation rels rels' ->
  trace (mkGraph arts rels) = Done tg ->
  exists tg', trace (mkGraph arts rels') = Done tg' /\
    tg_artefacts tg' = tg_artefacts tg /\
    tg_derived tg' = tg_derived tg /\
    map tr_relation (tg_relations tg') = rels' /\
    Permutation (tg_relations tg) (tg_relations tg') /\
    Permutation (tg_errors tg) (tg_errors tg').
Proof.
  intros WF HP HT.
  pose proof (trace_done_ok _ WF _ HT) as Hok.
  assert (Hin : forall r, In r rels <-> In r rels').
  { intros r. split; apply Permutation_in; [exact HP|apply Permutation_sym; exact HP]. }
  destruct (trace_done _ WF _ HT) as (pc & pd & A1 & A2 & (A3 & A4 & A5) & A6 & A7 & A8 & A9 & A10).
  assert (WF' : graph_wf (mkGraph arts rels')) by exact WF.
  destruct (trace_exact (mkGraph arts rels') WF') as
    (tg' & pc' & pd' & B0 & B1 & B2 & (B3 & B4 & B5) & B6 & B7 & B8 & B9 & B10).
  { intros rel Hrel. apply (Hok rel). apply Hin. exact Hrel. }
  exists tg'. split; [exact B0|]. split; [rewrite A1, B1; reflexivity|].
  split; [|split; [|split]].
  - apply osorted_ext; [exact B3|exact A3|]. intros k. cbn in A5, B5.
    destruct (oget k arts) as [a|] eqn:Ha.
    + destruct (A5 k a Ha) as (d & -> & Hs & Hd). destruct (B5 k a Ha) as (d' & -> & Hs' & Hd').
      f_equal. apply ssorted_ext; [exact Hs'|exact Hs|]. intros id. rewrite Hd, Hd'.
      split; intros (Hi & r & Hr & Hid & Hno); (split; [exact Hi|]); exists r;
        (split; [exact Hr|]); (split; [exact Hid|]); intros Hc; apply Hno;
        eapply covers_something_mono; try exact Hc; intros r0; apply Hin.
    + assert (Hn1 : oget k (tg_derived tg) = None).
      { apply oget_None. rewrite A4. cbn. apply oget_None. exact Ha. }
      assert (Hn2 : oget k (tg_derived tg') = None).
      { apply oget_None. rewrite B4. cbn. apply oget_None. exact Ha. }
      congruence.
  - rewrite B2, map_map. cbn. apply map_id.
  - rewrite A2, B2. cbn. apply (Permutation_map (traced_of (mkGraph arts rels'))). exact HP.
  - rewrite A10, B10.
    assert (pc' = pc).
    { apply ssorted_ext; [exact B6|exact A6|]. intros [u l]. rewrite A7, B7.
      split; apply dangling_covers_mono; intros r; apply Hin. }
    assert (pd' = pd).
    { apply ssorted_ext; [exact B8|exact A8|]. intros [u l]. rewrite A9, B9.
      split; apply dangling_depends_mono; intros r; apply Hin. }
    subst pc' pd'.
    apply Permutation_app_head. apply Permutation_app; [|apply Permutation_refl].
    cbn. apply (Permutation_flat_map (relation_errors (mkGraph arts rels'))). exact HP.
Qed.

Definition unknown_reference (e : error) : bool := is_covers_unknown e || is_depends_unknown e.

Lemma unknown_covers_error g l : filter (fun e => negb (unknown_reference e)) (flat_map (covers_error g) l) = [].
Proof.
  induction l as [|x l IH]; [reflexivity|]. cbn [flat_map]. rewrite filter_app, IH, app_nil_r. unfold covers_error.
  destruct (first_of g (snd x)); [|reflexivity]. destruct (first_location _ _); reflexivity.
Qed.
Lemma unknown_depends_error g l : filter (fun e => negb (unknown_reference e)) (flat_map (depends_error g) l) = [].
Proof.
  induction l as [|x l IH]; [reflexivity|]. cbn [flat_map]. rewrite filter_app, IH, app_nil_r. unfold depends_error.
  destruct (first_of g (fst x)); [|reflexivity]. destruct (first_location _ _); reflexivity.
Qed.

Lemma trace_add_relation arts rels1 rel rels2 tg tg' :
  graph_wf (mkGraph arts (rels1 ++ rels2)) ->
  trace (mkGraph arts (rels1 ++ rels2)) = Done tg -> trace (mkGraph arts (rels1 ++ rel :: rels2)) = Done tg' ->
  (exists trs1 tr trs2, tg_relations tg = trs1 ++ trs2 /\ tg_relations tg' = trs1 ++ tr :: trs2 /\
     map tr_relation trs1 = rels1 /\ tr_relation tr = rel) /\
  (forall k d d' id, oget k (tg_derived tg) = Some d -> oget k (tg_derived tg') = Some d' ->
                     In id d' -> In id d) /\
  (forall e, In e (tg_errors tg') -> unknown_reference e = true -> In e (tg_errors tg)) /\
  (exists es1 es es2, filter (fun e => negb (unknown_reference e)) (tg_errors tg) = es1 ++ es2 /\
     filter (fun e => negb (unknown_reference e)) (tg_errors tg') = es1 ++ es ++ es2).
Proof.
  intros WF HT HT'.
  assert (WF' : graph_wf (mkGraph arts (rels1 ++ rel :: rels2))) by exact WF.
  assert (Hsub : forall r, In r (rels1 ++ rels2) -> In r (rels1 ++ rel :: rels2)).
  { intros r Hr. apply in_app_iff in Hr. apply in_or_app. destruct Hr; [left|right; right]; assumption. }
  destruct (trace_done _ WF _ HT) as (pc & pd & A1 & A2 & (A3 & A4 & A5) & A6 & A7 & A8 & A9 & A10).
  destruct (trace_done _ WF' _ HT') as (pc' & pd' & B1 & B2 & (B3 & B4 & B5) & B6 & B7 & B8 & B9 & B10).
  split; [|split; [|split]].
  - exists (map (traced_of (mkGraph arts (rels1 ++ rels2))) rels1),
      (traced_of (mkGraph arts (rels1 ++ rels2)) rel), (map (traced_of (mkGraph arts (rels1 ++ rels2))) rels2).
    rewrite B2, A2. cbn [g_relations]. rewrite !map_app, map_map. cbn [map]. rewrite map_id. repeat split.
  - intros k d d' id Hd Hd' Hin.
    assert (Hk : In k (okeys arts)).
    { apply oget_Some_key in Hd. rewrite A4 in Hd. exact Hd. }
    apply oget_key_Some in Hk. destruct Hk as [a Ha]. cbn in A5, B5.
    destruct (A5 k a Ha) as (d0 & E0 & _ & Hiff). destruct (B5 k a Ha) as (d1 & E1 & _ & Hiff').
    assert (d0 = d) by congruence. assert (d1 = d') by congruence. subst.
    apply Hiff' in Hin. apply Hiff. destruct Hin as (Hi & r & Hr & Hid & Hno).
    split; [exact Hi|]. exists r. split; [exact Hr|]. split; [exact Hid|]. intros Hc. apply Hno.
    eapply covers_something_mono; [exact Hsub|exact Hc].
  - intros e He Hcls. destruct e; try discriminate.
    + apply (depends_unknown_exact _ WF' _ HT') in He. apply (depends_unknown_exact _ WF _ HT).
      destruct He as (Hd & Hf & Hl). split; [|split; [exact Hf|exact Hl]].
      eapply dangling_depends_mono; [exact Hsub|exact Hd].
    + apply (covers_unknown_exact _ WF' _ HT') in He. apply (covers_unknown_exact _ WF _ HT).
      destruct He as (Hd & Hf & Hl). split; [|split; [exact Hf|exact Hl]].
      eapply dangling_covers_mono; [exact Hsub|exact Hd].
  - set (g := mkGraph arts (rels1 ++ rels2)) in *. set (g' := mkGraph arts (rels1 ++ rel :: rels2)) in *.
    set (keep := fun e => negb (unknown_reference e)).
    exists (filter keep (dup_errors g ++ flat_map (relation_errors g) rels1)), (filter keep (relation_errors g rel)),
      (filter keep (flat_map (relation_errors g) rels2)).
    rewrite A10, B10. cbn [g_relations g g']. rewrite !flat_map_app, !filter_app. cbn [flat_map]. rewrite filter_app.
    change (dup_errors g') with (dup_errors g). change (relation_errors g') with (relation_errors g).
    unfold keep. rewrite !unknown_covers_error, !unknown_depends_error, !app_nil_r, !app_assoc. split; reflexivity.
Qed.
