(** The collection phase of the tracer (trace.rs:98-154): what the index contains. *)
From Verif Require Import Base OMap Models Tracer TraceSpec.
From Coq Require Import Sorting.Sorted Permutation.

Definition is_none {A} (o : option A) : bool := match o with None => true | _ => false end.

(** ** One artefact *)

Section AddReqs.
  Variable art : artefact.
  Variable B : requirement_id -> option (artefact_id * requirement).

  Definition news (rs : list requirement) : list requirement :=
    filter (fun r => is_none (B (req_id r))) rs.

  Definition dups (rs : list requirement) : list error :=
    flat_map (fun r => match B (req_id r) with
                       | Some (_, o) => [EDuplicateRequirement o r]
                       | None => []
                       end) rs.

  Definition cov_pairs (rs : list requirement) : list (requirement_id * requirement_id) :=
    flat_map (fun r => map (fun c => (ref_id c, req_id r)) (req_covers r)) rs.
  Definition dep_pairs (rs : list requirement) : list (requirement_id * requirement_id) :=
    flat_map (fun r => map (fun d => (req_id r, ref_id d)) (req_depends r)) rs.

  Lemma fold_sins_map {A K} `{Ord K} (f : A -> K) (l : list A) s :
    fold_left (fun st x => sins (f x) st) l s = fold_left (fun st k => sins k st) (map f l) s.
  Proof. revert s. induction l as [|a l IH]; cbn; intros s; auto. Qed.

  Lemma add_reqs_spec (rs : list requirement) (s : add_st) :
    NoDup (map req_id rs) ->
    (forall r, In r rs -> oget (req_id r) (t_req_by_id (ad_tracer s)) = B (req_id r)) ->
    let s' := fold_left (add_requirement art) rs s in
    t_artefacts (ad_tracer s') = t_artefacts (ad_tracer s) /\
    t_relations (ad_tracer s') = t_relations (ad_tracer s) /\
    t_errors (ad_tracer s') = t_errors (ad_tracer s) ++ dups rs /\
    t_req_by_id (ad_tracer s') =
      fold_left (fun m kv => oins (fst kv) (snd kv) m)
                (map (fun r => (req_id r, (art_id art, r))) (news rs)) (t_req_by_id (ad_tracer s)) /\
    t_invalid_covers (ad_tracer s') =
      fold_left (fun st p => sins p st) (cov_pairs (news rs)) (t_invalid_covers (ad_tracer s)) /\
    t_invalid_depends (ad_tracer s') =
      fold_left (fun st p => sins p st) (dep_pairs (news rs)) (t_invalid_depends (ad_tracer s)) /\
    ad_derived s' =
      fold_left (fun st p => sins p st)
                (if art_ignore_derived art then [] else map req_id (news rs)) (ad_derived s) /\
    ad_by_id s' =
      fold_left (fun m kv => oins (fst kv) (snd kv) m)
                (map (fun r => (req_id r, r)) (news rs)) (ad_by_id s) /\
    ad_that_cover s' =
      fold_left (fun m rc => that_cover_push (fst rc) m (snd rc))
                (flat_map (fun r => map (fun c => (r, c)) (req_covers r)) (news rs))
                (ad_that_cover s).
  Proof.
    revert s. induction rs as [|r rs IH]; intros s Hnd HB; cbn [fold_left].
    - cbn. rewrite app_nil_r. destruct (art_ignore_derived art); repeat split; reflexivity.
    - cbn [map] in Hnd. inversion Hnd as [|? ? Hni Hnd']; subst.
      pose proof (HB r (or_introl eq_refl)) as HBr.
      assert (HB' : forall r', In r' rs ->
                oget (req_id r') (t_req_by_id (ad_tracer (add_requirement art s r))) = B (req_id r')).
      { intros r' Hr'. unfold add_requirement. rewrite HBr.
        destruct (B (req_id r)) as [[a o]|]; cbn.
        - apply HB. right. exact Hr'.
        - rewrite oget_oins_other; [apply HB; right; exact Hr'|].
          intros He. apply Hni. rewrite <- He. apply in_map. exact Hr'. }
      specialize (IH (add_requirement art s r) Hnd' HB').
      cbv zeta in IH |- *.
      destruct IH as (I1 & I2 & I3 & I4 & I5 & I6 & I7 & I8 & I9).
      rewrite I1, I2, I3, I4, I5, I6, I7, I8, I9. clear I1 I2 I3 I4 I5 I6 I7 I8 I9.
      unfold add_requirement. rewrite HBr.
      unfold dups, news. cbn [flat_map filter].
      destruct (B (req_id r)) as [[a o]|] eqn:EB; cbn [is_none].
      + cbn. rewrite <- app_assoc. repeat split; reflexivity.
      + cbn [ad_tracer t_artefacts t_relations t_errors t_req_by_id t_invalid_covers
             t_invalid_depends ad_derived ad_by_id ad_that_cover app
             map fold_left fst snd cov_pairs dep_pairs flat_map].
        repeat split; try reflexivity.
        * rewrite (fold_sins_map (fun cov => (ref_id cov, req_id r))), fold_left_app. reflexivity.
        * rewrite (fold_sins_map (fun dep => (req_id r, ref_id dep))), fold_left_app. reflexivity.
        * destruct (art_ignore_derived art); reflexivity.
        * rewrite fold_left_app. f_equal.
          generalize (ad_that_cover s). induction (req_covers r) as [|c cs IHc]; cbn; auto.
  Qed.
End AddReqs.

(** ** The `requirements_that_cover` table *)

Lemma that_cover_get (l : list (requirement * reference)) m id :
  oget id (fold_left (fun m rc => that_cover_push (fst rc) m (snd rc)) l m) =
  match filter (fun rc => eqb (ref_id (snd rc)) id) l with
  | [] => oget id m
  | x => Some (opt_default (oget id m) [] ++ x)
  end.
Proof.
  revert m. induction l as [|[r c] l IH]; intros m; cbn [fold_left filter fst snd]; [reflexivity|].
  rewrite IH. unfold that_cover_push.
  destruct (eqb_spec (ref_id c) id) as [<-|Hne].
  - destruct (oget (ref_id c) m) as [v|] eqn:E; cbn [opt_default app];
      rewrite oget_oins_same; destruct (filter _ l); cbn [opt_default];
      rewrite <- ?app_assoc; reflexivity.
  - destruct (oget (ref_id c) m) as [v|] eqn:E; rewrite oget_oins_other by congruence; reflexivity.
Qed.

Definition that_cover_list (rs : list requirement) (id : requirement_id)
  : list (requirement * reference) :=
  flat_map (fun r => map (fun c => (r, c)) (filter (fun c => eqb (ref_id c) id) (req_covers r))) rs.

Lemma that_cover_filter rs id :
  filter (fun rc => eqb (ref_id (snd rc)) id)
         (flat_map (fun r => map (fun c => (r, c)) (req_covers r)) rs) = that_cover_list rs id.
Proof.
  unfold that_cover_list. induction rs as [|r rs IH]; cbn; [reflexivity|].
  rewrite filter_app, IH. f_equal.
  induction (req_covers r) as [|c cs IHc]; cbn; [reflexivity|].
  destruct (eqb (ref_id c) id); cbn; rewrite IHc; reflexivity.
Qed.

Lemma by_id_get {X} (f : requirement -> X) (l : list requirement) m id :
  NoDup (map req_id l) ->
  oget id (fold_left (fun m kv => oins (fst kv) (snd kv) m) (map (fun r => (req_id r, f r)) l) m) =
  match find (fun r => eqb (req_id r) id) l with
  | Some r => Some (f r)
  | None => oget id m
  end.
Proof.
  revert m. induction l as [|r l IH]; intros m Hnd; cbn [map fold_left find fst snd]; [reflexivity|].
  cbn [map] in Hnd. inversion Hnd as [|? ? Hni Hnd']; subst.
  rewrite IH by exact Hnd'.
  destruct (eqb_spec (req_id r) id) as [<-|Hne].
  - rewrite oget_oins_same.
    destruct (find _ l) as [r'|] eqn:E; [|reflexivity].
    apply find_some in E. destruct E as [Hin He]. apply eqb_true in He.
    exfalso. apply Hni. rewrite <- He. apply in_map. exact Hin.
  - rewrite oget_oins_other by congruence. reflexivity.
Qed.

Lemma find_filter_none {A} (p q : A -> bool) l :
  (forall x, In x l -> p x = true -> q x = true) -> find p (filter q l) = find p l.
Proof.
  induction l as [|a l IH]; cbn; intros Hpq; [reflexivity|].
  destruct (q a) eqn:Eq; cbn.
  - destruct (p a); auto.
  - destruct (p a) eqn:Ep; [|auto].
    rewrite Hpq in Eq; auto. discriminate.
Qed.

Lemma find_app {A} (p : A -> bool) l1 l2 :
  find p (l1 ++ l2) = match find p l1 with Some x => Some x | None => find p l2 end.
Proof. induction l1 as [|a l1 IH]; cbn; [reflexivity|]. destruct (p a); auto. Qed.

Lemma find_none_iff {A} (p : A -> bool) l :
  find p l = None <-> forall x, In x l -> p x = false.
Proof.
  split; [apply find_none|].
  induction l as [|a l IH]; cbn; intros Hx; [reflexivity|].
  rewrite (Hx a (or_introl eq_refl)). apply IH. intros x Hi. apply Hx. right. exact Hi.
Qed.

(** ** Well-formed graphs *)

Section Graph.
  Variable g : graph.
  Hypothesis WF : graph_wf g.

  Lemma wf_nodup_reqs a : artefact_wf a -> NoDup (map req_id (ovalues (art_requirements a))).
  Proof.
    intros [Hs Hk]. apply osorted_nodup_keys in Hs.
    replace (map req_id (ovalues (art_requirements a))) with (okeys (art_requirements a)); [exact Hs|].
    unfold okeys, ovalues. rewrite map_map. apply map_ext_in.
    intros [k r] Hin. cbn. symmetry. apply Hk. exact Hin.
  Qed.

  Lemma wf_sorted_reqs a : artefact_wf a -> ssorted (map req_id (ovalues (art_requirements a))).
  Proof.
    intros [Hs Hk].
    replace (map req_id (ovalues (art_requirements a))) with (okeys (art_requirements a)); [exact Hs|].
    unfold okeys, ovalues. rewrite map_map. apply map_ext_in.
    intros [k r] Hin. cbn. symmetry. apply Hk. exact Hin.
  Qed.

  Lemma wf_art k a : In (k, a) (g_artefacts g) -> art_id a = k /\ artefact_wf a.
  Proof. apply WF. Qed.

  Lemma reqs_of_in k a : In (k, a) (g_artefacts g) -> reqs_of g k = ovalues (art_requirements a).
  Proof. intros Hin. unfold reqs_of. rewrite (In_oget k a); [reflexivity|apply WF|exact Hin]. Qed.

  Lemma reqs_of_sorted k : ssorted (map req_id (reqs_of g k)).
  Proof.
    unfold reqs_of. destruct (oget k (g_artefacts g)) as [a|] eqn:E; [|constructor].
    apply oget_Some_In in E. apply wf_sorted_reqs. apply (wf_art _ _ E).
  Qed.

  Lemma reqs_of_nodup k : NoDup (map req_id (reqs_of g k)).
  Proof. apply ssorted_nodup, reqs_of_sorted. Qed.

  Lemma map_filter_sorted {A K} `{Ord K} (f : A -> K) (p : A -> bool) l :
    ssorted (map f l) -> ssorted (map f (filter p l)).
  Proof.
    intros Hs. induction l as [|a l IH]; cbn; [exact Hs|].
    cbn in Hs. inversion Hs as [|? ? Hs' Hf]; subst.
    destruct (p a); cbn; [|apply IH; exact Hs'].
    constructor; [apply IH; exact Hs'|].
    rewrite Forall_forall in *. intros x Hx. apply Hf.
    apply in_map_iff in Hx. destruct Hx as [y [<- Hy]]. apply filter_In in Hy.
    apply in_map. tauto.
  Qed.

  Lemma first_defs_sorted k : ssorted (map req_id (first_defs g k)).
  Proof. unfold first_defs. apply map_filter_sorted, reqs_of_sorted. Qed.

  Lemma first_defs_nodup k : NoDup (map req_id (first_defs g k)).
  Proof. apply ssorted_nodup, first_defs_sorted. Qed.

  (** splitting the artefact list at one artefact *)
  Lemma split_sorted pre k a post :
    g_artefacts g = pre ++ (k, a) :: post ->
    (forall k' a', In (k', a') pre -> lt k' k) /\
    (forall k' a', In (k', a') post -> lt k k').
  Proof.
    intros Hg. destruct WF as [Hs _]. unfold osorted, okeys in Hs. rewrite Hg, map_app in Hs.
    cbn in Hs. clear Hg. induction pre as [|[k0 a0] pre IH]; cbn in Hs.
    - inversion Hs as [|? ? Hs' Hf]; subst. split; [intros k' a' []|].
      intros k' a' Hin. rewrite Forall_forall in Hf. apply Hf.
      apply in_map_iff. exists (k', a'). auto.
    - inversion Hs as [|? ? Hs' Hf]; subst. destruct (IH Hs') as [I1 I2]. split; [|exact I2].
      intros k' a' [He|Hin]; [|eapply I1; exact Hin].
      inversion He; subst. rewrite Forall_forall in Hf. apply Hf.
      apply in_or_app. right. left. reflexivity.
  Qed.

  Definition pre_reqs (pre : omap artefact_id artefact) : list requirement :=
    flat_map (fun e => ovalues (art_requirements (snd e))) pre.

  Lemma defined_before_split pre k a post id :
    g_artefacts g = pre ++ (k, a) :: post ->
    defined_before g k id = existsb (fun r => eqb (req_id r) id) (pre_reqs pre).
  Proof.
    intros Hg. destruct (split_sorted _ _ _ _ Hg) as [H1 H2].
    unfold defined_before. rewrite Hg, existsb_app. cbn [existsb fst].
    rewrite cmp_refl. cbn [andb orb].
    assert (Hpost : existsb (fun e => match cmp (fst e) k with Lt => true | _ => false end &&
                     existsb (fun r => eqb (req_id r) id) (ovalues (art_requirements (snd e)))) post
                    = false).
    { apply not_true_iff_false. rewrite existsb_exists. intros [[k' a'] [Hin Hb]]. cbn [fst snd] in Hb.
      specialize (H2 _ _ Hin). destruct (cmp k' k) eqn:E; try discriminate.
      exact (lt_asym _ _ H2 E). }
    rewrite Hpost, orb_false_r. clear Hg H2 Hpost. unfold pre_reqs.
    induction pre as [|[k0 a0] pre IH]; cbn [existsb flat_map fst snd]; [reflexivity|].
    rewrite existsb_app, IH by (intros k' a' Hin; eapply H1; right; exact Hin).
    assert (Hlt : lt k0 k) by (eapply H1; left; reflexivity).
    unfold lt in Hlt. rewrite Hlt. reflexivity.
  Qed.

  Lemma find_existsb {A} (p : A -> bool) l : is_none (find p l) = negb (existsb p l).
  Proof. induction l as [|a l IH]; cbn; [reflexivity|]. destruct (p a); cbn; auto. Qed.

  Lemma first_defs_split pre k a post :
    g_artefacts g = pre ++ (k, a) :: post ->
    first_defs g k =
    filter (fun r => is_none (find (fun r' => eqb (req_id r') (req_id r)) (pre_reqs pre)))
           (ovalues (art_requirements a)).
  Proof.
    intros Hg. unfold first_defs.
    rewrite (reqs_of_in k a) by (rewrite Hg; apply in_or_app; right; left; reflexivity).
    apply filter_ext. intros r.
    rewrite (defined_before_split _ _ _ _ _ Hg), find_existsb. reflexivity.
  Qed.

  (** The first definition of an id, seen from a prefix of the artefacts. *)
  Lemma pre_first_of pre post id r :
    g_artefacts g = pre ++ post ->
    find (fun r => eqb (req_id r) id) (pre_reqs pre) = Some r ->
    first_of g id = Some r.
  Proof.
    intros Hg Hf. unfold first_of, all_reqs. rewrite Hg, flat_map_app, find_app.
    unfold pre_reqs in Hf. rewrite Hf. reflexivity.
  Qed.

  (** ** State after collecting a prefix of the artefacts *)
  Definition pair_of_cov (pre : omap artefact_id artefact) (p : requirement_id * requirement_id) :=
    exists k a r c, In (k, a) pre /\ In r (first_defs g k) /\ In c (req_covers r) /\
                    p = (ref_id c, req_id r).
  Definition pair_of_dep (pre : omap artefact_id artefact) (p : requirement_id * requirement_id) :=
    exists k a r d, In (k, a) pre /\ In r (first_defs g k) /\ In d (req_depends r) /\
                    p = (req_id r, ref_id d).

  Definition ta_ok (k : artefact_id) (a : artefact) (ta : traced_artefact) : Prop :=
    ta_artefact ta = a /\
    (forall id, oget id (ta_by_id ta) = find (fun r => eqb (req_id r) id) (first_defs g k)) /\
    (forall id, oget id (ta_that_cover ta) =
                match that_cover_list (first_defs g k) id with [] => None | x => Some x end).

  Definition derived0 (k : artefact_id) (a : artefact) : list requirement_id :=
    if art_ignore_derived a then [] else map req_id (first_defs g k).

  Record collected (pre : omap artefact_id artefact) (t : tracer) : Prop := {
    co_rel : t_relations t = [];
    co_sorted : osorted (t_artefacts t);
    co_keys : forall k, In k (okeys (t_artefacts t)) <-> In k (okeys pre);
    co_ta : forall k a, In (k, a) pre ->
            exists ta, oget k (t_artefacts t) = Some ta /\ ta_ok k a ta /\ ta_derived ta = derived0 k a;
    co_req : forall id, option_map snd (oget id (t_req_by_id t)) =
                        find (fun r => eqb (req_id r) id) (pre_reqs pre);
    co_err : t_errors t =
             flat_map (fun e => flat_map (dup_errors_of g (fst e)) (ovalues (art_requirements (snd e)))) pre;
    co_cov_s : ssorted (t_invalid_covers t);
    co_dep_s : ssorted (t_invalid_depends t);
    co_cov : forall p, In p (t_invalid_covers t) <-> pair_of_cov pre p;
    co_dep : forall p, In p (t_invalid_depends t) <-> pair_of_dep pre p
  }.

  Lemma collected_empty : collected [] tracer_empty.
  Proof.
    split; cbn.
    - reflexivity.
    - constructor.
    - tauto.
    - intros k a [].
    - reflexivity.
    - reflexivity.
    - constructor.
    - constructor.
    - intros p. split; [intros []|]. intros (? & ? & ? & ? & [] & _).
    - intros p. split; [intros []|]. intros (? & ? & ? & ? & [] & _).
  Qed.

  Lemma fold_sins_nil_sorted {K} `{Ord K} (l : list K) :
    ssorted l -> fold_left (fun st p => sins p st) l [] = l.
  Proof.
    intros Hl. apply ssorted_ext; [apply fold_sins_sorted; constructor|exact Hl|].
    intros a. rewrite In_fold_sins. cbn. tauto.
  Qed.

  Lemma collected_step pre k a post t :
    g_artefacts g = pre ++ (k, a) :: post ->
    collected pre t -> collected (pre ++ [(k, a)]) (add_artefact t a).
  Proof.
    intros Hg Hc.
    destruct (wf_art k a) as [Hid Hwf]; [rewrite Hg; apply in_or_app; right; left; reflexivity|].
    pose proof (wf_nodup_reqs a Hwf) as Hnd.
    pose (B := fun id => oget id (t_req_by_id t)).
    pose proof (add_reqs_spec a B (ovalues (art_requirements a)) (mkAdd t [] [] []) Hnd
                  (fun r _ => eq_refl)) as HS.
    unfold add_artefact.
    set (s := fold_left (add_requirement a) (ovalues (art_requirements a)) (mkAdd t [] [] [])) in *.
    cbv zeta in HS. cbn [ad_tracer ad_derived ad_by_id ad_that_cover] in HS.
    destruct HS as (S1 & S2 & S3 & S4 & S5 & S6 & S7 & S8 & S9).
    assert (HBn : forall id, is_none (B id) =
                    is_none (find (fun r => eqb (req_id r) id) (pre_reqs pre))).
    { intros id. rewrite <- (co_req _ _ Hc id). unfold B. destruct (oget id (t_req_by_id t)); reflexivity. }
    assert (Hnew : news B (ovalues (art_requirements a)) = first_defs g k).
    { rewrite (first_defs_split _ _ _ _ Hg). unfold news. apply filter_ext. intros r. apply HBn. }
    rewrite Hnew in *.
    pose proof (first_defs_nodup k) as Hfnd.
    destruct (split_sorted _ _ _ _ Hg) as [Hlt _].
    rewrite Hid.
    split; cbn [t_artefacts t_relations t_errors t_req_by_id t_invalid_depends t_invalid_covers].
    - rewrite S2. apply (co_rel _ _ Hc).
    - rewrite S1. apply oins_sorted, (co_sorted _ _ Hc).
    - intros k'. rewrite S1, In_okeys_oins, (co_keys _ _ Hc).
      unfold okeys. rewrite map_app, in_app_iff. cbn. intuition auto.
    - intros k' a' Hin. rewrite S1. apply in_app_or in Hin. destruct Hin as [Hin|[He|[]]].
      + rewrite oget_oins_other; [apply (co_ta _ _ Hc); exact Hin|].
        apply lt_neq. eapply Hlt; exact Hin.
      + inversion He; subst k' a'. rewrite oget_oins_same. eexists. split; [reflexivity|].
        unfold ta_ok. cbn [ta_artefact ta_by_id ta_that_cover ta_derived]. repeat split.
        * intros id. rewrite S8, (by_id_get (fun r => r)) by exact Hfnd.
          destruct (find _ (first_defs g k)); reflexivity.
        * intros id. rewrite S9, that_cover_get, that_cover_filter. cbn [oget opt_default app].
          destruct (that_cover_list (first_defs g k) id); reflexivity.
        * rewrite S7. unfold derived0. destruct (art_ignore_derived a); [reflexivity|].
          apply fold_sins_nil_sorted, first_defs_sorted.
    - intros id. rewrite S4, (by_id_get (fun r => (art_id a, r))) by exact Hfnd.
      unfold pre_reqs. rewrite flat_map_app, find_app. cbn [flat_map snd]. rewrite app_nil_r.
      fold (pre_reqs pre). rewrite <- (co_req _ _ Hc id).
      rewrite (first_defs_split _ _ _ _ Hg).
      destruct (oget id (t_req_by_id t)) as [[a0 r0]|] eqn:E; cbn [option_map snd].
      + destruct (find _ (filter _ _)) as [r|] eqn:Ef; [|reflexivity].
        apply find_some in Ef. destruct Ef as [Hin He]. apply eqb_true in He. subst id.
        apply filter_In in Hin. destruct Hin as [_ Hn]. rewrite <- HBn in Hn. unfold B in Hn.
        rewrite E in Hn. discriminate.
      + rewrite find_filter_none.
        * destruct (find _ (ovalues (art_requirements a))); reflexivity.
        * intros r Hin He. apply eqb_true in He. subst id. rewrite <- HBn. unfold B. rewrite E. reflexivity.
    - rewrite S3, (co_err _ _ Hc), flat_map_app. cbn [flat_map fst snd]. rewrite app_nil_r. f_equal.
      unfold dups. apply flat_map_ext_in. intros r Hin. unfold dup_errors_of.
      rewrite (defined_before_split _ _ _ _ _ Hg).
      specialize (HBn (req_id r)). rewrite find_existsb in HBn.
      pose proof (co_req _ _ Hc (req_id r)) as Hr. unfold B in *.
      destruct (oget (req_id r) (t_req_by_id t)) as [[a0 r0]|]; cbn in *.
      + destruct (existsb _ (pre_reqs pre)); [|discriminate].
        rewrite (pre_first_of pre ((k, a) :: post) (req_id r) r0); auto.
      + destruct (existsb _ (pre_reqs pre)); [discriminate|reflexivity].
    - rewrite S5. apply fold_sins_sorted, (co_cov_s _ _ Hc).
    - rewrite S6. apply fold_sins_sorted, (co_dep_s _ _ Hc).
    - intros p. rewrite S5, In_fold_sins, (co_cov _ _ Hc). unfold pair_of_cov, cov_pairs.
      rewrite in_flat_map. split.
      + intros [[r [Hr Hp]]|(k' & a' & r & c & H1 & H2)].
        * apply in_map_iff in Hp. destruct Hp as [c [<- Hcv]].
          exists k, a, r, c. rewrite in_app_iff. cbn. auto 10.
        * exists k', a', r, c. rewrite in_app_iff. auto.
      + intros (k' & a' & r & c & Hin & Hr & Hcv & ->). apply in_app_or in Hin.
        destruct Hin as [Hin|[He|[]]].
        * right. exists k', a', r, c. auto.
        * inversion He; subst. left. exists r. split; [exact Hr|]. apply in_map_iff. exists c. auto.
    - intros p. rewrite S6, In_fold_sins, (co_dep _ _ Hc). unfold pair_of_dep, dep_pairs.
      rewrite in_flat_map. split.
      + intros [[r [Hr Hp]]|(k' & a' & r & c & H1 & H2)].
        * apply in_map_iff in Hp. destruct Hp as [c [<- Hcv]].
          exists k, a, r, c. rewrite in_app_iff. cbn. auto 10.
        * exists k', a', r, c. rewrite in_app_iff. auto.
      + intros (k' & a' & r & c & Hin & Hr & Hcv & ->). apply in_app_or in Hin.
        destruct Hin as [Hin|[He|[]]].
        * right. exists k', a', r, c. auto.
        * inversion He; subst. left. exists r. split; [exact Hr|]. apply in_map_iff. exists c. auto.
  Qed.

  Lemma collected_fold pre post t :
    g_artefacts g = pre ++ post -> collected pre t ->
    collected (g_artefacts g) (fold_left add_artefact (ovalues post) t).
  Proof.
    revert pre t. induction post as [|[k a] post IH]; intros pre t Hg Hc; cbn.
    - rewrite app_nil_r in Hg. rewrite Hg. exact Hc.
    - apply (IH (pre ++ [(k, a)])).
      + rewrite <- app_assoc. exact Hg.
      + apply (collected_step pre k a post); assumption.
  Qed.

  Lemma collected_all :
    collected (g_artefacts g) (fold_left add_artefact (ovalues (g_artefacts g)) tracer_empty).
  Proof. apply (collected_fold []); [reflexivity|apply collected_empty]. Qed.
End Graph.
