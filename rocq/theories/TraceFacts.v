(** The relation and validation phases of the tracer (trace.rs:157-331) computed from the link
    list of TraceSpec.v, and the exact result of [trace]. *)
From Verif Require Import Base OMap Models Tracer TraceSpec TraceIndex.
From Coq Require Import Sorting.Sorted.

Lemma find_filter_nodup {A K} `{Ord K} (f : A -> K) (id : K) l :
  NoDup (map f l) ->
  filter (fun x => eqb (f x) id) l =
  match find (fun x => eqb (f x) id) l with Some x => [x] | None => [] end.
Proof.
  induction l as [|a l IH]; cbn; intros Hnd; [reflexivity|].
  inversion Hnd as [|? ? Hni Hnd']; subst.
  destruct (eqb_spec (f a) id) as [<-|Hne]; [|apply IH; exact Hnd'].
  f_equal. rewrite IH by exact Hnd'.
  destruct (find _ l) as [x|] eqn:E; [|reflexivity].
  apply find_some in E. destruct E as [Hin He]. apply eqb_true in He.
  exfalso. apply Hni. rewrite <- He. apply in_map. exact Hin.
Qed.

Section Facts.
  Variable g : graph.
  Hypothesis WF : graph_wf g.

  (** ** Links: the list and the predicate agree *)
  Lemma in_links_of rel up l :
    In l (links_of g rel up) <->
    lk_upper l = up /\ In (lk_lower_art l) (rel_lower rel) /\
    In (lk_lower l) (first_defs g (lk_lower_art l)) /\
    match lk_dir l with
    | Downwards => In (lk_ref l) (req_depends (lk_upper l)) /\
                   ref_id (lk_ref l) = req_id (lk_lower l)
    | Upwards => In (lk_ref l) (req_covers (lk_lower l)) /\
                 ref_id (lk_ref l) = req_id (lk_upper l)
    end.
  Proof.
    unfold links_of, links_down, links_up. rewrite in_app_iff. split.
    - intros [Hin|Hin].
      + apply in_flat_map in Hin. destruct Hin as [d [Hd Hin]].
        apply in_flat_map in Hin. destruct Hin as [la [Hla Hin]].
        apply in_map_iff in Hin. destruct Hin as [low [<- Hlow]].
        apply filter_In in Hlow. destruct Hlow as [Hlow He]. apply eqb_true in He. cbn. auto.
      + apply in_flat_map in Hin. destruct Hin as [la [Hla Hin]].
        apply in_flat_map in Hin. destruct Hin as [low [Hlow Hin]].
        apply in_map_iff in Hin. destruct Hin as [c [<- Hc]].
        apply filter_In in Hc. destruct Hc as [Hc He]. apply eqb_true in He. cbn. auto.
    - destruct l as [u la low r []]; cbn; intros (-> & Hla & Hlow & Hr & He).
      + right. apply in_flat_map. exists la. split; [exact Hla|].
        apply in_flat_map. exists low. split; [exact Hlow|].
        apply in_map_iff. exists r. split; [reflexivity|]. apply filter_In. rewrite eqb_true. auto.
      + left. apply in_flat_map. exists r. split; [exact Hr|].
        apply in_flat_map. exists la. split; [exact Hla|].
        apply in_map_iff. exists low. split; [reflexivity|]. apply filter_In. rewrite eqb_true. auto.
  Qed.

  Lemma in_links rel l : In l (links g rel) <-> is_link g rel l.
  Proof.
    unfold links, is_link. rewrite in_flat_map. split.
    - intros [up [Hup Hin]]. apply in_links_of in Hin. destruct Hin as (<- & H1 & H2 & H3). auto.
    - intros (H0 & H1 & H2 & H3). exists (lk_upper l). split; [exact H0|].
      apply in_links_of. auto.
  Qed.

  (** ** The state while relations are being traced *)
  Variable t0 : tracer.
  Hypothesis C0 : collected g (g_artefacts g) t0.

  Record St (dl : list link) (E : list error) (R : list traced_relation) (t : tracer) : Prop := {
    st_rel : t_relations t = R;
    st_err : t_errors t = E;
    st_req : t_req_by_id t = t_req_by_id t0;
    st_sorted : osorted (t_artefacts t);
    st_keys : forall k, In k (okeys (t_artefacts t)) <-> In k (okeys (g_artefacts g));
    st_ta : forall k a, oget k (g_artefacts g) = Some a ->
            exists ta, oget k (t_artefacts t) = Some ta /\ ta_ok g k a ta /\
                       ssorted (ta_derived ta) /\
                       (forall id, In id (ta_derived ta) <->
                          In id (derived0 g k a) /\
                          ~ (exists l, In l dl /\ lk_lower_art l = k /\ req_id (lk_lower l) = id));
    st_cov_s : ssorted (t_invalid_covers t);
    st_dep_s : ssorted (t_invalid_depends t);
    st_cov : forall p, In p (t_invalid_covers t) <->
               In p (t_invalid_covers t0) /\
               ~ (exists l, In l dl /\ lk_dir l = Upwards /\
                            p = (req_id (lk_upper l), req_id (lk_lower l)));
    st_dep : forall p, In p (t_invalid_depends t) <->
               In p (t_invalid_depends t0) /\
               ~ (exists l, In l dl /\ lk_dir l = Downwards /\
                            p = (req_id (lk_upper l), req_id (lk_lower l)))
  }.

  Lemma derived0_sorted k a : ssorted (derived0 g k a).
  Proof.
    unfold derived0. destruct (art_ignore_derived a); [constructor|].
    apply first_defs_sorted. exact WF.
  Qed.

  Lemma St_init : St [] (t_errors t0) [] t0.
  Proof.
    split; try reflexivity.
    - apply (co_rel _ _ _ C0).
    - apply (co_sorted _ _ _ C0).
    - apply (co_keys _ _ _ C0).
    - intros k a Hg. destruct (co_ta _ _ _ C0 k a) as (ta & H1 & H2 & H3).
      { apply oget_Some_In. exact Hg. }
      exists ta. split; [exact H1|]. split; [exact H2|]. rewrite H3. split; [apply derived0_sorted|].
      intros id. split; [|tauto]. intros Hin. split; [exact Hin|]. intros (l & [] & _).
    - apply (co_cov_s _ _ _ C0).
    - apply (co_dep_s _ _ _ C0).
    - intros p. split; [|tauto]. intros Hin. split; [exact Hin|]. intros (l & [] & _).
    - intros p. split; [|tauto]. intros Hin. split; [exact Hin|]. intros (l & [] & _).
  Qed.

  (** Recording one link. *)
  Lemma St_link dl E R t l es aid a ta :
    St dl E R t ->
    aid = lk_lower_art l ->
    oget aid (g_artefacts g) = Some a ->
    oget aid (t_artefacts t) = Some ta ->
    St (dl ++ [l]) (E ++ es) R
       (match lk_dir l with Downwards => remove_invalid_depends | Upwards => remove_invalid_covers end
          (remove_derived
             (mkTracer (t_artefacts t) (t_relations t) (t_errors t ++ es) (t_req_by_id t)
                       (t_invalid_depends t) (t_invalid_covers t))
             aid ta (req_id (lk_lower l)))
          (req_id (lk_upper l), req_id (lk_lower l))).
  Proof.
    intros Hs -> Ha Hta.
    assert (HT : forall t', t' =
       (match lk_dir l with Downwards => remove_invalid_depends | Upwards => remove_invalid_covers end
          (remove_derived
             (mkTracer (t_artefacts t) (t_relations t) (t_errors t ++ es) (t_req_by_id t)
                       (t_invalid_depends t) (t_invalid_covers t))
             (lk_lower_art l) ta (req_id (lk_lower l)))
          (req_id (lk_upper l), req_id (lk_lower l))) ->
       t_relations t' = t_relations t /\ t_errors t' = t_errors t ++ es /\
       t_req_by_id t' = t_req_by_id t /\
       t_artefacts t' = oins (lk_lower_art l)
          (mkTA (ta_artefact ta) (ta_by_id ta) (ta_that_cover ta)
                (srem (req_id (lk_lower l)) (ta_derived ta))) (t_artefacts t) /\
       t_invalid_covers t' =
         match lk_dir l with
         | Upwards => srem (req_id (lk_upper l), req_id (lk_lower l)) (t_invalid_covers t)
         | Downwards => t_invalid_covers t end /\
       t_invalid_depends t' =
         match lk_dir l with
         | Downwards => srem (req_id (lk_upper l), req_id (lk_lower l)) (t_invalid_depends t)
         | Upwards => t_invalid_depends t end).
    { intros t' ->. destruct (lk_dir l); cbn; auto 10. }
    match goal with |- St _ _ _ ?x => specialize (HT x eq_refl); generalize dependent x end.
    intros t' (T1 & T2 & T3 & T4 & T5 & T6).
    destruct (st_ta _ _ _ _ Hs _ _ Ha) as (ta' & Hta' & Hok & Hso & Hder).
    assert (ta' = ta) by congruence. subst ta'.
    split.
    - rewrite T1. apply (st_rel _ _ _ _ Hs).
    - rewrite T2, (st_err _ _ _ _ Hs). reflexivity.
    - rewrite T3. apply (st_req _ _ _ _ Hs).
    - rewrite T4. apply oins_sorted, (st_sorted _ _ _ _ Hs).
    - intros k. rewrite T4, In_okeys_oins, (st_keys _ _ _ _ Hs).
      split; [|tauto]. intros [->|Hin]; [|exact Hin]. eapply oget_Some_key. exact Ha.
    - intros k a' Ha'. rewrite T4.
      destruct (ord_eq_dec k (lk_lower_art l)) as [->|Hne].
      + assert (a' = a) by congruence. subst a'.
        rewrite oget_oins_same. eexists. split; [reflexivity|].
        destruct Hok as (O1 & O2 & O3). split; [split; [exact O1|split; [exact O2|exact O3]]|].
        cbn [ta_derived]. split; [apply srem_sorted; exact Hso|].
        intros id. rewrite In_srem by exact Hso. rewrite Hder. split.
        * intros (Hne & Hd & Hno). split; [exact Hd|].
          intros (l' & Hin & Hart & Hid). apply in_app_or in Hin. destruct Hin as [Hin|[->|[]]].
          -- apply Hno. exists l'. auto.
          -- congruence.
        * intros (Hd & Hno). split; [|split; [exact Hd|]].
          -- intros ->. apply Hno. exists l. rewrite in_app_iff. cbn. auto.
          -- intros (l' & Hin & Hrest). apply Hno. exists l'. rewrite in_app_iff. auto.
      + rewrite oget_oins_other by exact Hne.
        destruct (st_ta _ _ _ _ Hs _ _ Ha') as (ta'' & H1 & H2 & H3 & H4).
        exists ta''. split; [exact H1|]. split; [exact H2|]. split; [exact H3|].
        intros id. rewrite H4. split; intros (Hd & Hno); (split; [exact Hd|]).
        * intros (l' & Hin & Hart & Hid). apply in_app_or in Hin. destruct Hin as [Hin|[->|[]]].
          -- apply Hno. exists l'. auto.
          -- congruence.
        * intros (l' & Hin & Hrest). apply Hno. exists l'. rewrite in_app_iff. auto.
    - rewrite T5. destruct (lk_dir l); [apply srem_sorted|]; apply (st_cov_s _ _ _ _ Hs).
    - rewrite T6. destruct (lk_dir l); [|apply srem_sorted]; apply (st_dep_s _ _ _ _ Hs).
    - intros p. rewrite T5. destruct (lk_dir l) eqn:Hd.
      + rewrite In_srem by apply (st_cov_s _ _ _ _ Hs). rewrite (st_cov _ _ _ _ Hs). split.
        * intros (Hne & Hin0 & Hno). split; [exact Hin0|].
          intros (l' & Hin & Hdir & Hp). apply in_app_or in Hin. destruct Hin as [Hin|[->|[]]].
          -- apply Hno. exists l'. auto.
          -- congruence.
        * intros (Hin0 & Hno). split; [|split; [exact Hin0|]].
          -- intros Hp. apply Hno. exists l. rewrite in_app_iff. cbn. auto.
          -- intros (l' & Hin & Hrest). apply Hno. exists l'. rewrite in_app_iff. auto.
      + rewrite (st_cov _ _ _ _ Hs). split; intros (Hin0 & Hno); (split; [exact Hin0|]).
        * intros (l' & Hin & Hdir & Hp). apply in_app_or in Hin. destruct Hin as [Hin|[->|[]]].
          -- apply Hno. exists l'. auto.
          -- congruence.
        * intros (l' & Hin & Hrest). apply Hno. exists l'. rewrite in_app_iff. auto.
    - intros p. rewrite T6. destruct (lk_dir l) eqn:Hd.
      + rewrite (st_dep _ _ _ _ Hs). split; intros (Hin0 & Hno); (split; [exact Hin0|]).
        * intros (l' & Hin & Hdir & Hp). apply in_app_or in Hin. destruct Hin as [Hin|[->|[]]].
          -- apply Hno. exists l'. auto.
          -- congruence.
        * intros (l' & Hin & Hrest). apply Hno. exists l'. rewrite in_app_iff. auto.
      + rewrite In_srem by apply (st_dep_s _ _ _ _ Hs). rewrite (st_dep _ _ _ _ Hs). split.
        * intros (Hne & Hin0 & Hno). split; [exact Hin0|].
          intros (l' & Hin & Hdir & Hp). apply in_app_or in Hin. destruct Hin as [Hin|[->|[]]].
          -- apply Hno. exists l'. auto.
          -- congruence.
        * intros (Hin0 & Hno). split; [|split; [exact Hin0|]].
          -- intros Hp. apply Hno. exists l. rewrite in_app_iff. cbn. auto.
          -- intros (l' & Hin & Hrest). apply Hno. exists l'. rewrite in_app_iff. auto.
  Qed.

  (** ** Effect of a loop: the links it records *)
  Definition Good (s : rel_st) : Prop := exists dl E R, St dl E R (rs_tracer s).

  Definition Ext (rel : relation) (ls : list link) (s s' : rel_st) : Prop :=
    (forall dl E R, St dl E R (rs_tracer s) ->
        St (dl ++ ls) (E ++ flat_map (link_errors g rel) ls) R (rs_tracer s')) /\
    rs_any s' = rs_any s /\
    rs_covered s' = rs_covered s ++ map link_coverage ls /\
    rs_uncovered s' = rs_uncovered s /\
    rs_is_covered s' = rs_is_covered s || negb (is_nil ls).

  Lemma Ext_nil rel s : Ext rel [] s s.
  Proof.
    split; [|cbn; rewrite app_nil_r, orb_false_r; auto].
    intros dl E R Hs. cbn. rewrite !app_nil_r. exact Hs.
  Qed.

  Lemma Ext_app rel l1 l2 s1 s2 s3 : Ext rel l1 s1 s2 -> Ext rel l2 s2 s3 -> Ext rel (l1 ++ l2) s1 s3.
  Proof.
    intros (A1 & A2 & A3 & A4 & A5) (B1 & B2 & B3 & B4 & B5). split.
    - intros dl E R Hs. rewrite flat_map_app, !app_assoc. apply B1, A1, Hs.
    - rewrite B2, B3, B4, B5, A2, A3, A4, A5, map_app, app_assoc, <- orb_assoc.
      repeat split; try reflexivity. f_equal. destruct l1; reflexivity.
  Qed.

  Lemma Ext_good rel ls s s' : Ext rel ls s s' -> Good s -> Good s'.
  Proof. intros [H1 _] (dl & E & R & Hs). unfold Good. eauto. Qed.

  Lemma for_each_ext {A} rel (l : list A) (f : rel_st -> A -> outcome rel_st) (h : A -> list link) s :
    Good s ->
    (forall a s, In a l -> Good s -> exists s', f s a = Done s' /\ Ext rel (h a) s s') ->
    exists s', for_each l f s = Done s' /\ Ext rel (flat_map h l) s s'.
  Proof.
    revert s. induction l as [|a l IH]; intros s Hg Hf; cbn.
    - exists s. split; [reflexivity|apply Ext_nil].
    - destruct (Hf a s (or_introl eq_refl) Hg) as (s1 & E1 & X1). rewrite E1. cbn.
      destruct (IH s1) as (s2 & E2 & X2).
      + eapply Ext_good; eassumption.
      + intros a' s' Hin. apply Hf. right. exact Hin.
      + exists s2. split; [exact E2|]. eapply Ext_app; eassumption.
  Qed.

  Lemma known_ta dl E R t k :
    St dl E R t -> In k (okeys (g_artefacts g)) ->
    exists a ta, oget k (g_artefacts g) = Some a /\ oget k (t_artefacts t) = Some ta /\ ta_ok g k a ta.
  Proof.
    intros Hs Hk. apply oget_key_Some in Hk. destruct Hk as [a Ha].
    destruct (st_ta _ _ _ _ Hs _ _ Ha) as (ta & H1 & H2 & _). exists a, ta. auto.
  Qed.

  Lemma push_error_eq t e :
    push_error t e = mkTracer (t_artefacts t) (t_relations t) (t_errors t ++ [e]) (t_req_by_id t)
                              (t_invalid_depends t) (t_invalid_covers t).
  Proof. reflexivity. Qed.

  Lemma push_nothing t :
    t = mkTracer (t_artefacts t) (t_relations t) (t_errors t ++ []) (t_req_by_id t)
                 (t_invalid_depends t) (t_invalid_covers t).
  Proof. rewrite app_nil_r. destruct t; reflexivity. Qed.

  Lemma trace_depends_ext rel up d la s :
    Good s -> In la (okeys (g_artefacts g)) ->
    exists s', trace_depends up d s la = Done s' /\
      Ext rel (map (fun low => mkLink up la low d Downwards)
                   (filter (fun low => eqb (req_id low) (ref_id d)) (first_defs g la))) s s'.
  Proof.
    intros (dl0 & E0 & R0 & Hs0) Hk.
    destruct (known_ta _ _ _ _ la Hs0 Hk) as (a & ta & Ha & Hta & Hok).
    unfold trace_depends. rewrite Hta. cbn [unwrap obind].
    destruct Hok as (O1 & O2 & O3). rewrite O2.
    rewrite find_filter_nodup by (apply first_defs_nodup; exact WF).
    destruct (find _ (first_defs g la)) as [low|] eqn:Ef.
    2:{ exists s. split; [reflexivity|apply Ext_nil]. }
    apply find_some in Ef. destruct Ef as [Hlow He]. apply eqb_true in He.
    eexists. split; [reflexivity|].
    set (l := mkLink up la low d Downwards).
    split; [|cbn; rewrite orb_true_r; auto].
    intros dl E R Hs. cbn [rs_tracer map flat_map]. rewrite app_nil_r.
    assert (Hw : wants_title g la = art_reference_with_title (ta_artefact ta)).
    { unfold wants_title. rewrite Ha, O1. reflexivity. }
    pose proof (St_link dl E R (rs_tracer s) l (link_errors g rel l) la a ta Hs eq_refl Ha Hta) as HL.
    cbn [lk_dir lk_lower lk_upper l] in HL.
    match type of HL with St _ _ _ ?x => match goal with |- St _ _ _ ?y => replace y with x end end;
      [exact HL|].
    f_equal. f_equal. unfold link_errors, wrong_title_errors, missing_title_errors, referenced,
      referenced_artefact. cbn [lk_dir lk_lower lk_upper lk_ref lk_lower_art l].
    destruct (ref_title d) as [ti|].
    - destruct (option_eqb str_eqb (Some ti) (req_title low)); cbn [negb app].
      + symmetry. apply push_nothing.
      + reflexivity.
    - rewrite Hw. destruct (art_reference_with_title (ta_artefact ta)); cbn [app].
      + reflexivity.
      + symmetry. apply push_nothing.
  Qed.

  Lemma trace_covers_ext rel ua up la low c s :
    Good s -> In la (okeys (g_artefacts g)) ->
    oget (rel_upper rel) (g_artefacts g) = Some ua ->
    exists s', trace_covers ua up la s (low, c) = Done s' /\
      Ext rel [mkLink up la low c Upwards] s s'.
  Proof.
    intros (dl0 & E0 & R0 & Hs0) Hk Hua.
    destruct (known_ta _ _ _ _ la Hs0 Hk) as (a & ta & Ha & Hta & Hok).
    unfold trace_covers. rewrite Hta. cbn [unwrap obind].
    eexists. split; [reflexivity|].
    set (l := mkLink up la low c Upwards).
    split; [|cbn; rewrite orb_true_r; auto].
    intros dl E R Hs. cbn [rs_tracer map flat_map]. rewrite app_nil_r.
    assert (Hw : wants_title g (rel_upper rel) = art_reference_with_title ua).
    { unfold wants_title. rewrite Hua. reflexivity. }
    pose proof (St_link dl E R (rs_tracer s) l (link_errors g rel l) la a ta Hs eq_refl Ha Hta) as HL.
    cbn [lk_dir lk_lower lk_upper l] in HL.
    match type of HL with St _ _ _ ?x => match goal with |- St _ _ _ ?y => replace y with x end end;
      [exact HL|].
    f_equal. f_equal. unfold link_errors, wrong_title_errors, missing_title_errors, referenced,
      referenced_artefact. cbn [lk_dir lk_lower lk_upper lk_ref lk_lower_art l].
    destruct (ref_title c) as [ti|].
    - destruct (option_eqb str_eqb (Some ti) (req_title up)); cbn [negb app].
      + symmetry. apply push_nothing.
      + reflexivity.
    - rewrite Hw. destruct (art_reference_with_title ua); cbn [app].
      + reflexivity.
      + symmetry. apply push_nothing.
  Qed.

  Lemma trace_lower_ext rel ua up la s :
    Good s -> In la (okeys (g_artefacts g)) ->
    oget (rel_upper rel) (g_artefacts g) = Some ua ->
    exists s', trace_lower ua up s la = Done s' /\
      Ext rel (flat_map (fun low =>
                 map (fun c => mkLink up la low c Upwards)
                     (filter (fun c => eqb (ref_id c) (req_id up)) (req_covers low)))
                 (first_defs g la)) s s'.
  Proof.
    intros Hg Hk Hua. pose proof Hg as (dl0 & E0 & R0 & Hs0).
    destruct (known_ta _ _ _ _ la Hs0 Hk) as (a & ta & Ha & Hta & Hok).
    unfold trace_lower. rewrite Hta. cbn [unwrap obind].
    destruct Hok as (O1 & O2 & O3). rewrite O3.
    set (tc := that_cover_list (first_defs g la) (req_id up)).
    assert (Heq : flat_map (fun low => map (fun c => mkLink up la low c Upwards)
                     (filter (fun c => eqb (ref_id c) (req_id up)) (req_covers low)))
                 (first_defs g la)
                  = flat_map (fun rc => [mkLink up la (fst rc) (snd rc) Upwards]) tc).
    { unfold tc, that_cover_list. rewrite flat_map_flat_map. apply flat_map_ext_in.
      intros low _. induction (filter _ (req_covers low)) as [|c cs IH]; cbn; congruence. }
    rewrite Heq. clearbody tc. destruct tc as [|x tc'] eqn:Etc.
    - exists s. split; [reflexivity|apply Ext_nil].
    - apply for_each_ext; [exact Hg|].
      intros [low c] s' _ Hg'. apply trace_covers_ext; assumption.
  Qed.

  Lemma trace_upper_links rel ua up s :
    Good s -> (forall la, In la (rel_lower rel) -> In la (okeys (g_artefacts g))) ->
    oget (rel_upper rel) (g_artefacts g) = Some ua ->
    exists s', trace_upper rel ua s up = Done s' /\
      (forall dl E R, St dl E R (rs_tracer s) ->
         St (dl ++ links_of g rel up) (E ++ flat_map (link_errors g rel) (links_of g rel up)) R
            (rs_tracer s')) /\
      rs_any s' = rs_any s || negb (is_nil (links_of g rel up)) /\
      rs_covered s' = rs_covered s ++ map link_coverage (links_of g rel up) /\
      rs_uncovered s' = rs_uncovered s ++ (if is_nil (links_of g rel up) then [req_id up] else []).
  Proof.
    intros Hg Hlow Hua. unfold trace_upper.
    set (s0 := mkRel (rs_tracer s) (rs_any s) (rs_covered s) (rs_uncovered s) false).
    destruct (for_each_ext rel (req_depends up)
                (fun s depends => for_each (rel_lower rel) (trace_depends up depends) s)
                (fun d => flat_map (fun la =>
                   map (fun low => mkLink up la low d Downwards)
                       (filter (fun low => eqb (req_id low) (ref_id d)) (first_defs g la)))
                   (rel_lower rel)) s0) as (s1 & E1 & X1).
    { exact Hg. }
    { intros d s' _ Hg'. apply for_each_ext; [exact Hg'|].
      intros la s'' Hla Hg''. apply trace_depends_ext; auto. }
    rewrite E1. cbn [obind].
    destruct (for_each_ext rel (rel_lower rel) (trace_lower ua up)
                (fun la => flat_map (fun low =>
                   map (fun c => mkLink up la low c Upwards)
                     (filter (fun c => eqb (ref_id c) (req_id up)) (req_covers low)))
                   (first_defs g la)) s1) as (s2 & E2 & X2).
    { eapply Ext_good; [exact X1|exact Hg]. }
    { intros la s' Hla Hg'. apply trace_lower_ext; auto. }
    rewrite E2. cbn [obind].
    pose proof (Ext_app _ _ _ _ _ _ X1 X2) as X.
    change (Ext rel (links_of g rel up) s0 s2) in X.
    destruct X as (XS & Xa & Xc & Xu & Xi).
    eexists. split; [reflexivity|]. cbn [rs_tracer rs_any rs_covered rs_uncovered].
    cbn in Xi, Xa, Xc, Xu. split; [exact XS|].
    rewrite Xa, Xi, Xc, Xu. repeat split.
    destruct (is_nil (links_of g rel up)); cbn; [reflexivity|rewrite app_nil_r; reflexivity].
  Qed.

  Lemma trace_uppers rel ua ups s :
    Good s -> (forall la, In la (rel_lower rel) -> In la (okeys (g_artefacts g))) ->
    oget (rel_upper rel) (g_artefacts g) = Some ua ->
    exists s', for_each ups (trace_upper rel ua) s = Done s' /\
      (forall dl E R, St dl E R (rs_tracer s) ->
         St (dl ++ flat_map (links_of g rel) ups)
            (E ++ flat_map (link_errors g rel) (flat_map (links_of g rel) ups)) R (rs_tracer s')) /\
      rs_any s' = rs_any s || negb (is_nil (flat_map (links_of g rel) ups)) /\
      rs_covered s' = rs_covered s ++ map link_coverage (flat_map (links_of g rel) ups) /\
      rs_uncovered s' = rs_uncovered s ++
        map req_id (filter (fun up => is_nil (links_of g rel up)) ups).
  Proof.
    intros Hg Hlow Hua. revert s Hg. induction ups as [|up ups IH]; intros s Hg; cbn [for_each].
    - exists s. cbn. rewrite !app_nil_r, orb_false_r. split; [reflexivity|]. split; [|auto].
      intros dl E R Hs. rewrite !app_nil_r. exact Hs.
    - destruct (trace_upper_links rel ua up s Hg Hlow Hua) as (s1 & E1 & A1 & A2 & A3 & A4).
      rewrite E1. cbn [obind].
      destruct (IH s1) as (s2 & E2 & B1 & B2 & B3 & B4).
      { destruct Hg as (dl & E & R & Hs). unfold Good. eauto. }
      exists s2. split; [exact E2|]. cbn [flat_map filter]. split; [|split; [|split]].
      + intros dl E R Hs. rewrite flat_map_app, !app_assoc. apply B1, A1, Hs.
      + rewrite B2, A2, <- orb_assoc. f_equal. destruct (links_of g rel up); reflexivity.
      + rewrite B3, A3, map_app, app_assoc. reflexivity.
      + rewrite B4, A4. destruct (is_nil (links_of g rel up)); cbn [map];
          rewrite <- app_assoc; reflexivity.
  Qed.

  (** ** One relation *)
  Definition traced_of (rel : relation) : traced_relation :=
    mkTracedRelation rel (map link_coverage (links g rel))
      (map req_id (filter (fun up => is_nil (links_of g rel up)) (reqs_of g (rel_upper rel)))).

  Lemma St_push dl E R t e tr :
    St dl E R t ->
    St dl (E ++ e) (R ++ tr)
       (mkTracer (t_artefacts t) (t_relations t ++ tr) (t_errors t ++ e) (t_req_by_id t)
                 (t_invalid_depends t) (t_invalid_covers t)).
  Proof.
    intros Hs. destruct Hs as [A1 A2 A3 A4 A5 A6 A7 A8 A9 A10]. split; cbn; try assumption.
    - rewrite A1. reflexivity.
    - rewrite A2. reflexivity.
  Qed.

  Lemma trace_relation_ok dl E R t rel :
    St dl E R t -> relation_ok g rel ->
    exists t', trace_relation t rel = Done t' /\
      St (dl ++ links g rel) (E ++ relation_errors g rel) (R ++ [traced_of rel]) t'.
  Proof.
    intros Hs (ua & Hua & Hlow).
    unfold trace_relation.
    destruct (st_ta _ _ _ _ Hs _ _ Hua) as (ta & Hta & (O1 & _) & _).
    rewrite Hta. cbn [unwrap obind]. rewrite O1.
    assert (Hreqs : reqs_of g (rel_upper rel) = ovalues (art_requirements ua)).
    { unfold reqs_of. rewrite Hua. reflexivity. }
    assert (HX : exists s', for_each (ovalues (art_requirements ua)) (trace_upper rel ua)
                    (mkRel t false [] [] false) = Done s' /\
      St (dl ++ links g rel) (E ++ flat_map (link_errors g rel) (links g rel)) R (rs_tracer s') /\
      rs_any s' = negb (is_nil (links g rel)) /\
      rs_covered s' = map link_coverage (links g rel) /\
      rs_uncovered s' =
        map req_id (filter (fun up => is_nil (links_of g rel up)) (reqs_of g (rel_upper rel)))).
    { unfold links. rewrite Hreqs. destruct Hlow as [Hnil|Hlow].
      - rewrite Hnil. eexists. split; [reflexivity|]. cbn. rewrite !app_nil_r. auto.
      - destruct (trace_uppers rel ua (ovalues (art_requirements ua)) (mkRel t false [] [] false))
          as (s' & E1 & B1 & B2 & B3 & B4); auto.
        { exists dl, E, R. exact Hs. }
        exists s'. split; [exact E1|]. split; [apply B1; exact Hs|]. auto. }
    destruct HX as (s' & E1 & B1 & B2 & B3 & B4). rewrite E1. cbn [obind].
    eexists. split; [reflexivity|].
    rewrite B2, B3, B4, negb_involutive. fold (traced_of rel).
    unfold relation_errors, unused_errors. rewrite app_assoc.
    pose proof (St_push _ _ _ _ (if is_nil (links g rel) then [EUnusedRelation rel] else [])
                        [traced_of rel] B1) as HP.
    change (mkTracedRelation rel _ _) with (traced_of rel).
    destruct (is_nil (links g rel)); [exact HP|].
    rewrite (app_nil_r (t_errors _)) in HP. exact HP.
  Qed.

  Lemma trace_relations_ok rels dl E R t :
    St dl E R t -> (forall rel, In rel rels -> relation_ok g rel) ->
    exists t', for_each rels trace_relation t = Done t' /\
      St (dl ++ flat_map (links g) rels) (E ++ flat_map (relation_errors g) rels)
         (R ++ map traced_of rels) t'.
  Proof.
    revert dl E R t. induction rels as [|rel rels IH]; intros dl E R t Hs Hok; cbn [for_each flat_map map].
    - exists t. rewrite !app_nil_r. auto.
    - destruct (trace_relation_ok dl E R t rel Hs) as (t1 & E1 & S1).
      { apply Hok. left. reflexivity. }
      rewrite E1. cbn [obind].
      destruct (IH _ _ _ _ S1) as (t2 & E2 & S2).
      { intros rel' Hin. apply Hok. right. exact Hin. }
      exists t2. split; [exact E2|]. rewrite !app_assoc.
      rewrite <- (app_assoc R [_]) in S2. exact S2.
  Qed.

  (** ** Panics *)
  Lemma trace_depends_total up d s la :
    Good s -> trace_depends up d s la = Panic \/
              exists s', trace_depends up d s la = Done s' /\ Good s'.
  Proof.
    intros Hg. destruct (in_dec ord_eq_dec la (okeys (g_artefacts g))) as [Hk|Hk].
    - right. destruct (trace_depends_ext (mkRelation [] []) up d la s Hg Hk) as (s' & E1 & X).
      exists s'. split; [exact E1|]. eapply Ext_good; eassumption.
    - left. destruct Hg as (dl & E & R & Hs). unfold trace_depends.
      destruct (oget la (t_artefacts (rs_tracer s))) eqn:Ho; [|reflexivity].
      exfalso. apply Hk. apply (st_keys _ _ _ _ Hs). eapply oget_Some_key. exact Ho.
  Qed.

  Lemma for_each_total {A} (l : list A) (f : rel_st -> A -> outcome rel_st) s :
    Good s ->
    (forall a s, In a l -> Good s -> f s a = Panic \/ exists s', f s a = Done s' /\ Good s') ->
    for_each l f s = Panic \/ exists s', for_each l f s = Done s' /\ Good s'.
  Proof.
    revert s. induction l as [|a l IH]; intros s Hg Hf; cbn.
    - right. eauto.
    - destruct (Hf a s (or_introl eq_refl) Hg) as [->|(s1 & -> & Hg1)]; cbn; [auto|].
      apply IH; [exact Hg1|]. intros a' s' Hin. apply Hf. right. exact Hin.
  Qed.

  Lemma for_each_panic {A} (l : list A) (f : rel_st -> A -> outcome rel_st) s a :
    Good s -> In a l ->
    (forall s, Good s -> f s a = Panic) ->
    (forall a s, In a l -> Good s -> f s a = Panic \/ exists s', f s a = Done s' /\ Good s') ->
    for_each l f s = Panic.
  Proof.
    revert s. induction l as [|b l IH]; intros s Hg Hin Hp Hf; cbn; [destruct Hin|].
    destruct Hin as [->|Hin].
    - rewrite Hp by exact Hg. reflexivity.
    - destruct (Hf b s (or_introl eq_refl) Hg) as [->|(s1 & -> & Hg1)]; cbn; [auto|].
      apply IH; auto. intros a' s' Hin'. apply Hf. right. exact Hin'.
  Qed.

  Lemma unknown_lower_panics ua up la s :
    Good s -> ~ In la (okeys (g_artefacts g)) -> trace_lower ua up s la = Panic.
  Proof.
    intros (dl & E & R & Hs) Hk. unfold trace_lower.
    destruct (oget la (t_artefacts (rs_tracer s))) eqn:Ho; [|reflexivity].
    exfalso. apply Hk. apply (st_keys _ _ _ _ Hs). eapply oget_Some_key. exact Ho.
  Qed.

  Lemma trace_relation_bad dl E R t rel :
    St dl E R t -> ~ relation_ok g rel -> trace_relation t rel = Panic.
  Proof.
    intros Hs Hbad. unfold trace_relation.
    destruct (oget (rel_upper rel) (g_artefacts g)) as [ua|] eqn:Hua.
    2:{ destruct (oget (rel_upper rel) (t_artefacts t)) eqn:Ho; [|reflexivity].
        apply oget_Some_key in Ho. apply (st_keys _ _ _ _ Hs) in Ho. apply oget_key_Some in Ho.
        destruct Ho. congruence. }
    destruct (st_ta _ _ _ _ Hs _ _ Hua) as (ta & Hta & (O1 & _) & _).
    rewrite Hta. cbn [unwrap obind]. rewrite O1.
    assert (Hne : art_requirements ua <> []).
    { intros He. apply Hbad. exists ua. auto. }
    assert (Hex : exists la, In la (rel_lower rel) /\ ~ In la (okeys (g_artefacts g))).
    { destruct (Forall_Exists_dec (fun la => In la (okeys (g_artefacts g)))
                  (fun la => in_dec ord_eq_dec la (okeys (g_artefacts g))) (rel_lower rel)) as [HF|HE].
      - exfalso. apply Hbad. exists ua. split; [exact Hua|]. right. apply Forall_forall. exact HF.
      - apply Exists_exists in HE. exact HE. }
    destruct Hex as (la & Hla & Hnk).
    destruct (art_requirements ua) as [|[k0 r0] rest]; [congruence|].
    change (ovalues ((k0, r0) :: rest)) with (r0 :: ovalues rest). cbn [for_each].
    assert (Hp : trace_upper rel ua (mkRel t false [] [] false) r0 = Panic).
    { unfold trace_upper. set (s0 := mkRel _ _ _ _ _).
      assert (Hg : Good s0) by (exists dl, E, R; exact Hs).
      destruct (for_each_total (req_depends r0)
                  (fun s depends => for_each (rel_lower rel) (trace_depends r0 depends) s) s0 Hg)
        as [->|(s1 & -> & Hg1)]; [|reflexivity|cbn [obind]].
      - intros d s' _ Hg'. apply for_each_total; [exact Hg'|].
        intros la' s'' _ Hg''. apply trace_depends_total. exact Hg''.
      - rewrite (for_each_panic (rel_lower rel) (trace_lower ua r0) s1 la Hg1 Hla); [reflexivity| |].
        + intros s' Hg'. apply unknown_lower_panics; assumption.
        + intros la' s' Hla' Hg'.
          destruct (in_dec ord_eq_dec la' (okeys (g_artefacts g))) as [Hk|Hk].
          * right. destruct (trace_lower_ext rel ua r0 la' s' Hg' Hk Hua) as (s'' & E1 & X).
            exists s''. split; [exact E1|]. eapply Ext_good; eassumption.
          * left. apply unknown_lower_panics; assumption. }
    rewrite Hp. reflexivity.
  Qed.

  Lemma relation_ok_dec rel : {relation_ok g rel} + {~ relation_ok g rel}.
  Proof.
    unfold relation_ok. destruct (oget (rel_upper rel) (g_artefacts g)) as [ua|] eqn:Hua.
    2:{ right. intros (ua & H & _). congruence. }
    destruct (art_requirements ua) eqn:Hr.
    { left. exists ua. auto. }
    destruct (Forall_Exists_dec (fun la => In la (okeys (g_artefacts g)))
                  (fun la => in_dec ord_eq_dec la (okeys (g_artefacts g))) (rel_lower rel)) as [HF|HE].
    - left. exists ua. split; [reflexivity|]. right. apply Forall_forall. exact HF.
    - right. intros (ua' & H & [H2|H2]); [congruence|].
      apply Exists_exists in HE. destruct HE as (x & Hx & Hn). apply Hn, H2, Hx.
  Qed.

  Lemma trace_relations_bad rels dl E R t :
    St dl E R t -> ~ (forall rel, In rel rels -> relation_ok g rel) ->
    for_each rels trace_relation t = Panic.
  Proof.
    revert dl E R t. induction rels as [|rel rels IH]; intros dl E R t Hs Hbad; cbn.
    - exfalso. apply Hbad. intros rel [].
    - destruct (relation_ok_dec rel) as [Hok|Hno].
      + destruct (trace_relation_ok dl E R t rel Hs Hok) as (t1 & -> & S1). cbn.
        eapply IH; [exact S1|]. intros Hall. apply Hbad. intros rel' [<-|Hin]; auto.
      + rewrite (trace_relation_bad dl E R t rel Hs Hno). reflexivity.
  Qed.

  (** ** Validation *)
  Lemma first_of_req id : option_map snd (oget id (t_req_by_id t0)) = first_of g id.
  Proof. rewrite (co_req _ _ _ C0 id). reflexivity. Qed.

  Lemma st_first_of dl E R t id :
    St dl E R t -> option_map snd (oget id (t_req_by_id t)) = first_of g id.
  Proof. intros Hs. rewrite (st_req _ _ _ _ Hs). apply first_of_req. Qed.
End Facts.

(** ** First definitions *)
Section FirstDefs.
  Variable g : graph.
  Hypothesis WF : graph_wf g.

  Lemma find_nodup_in (l : list requirement) r :
    NoDup (map req_id l) -> In r l -> find (fun r' => eqb (req_id r') (req_id r)) l = Some r.
  Proof.
    induction l as [|a l IH]; cbn; intros Hnd Hin; [destruct Hin|].
    inversion Hnd as [|? ? Hni Hnd']; subst.
    destruct (eqb_spec (req_id a) (req_id r)) as [He|Hne].
    - destruct Hin as [->|Hin]; [reflexivity|].
      exfalso. apply Hni. rewrite He. apply in_map. exact Hin.
    - destruct Hin as [->|Hin]; [congruence|]. apply IH; assumption.
  Qed.

  (** A requirement is the first definition of its id iff it sits in some [first_defs]. *)
  Lemma first_of_spec id r :
    first_of g id = Some r <->
    req_id r = id /\ exists k a, In (k, a) (g_artefacts g) /\ In r (first_defs g k).
  Proof.
    split.
    - intros Hf. unfold first_of in Hf. pose proof (find_some _ _ Hf) as [Hin He].
      apply eqb_true in He. split; [exact He|].
      assert (Hsplit : forall pre post,
        g_artefacts g = pre ++ post ->
        find (fun r => eqb (req_id r) id) (pre_reqs pre) = None ->
        find (fun r => eqb (req_id r) id)
          (flat_map (fun e => ovalues (art_requirements (snd e))) post) = Some r ->
        exists k a, In (k, a) (g_artefacts g) /\ In r (first_defs g k)).
      { intros pre post. revert pre. induction post as [|[k a] post IH]; intros pre Hg Hn Hs;
          cbn in Hs; [discriminate|].
        rewrite find_app in Hs.
        destruct (find _ (ovalues (art_requirements a))) as [r'|] eqn:Ef.
        - assert (r' = r) by congruence. subst r'.
          exists k, a. split; [rewrite Hg; apply in_or_app; right; left; reflexivity|].
          rewrite (first_defs_split g WF _ _ _ _ Hg). apply filter_In.
          apply find_some in Ef. split; [apply Ef|]. rewrite He, Hn. reflexivity.
        - apply (IH (pre ++ [(k, a)])).
          + rewrite <- app_assoc. exact Hg.
          + unfold pre_reqs in *. rewrite flat_map_app, find_app, Hn. cbn. rewrite app_nil_r. exact Ef.
          + exact Hs. }
      apply (Hsplit [] (g_artefacts g)); [reflexivity|reflexivity|exact Hf].
    - intros (He & k & a & Hka & Hin).
      apply in_split in Hka. destruct Hka as (pre & post & Hg).
      rewrite (first_defs_split g WF _ _ _ _ Hg) in Hin.
      apply filter_In in Hin. destruct Hin as [Hin Hn].
      unfold first_of, all_reqs. rewrite Hg, flat_map_app, find_app. cbn [flat_map snd].
      fold (pre_reqs pre). rewrite He in Hn.
      destruct (find _ (pre_reqs pre)); [discriminate|].
      rewrite find_app, <- He. rewrite find_nodup_in; [reflexivity| |exact Hin].
      apply wf_nodup_reqs. apply (wf_art g WF k a). rewrite Hg. apply in_or_app. right. left. reflexivity.
  Qed.

  Lemma first_defs_in_art k r : In r (first_defs g k) -> exists a, In (k, a) (g_artefacts g).
  Proof.
    unfold first_defs, reqs_of. intros Hin. apply filter_In in Hin. destruct Hin as [Hin _].
    destruct (oget k (g_artefacts g)) as [a|] eqn:E; [|destruct Hin].
    exists a. apply oget_Some_In. exact E.
  Qed.

  Lemma first_defs_first_of k r : In r (first_defs g k) -> first_of g (req_id r) = Some r.
  Proof.
    intros Hin. destruct (first_defs_in_art _ _ Hin) as [a Ha].
    apply first_of_spec. split; [reflexivity|]. exists k, a. auto.
  Qed.

  Lemma pair_of_cov_spec p :
    pair_of_cov g (g_artefacts g) p <->
    exists low c, first_of g (snd p) = Some low /\ In c (req_covers low) /\ ref_id c = fst p.
  Proof.
    unfold pair_of_cov. split.
    - intros (k & a & r & c & Hka & Hr & Hc & ->). exists r, c. cbn.
      split; [eapply first_defs_first_of; exact Hr|]. auto.
    - intros (low & c & Hf & Hc & He). apply first_of_spec in Hf.
      destruct Hf as (Hid & k & a & Hka & Hin). exists k, a, low, c.
      destruct p as [u l]; cbn in *. subst. auto.
  Qed.

  Lemma pair_of_dep_spec p :
    pair_of_dep g (g_artefacts g) p <->
    exists up d, first_of g (fst p) = Some up /\ In d (req_depends up) /\ ref_id d = snd p.
  Proof.
    unfold pair_of_dep. split.
    - intros (k & a & r & c & Hka & Hr & Hc & ->). exists r, c. cbn.
      split; [eapply first_defs_first_of; exact Hr|]. auto.
    - intros (low & c & Hf & Hc & He). apply first_of_spec in Hf.
      destruct Hf as (Hid & k & a & Hka & Hin). exists k, a, low, c.
      destruct p as [u l]; cbn in *. subst. auto.
  Qed.
End FirstDefs.

(** ** The exact result *)
Section Exact.
  Variable g : graph.
  Hypothesis WF : graph_wf g.

  Lemma find_ref_some id (refs : list reference) c :
    In c refs -> ref_id c = id ->
    exists r, find (fun r => eqb (ref_id r) id) refs = Some r /\
              first_location id refs = Some (ref_location r).
  Proof.
    intros Hin He. unfold first_location.
    destruct (find (fun r => eqb (ref_id r) id) refs) as [r|] eqn:E; [cbn; eauto|].
    pose proof (find_none _ _ E c Hin) as Hf. cbn in Hf. rewrite He, eqb_refl in Hf. discriminate.
  Qed.

  Lemma validate_up_loop (l : list (requirement_id * requirement_id)) t :
    (forall id, option_map snd (oget id (t_req_by_id t)) = first_of g id) ->
    (forall p, In p l -> exists low c, first_of g (snd p) = Some low /\ In c (req_covers low) /\ ref_id c = fst p) ->
    for_each l
      (fun t' (cov : requirement_id * requirement_id) =>
       let '(upper_id, lower_id) := cov in
       let* ar := unwrap (oget lower_id (t_req_by_id t')) in
       let req := snd ar in
       let* reference := unwrap (find (fun r => str_eqb (ref_id r) upper_id) (req_covers req)) in
       Done (push_error t' (ECoversUnknownRequirement req upper_id (ref_location reference)))) t
    = Done (mkTracer (t_artefacts t) (t_relations t) (t_errors t ++ flat_map (covers_error g) l)
              (t_req_by_id t) (t_invalid_depends t) (t_invalid_covers t)).
  Proof.
    revert t. induction l as [|[u lo] l IH]; intros t Hr Hl; cbn [for_each flat_map].
    - rewrite app_nil_r. destruct t; reflexivity.
    - destruct (Hl (u, lo) (or_introl eq_refl)) as (low & c & Hf & Hc & He). cbn in Hf, He.
      pose proof (Hr lo) as Hrl. rewrite Hf in Hrl.
      destruct (oget lo (t_req_by_id t)) as [[a0 r0]|]; [|discriminate].
      cbn in Hrl. inversion Hrl; subst r0.
      cbn [unwrap obind snd].
      destruct (find_ref_some u (req_covers low) c Hc He) as (rf & Hfr & Hloc).
      change (find (fun r => str_eqb (ref_id r) u) (req_covers low))
        with (find (fun r => eqb (ref_id r) u) (req_covers low)).
      rewrite Hfr. cbn [unwrap obind].
      rewrite IH.
      + unfold covers_error at 2. cbn [fst snd]. rewrite Hf, Hloc. cbn.
        rewrite <- app_assoc. reflexivity.
      + exact Hr.
      + intros p Hp. apply Hl. right. exact Hp.
  Qed.

  Lemma validate_down_loop (l : list (requirement_id * requirement_id)) t :
    (forall id, option_map snd (oget id (t_req_by_id t)) = first_of g id) ->
    (forall p, In p l -> exists up d, first_of g (fst p) = Some up /\ In d (req_depends up) /\ ref_id d = snd p) ->
    for_each l
      (fun t' (dep : requirement_id * requirement_id) =>
       let '(upper_id, lower_id) := dep in
       let* ar := unwrap (oget upper_id (t_req_by_id t')) in
       let req := snd ar in
       let* reference := unwrap (find (fun r => str_eqb (ref_id r) lower_id) (req_depends req)) in
       Done (push_error t' (EDependOnUnknownRequirement req lower_id (ref_location reference)))) t
    = Done (mkTracer (t_artefacts t) (t_relations t) (t_errors t ++ flat_map (depends_error g) l)
              (t_req_by_id t) (t_invalid_depends t) (t_invalid_covers t)).
  Proof.
    revert t. induction l as [|[u lo] l IH]; intros t Hr Hl; cbn [for_each flat_map].
    - rewrite app_nil_r. destruct t; reflexivity.
    - destruct (Hl (u, lo) (or_introl eq_refl)) as (up & d & Hf & Hc & He). cbn in Hf, He.
      pose proof (Hr u) as Hrl. rewrite Hf in Hrl.
      destruct (oget u (t_req_by_id t)) as [[a0 r0]|]; [|discriminate].
      cbn in Hrl. inversion Hrl; subst r0.
      cbn [unwrap obind snd].
      destruct (find_ref_some lo (req_depends up) d Hc He) as (rf & Hfr & Hloc).
      change (find (fun r => str_eqb (ref_id r) lo) (req_depends up))
        with (find (fun r => eqb (ref_id r) lo) (req_depends up)).
      rewrite Hfr. cbn [unwrap obind].
      rewrite IH.
      + unfold depends_error at 2. cbn [fst snd]. rewrite Hf, Hloc. cbn.
        rewrite <- app_assoc. reflexivity.
      + exact Hr.
      + intros p Hp. apply Hl. right. exact Hp.
  Qed.

  Lemma in_all_links l :
    In l (flat_map (links g) (g_relations g)) <->
    exists rel, In rel (g_relations g) /\ is_link g rel l.
  Proof.
    rewrite in_flat_map. split; intros (rel & H1 & H2); exists rel; (split; [exact H1|]);
      apply in_links; exact H2.
  Qed.

  Theorem trace_exact :
    (forall rel, In rel (g_relations g) -> relation_ok g rel) ->
    exists tg pc pd,
      trace g = Done tg /\
      tg_artefacts tg = g_artefacts g /\
      tg_relations tg = map (traced_of g) (g_relations g) /\
      (osorted (tg_derived tg) /\ okeys (tg_derived tg) = okeys (g_artefacts g) /\
       forall k a, oget k (g_artefacts g) = Some a ->
         exists d, oget k (tg_derived tg) = Some d /\ ssorted d /\
           forall id, In id d <->
             art_ignore_derived a = false /\
             exists r, In r (first_defs g k) /\ req_id r = id /\ ~ covers_something g k r) /\
      ssorted pc /\ (forall u l, In (u, l) pc <-> dangling_covers g u l) /\
      ssorted pd /\ (forall u l, In (u, l) pd <-> dangling_depends g u l) /\
      tg_errors tg = dup_errors g ++ flat_map (relation_errors g) (g_relations g) ++
                     flat_map (covers_error g) pc ++ flat_map (depends_error g) pd.
  Proof.
    intros Hok.
    set (t0 := fold_left add_artefact (ovalues (g_artefacts g)) tracer_empty).
    pose proof (collected_all g WF) as C0. fold t0 in C0.
    destruct (trace_relations_ok g WF t0 (g_relations g) [] (t_errors t0) [] t0
                (St_init g WF t0 C0) Hok) as (t1 & E1 & S1).
    cbn [app] in S1.
    assert (Hreq1 : forall id, option_map snd (oget id (t_req_by_id t1)) = first_of g id)
      by (intros id; eapply st_first_of; eassumption).
    assert (Hcov : forall p, In p (t_invalid_covers t1) ->
       exists low c, first_of g (snd p) = Some low /\ In c (req_covers low) /\ ref_id c = fst p).
    { intros p Hp. apply (st_cov _ _ _ _ _ _ S1) in Hp. destruct Hp as [Hp _].
      apply (co_cov _ _ _ C0) in Hp. apply (pair_of_cov_spec g WF) in Hp. exact Hp. }
    assert (Hdep : forall p, In p (t_invalid_depends t1) ->
       exists up d, first_of g (fst p) = Some up /\ In d (req_depends up) /\ ref_id d = snd p).
    { intros p Hp. apply (st_dep _ _ _ _ _ _ S1) in Hp. destruct Hp as [Hp _].
      apply (co_dep _ _ _ C0) in Hp. apply (pair_of_dep_spec g WF) in Hp. exact Hp. }
    exists (tracer_data (mkTracer (t_artefacts t1) (t_relations t1)
              ((t_errors t1 ++ flat_map (covers_error g) (t_invalid_covers t1)) ++
               flat_map (depends_error g) (t_invalid_depends t1))
              (t_req_by_id t1) (t_invalid_depends t1) (t_invalid_covers t1))),
           (t_invalid_covers t1), (t_invalid_depends t1).
    split.
    { unfold trace, tracer_new. fold t0. rewrite E1. cbn [obind].
      pose proof (validate_up_loop (t_invalid_covers t1) t1 Hreq1 Hcov) as HU.
      change (validate_upwards t1 = Done (mkTracer (t_artefacts t1) (t_relations t1)
                (t_errors t1 ++ flat_map (covers_error g) (t_invalid_covers t1))
                (t_req_by_id t1) (t_invalid_depends t1) (t_invalid_covers t1))) in HU.
      unfold validate. rewrite HU. cbn [obind].
      match goal with |- obind (validate_downwards ?t) _ = _ =>
        pose proof (validate_down_loop (t_invalid_depends t1) t Hreq1 Hdep) as HD;
        match type of HD with _ = ?r => change (validate_downwards t = r) in HD end
      end.
      rewrite HD. reflexivity. }
    unfold tracer_data. cbn [tg_artefacts tg_relations tg_derived tg_errors t_artefacts t_relations t_errors].
    assert (Hsort : osorted (t_artefacts t1)) by apply (st_sorted _ _ _ _ _ _ S1).
    assert (Hget : forall X (f : traced_artefact -> X) k,
       oget k (ocollect (map (fun e => (fst e, f (snd e))) (t_artefacts t1))) =
       option_map f (oget k (t_artefacts t1))).
    { intros X f k. revert Hsort. clear. generalize (t_artefacts t1). intros m Hs.
      destruct (oget k m) as [v|] eqn:E; cbn.
      - apply oget_In_iff; [apply ocollect_sorted|].
        apply oget_Some_In. rewrite oget_ocollect.
        assert (Hnd : NoDup (map fst (rev (map (fun e => (fst e, f (snd e))) m)))).
        { rewrite map_rev, map_map. cbn. apply NoDup_rev. apply osorted_nodup_keys. exact Hs. }
        assert (Hin : In (k, f v) (rev (map (fun e => (fst e, f (snd e))) m))).
        { apply -> in_rev. apply in_map_iff. exists (k, v). split; [reflexivity|].
          apply oget_Some_In. exact E. }
        revert Hnd Hin. generalize (rev (map (fun e => (fst e, f (snd e))) m)). clear.
        induction l as [|[k0 v0] l IH]; cbn; intros Hnd Hin; [destruct Hin|].
        inversion Hnd as [|? ? Hni Hnd']; subst.
        destruct (eqb_spec k k0) as [->|Hne].
        + destruct Hin as [He|Hin]; [congruence|]. exfalso. apply Hni.
          apply in_map_iff. exists (k0, f v). auto.
        + destruct Hin as [He|Hin]; [congruence|]. apply IH; assumption.
      - apply oget_None. rewrite In_okeys_ocollect, map_map. cbn. apply oget_None. exact E. }
    split; [|split; [|split; [|split; [|split; [|split; [|split]]]]]].
    - apply osorted_ext; [apply ocollect_sorted|apply WF|].
      intros k. rewrite Hget. destruct (oget k (g_artefacts g)) as [a|] eqn:Ha.
      + destruct (st_ta _ _ _ _ _ _ S1 _ _ Ha) as (ta & Hta & (O1 & _) & _).
        rewrite Hta. cbn. rewrite O1. reflexivity.
      + destruct (oget k (t_artefacts t1)) as [ta|] eqn:Ht; [|reflexivity].
        apply oget_Some_key in Ht. apply (st_keys _ _ _ _ _ _ S1) in Ht.
        apply oget_None in Ha. contradiction.
    - apply (st_rel _ _ _ _ _ _ S1).
    - split; [apply ocollect_sorted|]. split.
      + apply ssorted_ext; [apply ocollect_sorted|apply WF|].
        intros k. rewrite In_okeys_ocollect, map_map. cbn. apply (st_keys _ _ _ _ _ _ S1).
      + intros k a Ha. destruct (st_ta _ _ _ _ _ _ S1 _ _ Ha) as (ta & Hta & _ & Hs & Hd).
        exists (ta_derived ta). rewrite Hget, Hta. split; [reflexivity|]. split; [exact Hs|].
        intros id. rewrite Hd. unfold derived0. split.
        * intros [Hin Hno]. destruct (art_ignore_derived a); [destruct Hin|]. split; [reflexivity|].
          apply in_map_iff in Hin. destruct Hin as (r & <- & Hr). exists r. split; [exact Hr|].
          split; [reflexivity|]. intros (rel & lk & Hrel & Hlk & Hart & Hlow). apply Hno.
          exists lk. rewrite in_all_links. subst. eauto.
        * intros (Hi & r & Hr & <- & Hno). rewrite Hi. split; [apply in_map; exact Hr|].
          intros (lk & Hin & Hart & Hid). apply Hno. apply in_all_links in Hin.
          destruct Hin as (rel & Hrel & Hlk). exists rel, lk. split; [exact Hrel|]. split; [exact Hlk|].
          split; [exact Hart|].
          destruct Hlk as (_ & _ & Hlow & _).
          apply (first_defs_first_of g WF) in Hlow. apply (first_defs_first_of g WF) in Hr.
          congruence.
    - apply (st_cov_s _ _ _ _ _ _ S1).
    - intros u l. rewrite (st_cov _ _ _ _ _ _ S1), (co_cov _ _ _ C0), (pair_of_cov_spec g WF).
      unfold dangling_covers. cbn [fst snd]. split; intros [Hex Hno]; (split; [exact Hex|]).
      + intros (rel & lk & Hrel & Hlk & Hdir & Hu & Hl). apply Hno. exists lk.
        rewrite in_all_links. split; [eauto|]. split; [exact Hdir|]. congruence.
      + intros (lk & Hin & Hdir & Hp). apply Hno. apply in_all_links in Hin.
        destruct Hin as (rel & Hrel & Hlk). exists rel, lk. inversion Hp; subst. auto.
    - apply (st_dep_s _ _ _ _ _ _ S1).
    - intros u l. rewrite (st_dep _ _ _ _ _ _ S1), (co_dep _ _ _ C0), (pair_of_dep_spec g WF).
      unfold dangling_depends. cbn [fst snd]. split; intros [Hex Hno]; (split; [exact Hex|]).
      + intros (rel & lk & Hrel & Hlk & Hdir & Hu & Hl). apply Hno. exists lk.
        rewrite in_all_links. split; [eauto|]. split; [exact Hdir|]. congruence.
      + intros (lk & Hin & Hdir & Hp). apply Hno. apply in_all_links in Hin.
        destruct Hin as (rel & Hrel & Hlk). exists rel, lk. inversion Hp; subst. auto.
    - rewrite (st_err _ _ _ _ _ _ S1), (co_err _ _ _ C0), !app_assoc. reflexivity.
  Qed.

  Theorem trace_panic :
    ~ (forall rel, In rel (g_relations g) -> relation_ok g rel) -> trace g = Panic.
  Proof.
    intros Hbad.
    pose proof (collected_all g WF) as C0.
    unfold trace, tracer_new.
    erewrite trace_relations_bad; [reflexivity|exact WF| |exact Hbad].
    apply St_init; [exact WF|exact C0].
  Qed.

  Lemma relations_ok_dec :
    {forall rel, In rel (g_relations g) -> relation_ok g rel} +
    {~ forall rel, In rel (g_relations g) -> relation_ok g rel}.
  Proof.
    destruct (Forall_dec (relation_ok g) (relation_ok_dec g) (g_relations g)) as [HF|HN].
    - left. apply Forall_forall. exact HF.
    - right. intros Hall. apply HN. apply Forall_forall. exact Hall.
  Qed.
End Exact.
