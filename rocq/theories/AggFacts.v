(** What [aggregate] computes, and when it panics. *)
From Verif Require Import Base OMap Models Tracer TraceSpec TraceIndex TraceFacts TraceCor
  Aggregator AggSpec.
From Coq Require Import Sorting.Sorted.

Lemma oget_app {K V} `{Ord K} (k : K) (l1 l2 : omap K V) :
  oget k (l1 ++ l2) = match oget k l1 with Some v => Some v | None => oget k l2 end.
Proof. induction l1 as [|[k' v'] l1 IH]; cbn; [reflexivity|]. destruct (eqb k k'); auto. Qed.

Lemma oget_map {K V W} `{Ord K} (f : V -> W) (k : K) (m : omap K V) :
  oget k (map (fun e => (fst e, f (snd e))) m) = option_map f (oget k m).
Proof. induction m as [|[k' v'] m IH]; cbn; [reflexivity|]. destruct (eqb k k'); auto. Qed.

Section Agg.
  Variable tg : traced_graph.

  (** What [trace] guarantees about its result. *)
  Record agg_ok : Prop := {
    ok_sorted : osorted (tg_artefacts tg);
    ok_upper : forall tr, In tr (tg_relations tg) ->
                 In (rel_upper (tr_relation tr)) (okeys (tg_artefacts tg));
    ok_cov_upper : forall tr c, In tr (tg_relations tg) -> In c (tr_covered tr) ->
                 In (cov_upper c) (ids_of tg (rel_upper (tr_relation tr)));
    ok_cov_lower : forall tr c, In tr (tg_relations tg) -> In c (tr_covered tr) ->
                 exists la, In la (rel_lower (tr_relation tr)) /\ In (cov_lower c) (ids_of tg la)
  }.

  Definition lowers_known : Prop := forall tr la, In tr (tg_relations tg) ->
    In la (rel_lower (tr_relation tr)) -> In la (okeys (tg_artefacts tg)).

  Hypothesis OK : agg_ok.

  Lemma known_def k id : In id (ids_of tg k) -> exists a r, last_def tg id = Some (a, r).
  Proof.
    unfold ids_of. intros Hin. destruct (oget k (tg_artefacts tg)) as [a|] eqn:Ha; [|destruct Hin].
    assert (Hk : In id (okeys (rev (all_defs tg)))).
    { unfold okeys. rewrite map_rev. apply -> in_rev. unfold all_defs.
      rewrite map_flat_map. apply in_flat_map. exists a. split.
      - apply ovalues_In. exists k. apply oget_Some_In. exact Ha.
      - rewrite map_map. cbn. exact Hin. }
    apply oget_key_Some in Hk. destruct Hk as [[a' r'] Hk]. exists a', r'. exact Hk.
  Qed.

  (** ** The artefact table *)
  Record AInv (up low : artefact_id -> list traced_relation)
         (m : omap artefact_id artefact_relations) : Prop := {
    ai_sorted : osorted m;
    ai_keys : okeys m = okeys (tg_artefacts tg);
    ai_get : forall k a, oget k (tg_artefacts tg) = Some a -> oget k m = Some (mkAR (up k) (low k) a)
  }.

  Lemma oins_existing_keys {K V} `{Ord K} (k : K) (v : V) m :
    osorted m -> In k (okeys m) -> okeys (oins k v m) = okeys m.
  Proof.
    intros Hs Hk. apply ssorted_ext; [apply oins_sorted; exact Hs|exact Hs|].
    intros a. rewrite In_okeys_oins. split; [|auto]. intros [->|Ha]; assumption.
  Qed.

  Lemma AInv_upper up low m tr k :
    AInv up low m -> In k (okeys (tg_artefacts tg)) ->
    exists m', upd k (push_upper tr) m = Done m' /\
               AInv (fun k' => if eqb k' k then up k' ++ [tr] else up k') low m'.
  Proof.
    intros HI Hk. pose proof Hk as Hk'. apply oget_key_Some in Hk. destruct Hk as [a Ha].
    unfold upd. rewrite (ai_get _ _ _ HI _ _ Ha). cbn. eexists. split; [reflexivity|].
    split.
    - apply oins_sorted, HI.
    - rewrite oins_existing_keys; [apply HI|apply HI|]. rewrite (ai_keys _ _ _ HI). exact Hk'.
    - intros k' a' Ha'. rewrite oget_oins. destruct (eqb_spec k' k) as [->|Hne].
      + assert (a' = a) by congruence. subst. reflexivity.
      + apply HI. exact Ha'.
  Qed.

  Lemma AInv_lower up low m tr k :
    AInv up low m -> In k (okeys (tg_artefacts tg)) ->
    exists m', upd k (push_lower tr) m = Done m' /\
               AInv up (fun k' => if eqb k' k then low k' ++ [tr] else low k') m'.
  Proof.
    intros HI Hk. pose proof Hk as Hk'. apply oget_key_Some in Hk. destruct Hk as [a Ha].
    unfold upd. rewrite (ai_get _ _ _ HI _ _ Ha). cbn. eexists. split; [reflexivity|].
    split.
    - apply oins_sorted, HI.
    - rewrite oins_existing_keys; [apply HI|apply HI|]. rewrite (ai_keys _ _ _ HI). exact Hk'.
    - intros k' a' Ha'. rewrite oget_oins. destruct (eqb_spec k' k) as [->|Hne].
      + assert (a' = a) by congruence. subst. reflexivity.
      + apply HI. exact Ha'.
  Qed.

  Lemma AInv_ext up up' low low' m :
    (forall k, up k = up' k) -> (forall k, low k = low' k) -> AInv up low m -> AInv up' low' m.
  Proof.
    intros H1 H2 [A B C]. split; [exact A|exact B|]. intros k a Ha. rewrite <- H1, <- H2. auto.
  Qed.

  Lemma AInv_init : AInv (fun _ => []) (fun _ => []) (agg_init_artefacts tg).
  Proof.
    unfold agg_init_artefacts. split.
    - apply ocollect_sorted.
    - apply ssorted_ext; [apply ocollect_sorted|apply OK|]. intros k.
      rewrite In_okeys_ocollect, map_map. reflexivity.
    - intros k a Ha. apply oget_In_iff; [apply ocollect_sorted|]. apply oget_Some_In.
      rewrite oget_ocollect, <- map_rev, (oget_map (fun a => mkAR [] [] a)).
      assert (Hr : oget k (rev (tg_artefacts tg)) = Some a).
      { destruct (oget k (rev (tg_artefacts tg))) as [b|] eqn:E.
        - apply oget_Some_In in E. apply in_rev in E.
          apply (In_oget k b) in E; [congruence|apply OK].
        - apply oget_None in E. exfalso. apply E. unfold okeys. rewrite map_rev. apply -> in_rev.
          apply (oget_Some_key _ _ _ Ha). }
      rewrite Hr. reflexivity.
  Qed.

  (** ** The requirement table *)
  Definition table := requirement_id -> relation -> option (list (requirement * location)).

  Record RInv (D C : table) (m : omap requirement_id requirement_trace) : Prop := {
    ri_sorted : osorted m;
    ri_known : forall id, In id (okeys m) <-> exists a r, last_def tg id = Some (a, r);
    ri_get : forall id a r, last_def tg id = Some (a, r) ->
             exists rt, oget id m = Some rt /\ rt_artefact rt = a /\ rt_requirement rt = r /\
               osorted (rt_depends rt) /\ osorted (rt_covers rt) /\
               (forall R, oget R (rt_depends rt) = D id R) /\
               (forall R, oget R (rt_covers rt) = C id R)
  }.

  Lemma RInv_ext D D' C C' m :
    (forall id R, D id R = D' id R) -> (forall id R, C id R = C' id R) ->
    RInv D C m -> RInv D' C' m.
  Proof.
    intros H1 H2 [A B G]. split; [exact A|exact B|]. intros id a r Hd.
    destruct (G id a r Hd) as (rt & G1 & G2 & G3 & G4 & G5 & G6 & G7).
    exists rt. repeat (split; [assumption|]). split; intros R; rewrite <- ?H1, <- ?H2; auto.
  Qed.

  Lemma RInv_init : RInv (fun _ _ => None) (fun _ _ => None) (agg_init_requirements tg).
  Proof.
    unfold agg_init_requirements.
    set (l := flat_map _ _).
    assert (Hget : forall id, oget id (ocollect l) =
              option_map (fun ar => mkRT [] [] (fst ar) (snd ar)) (last_def tg id)).
    { intros id. rewrite oget_ocollect. unfold last_def, all_defs.
      rewrite <- (oget_map (fun ar => mkRT [] [] (fst ar) (snd ar))), map_rev. do 2 f_equal.
      unfold l. rewrite map_flat_map. apply flat_map_ext_in. intros a _. rewrite map_map. reflexivity. }
    split.
    - apply ocollect_sorted.
    - intros id. destruct (last_def tg id) as [[a r]|] eqn:E.
      + split; [eauto|]. intros _. specialize (Hget id). rewrite E in Hget.
        eapply oget_Some_key. exact Hget.
      + split; [|intros (a & r & Hx); congruence]. intros Hk. apply oget_key_Some in Hk.
        destruct Hk as [v Hv]. rewrite Hget, E in Hv. discriminate.
    - intros id a r Hd. rewrite Hget, Hd. cbn. eexists. split; [reflexivity|]. cbn.
      repeat split; constructor.
  Qed.

  Definition set_tab (T : table) (id : requirement_id) (R : relation) v : table :=
    fun id' R' => if eqb id' id && eqb R' R then v else T id' R'.

  Lemma RInv_upd D C m id a r f D' C' :
    RInv D C m -> last_def tg id = Some (a, r) ->
    (forall rt, rt_artefact rt = a -> rt_requirement rt = r ->
       osorted (rt_depends rt) -> osorted (rt_covers rt) ->
       (forall R, oget R (rt_depends rt) = D id R) -> (forall R, oget R (rt_covers rt) = C id R) ->
       exists rt', f rt = Done rt' /\ rt_artefact rt' = a /\ rt_requirement rt' = r /\
         osorted (rt_depends rt') /\ osorted (rt_covers rt') /\
         (forall R, oget R (rt_depends rt') = D' id R) /\ (forall R, oget R (rt_covers rt') = C' id R)) ->
    (forall id' R, id' <> id -> D' id' R = D id' R /\ C' id' R = C id' R) ->
    exists m', upd id f m = Done m' /\ RInv D' C' m'.
  Proof.
    intros HI Hd Hf Hoth. destruct (ri_get _ _ _ HI _ _ _ Hd) as (rt & G1 & G2 & G3 & G4 & G5 & G6 & G7).
    destruct (Hf rt G2 G3 G4 G5 G6 G7) as (rt' & F0 & F1 & F2 & F3 & F4 & F5 & F6).
    unfold upd. rewrite G1. cbn. rewrite F0. cbn. eexists. split; [reflexivity|]. split.
    - apply oins_sorted, HI.
    - intros id'. rewrite In_okeys_oins, (ri_known _ _ _ HI). split; [|auto].
      intros [->|Hx]; eauto.
    - intros id' a' r' Hd'. rewrite oget_oins. destruct (eqb_spec id' id) as [->|Hne].
      + assert (a' = a /\ r' = r) as [-> ->] by (split; congruence).
        exists rt'. auto 10.
      + destruct (ri_get _ _ _ HI _ _ _ Hd') as (rt2 & K1 & K2 & K3 & K4 & K5 & K6 & K7).
        exists rt2. repeat (split; [assumption|]). split; intros R; destruct (Hoth id' R Hne) as [Q1 Q2]; rewrite ?Q1, ?Q2; auto.
  Qed.

  Lemma RInv_insert_depends D C m id R :
    RInv D C m -> (exists a r, last_def tg id = Some (a, r)) ->
    exists m', upd id (insert_depends R) m = Done m' /\ RInv (set_tab D id R (Some [])) C m'.
  Proof.
    intros HI (a & r & Hd). eapply RInv_upd; [exact HI|exact Hd| |].
    - intros rt H1 H2 H3 H4 H5 H6. eexists. split; [reflexivity|]. cbn.
      repeat (split; [assumption|]). split; [apply oins_sorted; exact H3|]. split; [exact H4|].
      split; [|exact H6]. intros R'. rewrite oget_oins. unfold set_tab. rewrite eqb_refl. cbn.
      destruct (eqb R' R); [reflexivity|apply H5].
    - intros id' R' Hne. unfold set_tab. destruct (eqb_spec id' id); [contradiction|]. auto.
  Qed.

  Lemma RInv_insert_covers D C m id R :
    RInv D C m -> (exists a r, last_def tg id = Some (a, r)) ->
    exists m', upd id (insert_covers R) m = Done m' /\ RInv D (set_tab C id R (Some [])) m'.
  Proof.
    intros HI (a & r & Hd). eapply RInv_upd; [exact HI|exact Hd| |].
    - intros rt H1 H2 H3 H4 H5 H6. eexists. split; [reflexivity|]. cbn.
      repeat (split; [assumption|]). split; [apply oins_sorted; exact H4|].
      split; [exact H5|]. intros R'. rewrite oget_oins. unfold set_tab. rewrite eqb_refl. cbn.
      destruct (eqb R' R); [reflexivity|apply H6].
    - intros id' R' Hne. unfold set_tab. destruct (eqb_spec id' id); [contradiction|]. auto.
  Qed.

  Definition upd_tab (T : table) (ids : requirement_id -> bool) (R : relation) : table :=
    fun id R' => if ids id && eqb R' R then Some [] else T id R'.

  Lemma RInv_insert_depends_all D C m ids R :
    RInv D C m -> (forall id, In id ids -> exists a r, last_def tg id = Some (a, r)) ->
    exists m', for_each ids (fun m id => upd id (insert_depends R) m) m = Done m' /\
               RInv (upd_tab D (fun id => smem id ids) R) C m'.
  Proof.
    revert D m. induction ids as [|id ids IH]; intros D m HI Hk; cbn [for_each].
    - exists m. split; [reflexivity|]. eapply RInv_ext; [| |exact HI]; reflexivity.
    - destruct (RInv_insert_depends D C m id R HI (Hk id (or_introl eq_refl))) as (m1 & -> & H1). cbn [obind].
      destruct (IH _ _ H1) as (m2 & -> & H2). { intros id' Hin. apply Hk. right. exact Hin. }
      exists m2. split; [reflexivity|]. eapply RInv_ext; [|reflexivity|exact H2].
      intros id' R'. unfold upd_tab, set_tab, smem. cbn [existsb].
      destruct (existsb (eqb id') ids), (eqb R' R), (eqb id' id); reflexivity.
  Qed.

  Lemma RInv_insert_covers_all D C m ids R :
    RInv D C m -> (forall id, In id ids -> exists a r, last_def tg id = Some (a, r)) ->
    exists m', for_each ids (fun m id => upd id (insert_covers R) m) m = Done m' /\
               RInv D (upd_tab C (fun id => smem id ids) R) m'.
  Proof.
    revert C m. induction ids as [|id ids IH]; intros C m HI Hk; cbn [for_each].
    - exists m. split; [reflexivity|]. eapply RInv_ext; [| |exact HI]; reflexivity.
    - destruct (RInv_insert_covers D C m id R HI (Hk id (or_introl eq_refl))) as (m1 & -> & H1). cbn [obind].
      destruct (IH _ _ H1) as (m2 & -> & H2). { intros id' Hin. apply Hk. right. exact Hin. }
      exists m2. split; [reflexivity|]. eapply RInv_ext; [reflexivity| |exact H2].
      intros id' R'. unfold upd_tab, set_tab, smem. cbn [existsb].
      destruct (existsb (eqb id') ids), (eqb R' R), (eqb id' id); reflexivity.
  Qed.

  Lemma ids_of_get k a : oget k (tg_artefacts tg) = Some a -> okeys (art_requirements a) = ids_of tg k.
  Proof. unfold ids_of. intros ->. reflexivity. Qed.

  Lemma agg_lowers tr las : forall up low arts D C reqs,
    AInv up low arts -> RInv D C reqs ->
    (forall la, In la las -> In la (okeys (tg_artefacts tg))) ->
    exists arts' reqs', for_each las (agg_lower tg tr) (arts, reqs) = Done (arts', reqs') /\
      AInv (fun k => up k ++ map (fun _ => tr) (filter (eqb k) las)) low arts' /\
      RInv D (upd_tab C (fun id => existsb (fun la => smem id (ids_of tg la)) las) (tr_relation tr)) reqs'.
  Proof.
    induction las as [|la las IH]; intros up low arts D C reqs HA HR Hk; cbn [for_each].
    - exists arts, reqs. split; [reflexivity|]. split.
      + eapply AInv_ext; [| |exact HA]; intros k; cbn; [rewrite app_nil_r|]; reflexivity.
      + eapply RInv_ext; [| |exact HR]; reflexivity.
    - pose proof (Hk la (or_introl eq_refl)) as Hla.
      unfold agg_lower at 1. cbn [fst snd].
      destruct (AInv_upper up low arts tr la HA Hla) as (arts1 & -> & HA1). cbn [obind].
      pose proof Hla as Hla'. apply oget_key_Some in Hla'. destruct Hla' as [a Ha].
      unfold index. rewrite Ha. cbn [unwrap obind]. rewrite (ids_of_get _ _ Ha).
      destruct (RInv_insert_covers_all D C reqs (ids_of tg la) (tr_relation tr) HR) as (reqs1 & -> & HR1).
      { intros id. apply known_def. }
      cbn [obind].
      destruct (IH _ _ _ _ _ _ HA1 HR1) as (arts2 & reqs2 & -> & HA2 & HR2).
      { intros la' Hin. apply Hk. right. exact Hin. }
      exists arts2, reqs2. split; [reflexivity|]. split.
      + eapply AInv_ext; [|reflexivity|exact HA2]. intros k. cbn [filter].
        destruct (eqb k la); cbn [map]; [rewrite <- app_assoc|]; reflexivity.
      + eapply RInv_ext; [reflexivity| |exact HR2]. intros id R. unfold upd_tab. cbn [existsb].
        destruct (existsb _ las), (eqb R (tr_relation tr)), (smem id (ids_of tg la)); reflexivity.
  Qed.

  Lemma agg_relations_spec trs : forall up low arts D C reqs,
    AInv up low arts -> RInv D C reqs ->
    (forall tr, In tr trs -> In (rel_upper (tr_relation tr)) (okeys (tg_artefacts tg)) /\
       forall la, In la (rel_lower (tr_relation tr)) -> In la (okeys (tg_artefacts tg))) ->
    exists arts' reqs', for_each trs (agg_relation tg) (arts, reqs) = Done (arts', reqs') /\
      AInv (fun k => up k ++ flat_map (fun tr => map (fun _ => tr)
                                 (filter (eqb k) (rel_lower (tr_relation tr)))) trs)
           (fun k => low k ++ filter (fun tr => eqb (rel_upper (tr_relation tr)) k) trs) arts' /\
      RInv (fun id R => if existsb (fun tr => eqb (tr_relation tr) R) trs &&
                           smem id (ids_of tg (rel_upper R)) then Some [] else D id R)
           (fun id R => if existsb (fun tr => eqb (tr_relation tr) R) trs &&
                           existsb (fun la => smem id (ids_of tg la)) (rel_lower R)
                        then Some [] else C id R) reqs'.
  Proof.
    induction trs as [|tr trs IH]; intros up low arts D C reqs HA HR Hk; cbn [for_each].
    - exists arts, reqs. split; [reflexivity|]. split.
      + eapply AInv_ext; [| |exact HA]; intros k; cbn; rewrite app_nil_r; reflexivity.
      + eapply RInv_ext; [| |exact HR]; reflexivity.
    - destruct (Hk tr (or_introl eq_refl)) as [Hu Hl].
      unfold agg_relation at 1. cbn [fst snd].
      destruct (AInv_lower up low arts tr _ HA Hu) as (arts1 & -> & HA1). cbn [obind].
      pose proof Hu as Hu'. apply oget_key_Some in Hu'. destruct Hu' as [a Ha].
      unfold index. rewrite Ha. cbn [unwrap obind]. rewrite (ids_of_get _ _ Ha).
      destruct (RInv_insert_depends_all D C reqs (ids_of tg (rel_upper (tr_relation tr)))
                  (tr_relation tr) HR) as (reqs1 & -> & HR1).
      { intros id. apply known_def. }
      cbn [obind].
      destruct (agg_lowers tr _ _ _ _ _ _ _ HA1 HR1 Hl) as (arts2 & reqs2 & -> & HA2 & HR2). cbn [obind].
      destruct (IH _ _ _ _ _ _ HA2 HR2) as (arts3 & reqs3 & -> & HA3 & HR3).
      { intros tr' Hin. apply Hk. right. exact Hin. }
      exists arts3, reqs3. split; [reflexivity|]. split.
      + eapply AInv_ext; [| |exact HA3]; intros k; cbn [flat_map filter].
        * rewrite <- app_assoc. reflexivity.
        * rewrite (eqb_sym (rel_upper (tr_relation tr)) k).
          destruct (eqb k (rel_upper (tr_relation tr))); cbn; [rewrite <- app_assoc|]; reflexivity.
      + eapply RInv_ext; [| |exact HR3]; intros id R; unfold upd_tab; cbn [existsb];
          rewrite (eqb_sym R (tr_relation tr)).
        * destruct (existsb _ trs); cbn [andb orb].
          -- rewrite orb_true_r. cbn.
             destruct (smem id (ids_of tg (rel_upper R))) eqn:E1; [reflexivity|].
             destruct (eqb_spec (tr_relation tr) R) as [->|]; [|rewrite andb_false_r; reflexivity].
             rewrite E1. reflexivity.
          -- rewrite orb_false_r.
             destruct (eqb_spec (tr_relation tr) R) as [->|]; cbn; [rewrite andb_true_r; reflexivity|].
             rewrite andb_false_r. reflexivity.
        * destruct (existsb (fun tr => eqb (tr_relation tr) R) trs); cbn [andb orb].
          -- rewrite orb_true_r. cbn.
             destruct (existsb (fun la => smem id (ids_of tg la)) (rel_lower R)) eqn:E1; [reflexivity|].
             destruct (eqb_spec (tr_relation tr) R) as [->|]; [|rewrite andb_false_r; reflexivity].
             rewrite E1. reflexivity.
          -- rewrite orb_false_r.
             destruct (eqb_spec (tr_relation tr) R) as [->|]; cbn; [rewrite andb_true_r; reflexivity|].
             rewrite andb_false_r. reflexivity.
  Qed.

  (** ** Pushing the coverages *)
  Definition app_tab (T : table) (R : relation) (f : requirement_id -> list (requirement * location)) : table :=
    fun id R' => if eqb R' R then option_map (fun l => l ++ f id) (T id R') else T id R'.

  Definition below1 (covs : list coverage) (id : requirement_id) : list (requirement * location) :=
    flat_map (fun c => if eqb (cov_upper c) id
                       then map (fun r => (r, cov_location c)) (the_req tg (cov_lower c)) else []) covs.
  Definition above1 (covs : list coverage) (id : requirement_id) : list (requirement * location) :=
    flat_map (fun c => if eqb (cov_lower c) id
                       then map (fun r => (r, cov_location c)) (the_req tg (cov_upper c)) else []) covs.

  Lemma RInv_push_depends D C m id R x l :
    RInv D C m -> (exists a r, last_def tg id = Some (a, r)) -> D id R = Some l ->
    exists m', upd id (push_depends R x) m = Done m' /\ RInv (set_tab D id R (Some (l ++ [x]))) C m'.
  Proof.
    intros HI (a & r & Hd) HD. eapply RInv_upd; [exact HI|exact Hd| |].
    - intros rt H1 H2 H3 H4 H5 H6. unfold push_depends, upd. rewrite H5, HD. cbn.
      eexists. split; [reflexivity|]. cbn.
      repeat (split; [assumption|]). split; [apply oins_sorted; exact H3|]. split; [exact H4|].
      split; [|exact H6]. intros R'. rewrite oget_oins. unfold set_tab. rewrite eqb_refl. cbn.
      destruct (eqb R' R); [reflexivity|apply H5].
    - intros id' R' Hne. unfold set_tab. destruct (eqb_spec id' id); [contradiction|]. auto.
  Qed.

  Lemma RInv_push_covers D C m id R x l :
    RInv D C m -> (exists a r, last_def tg id = Some (a, r)) -> C id R = Some l ->
    exists m', upd id (push_covers R x) m = Done m' /\ RInv D (set_tab C id R (Some (l ++ [x]))) m'.
  Proof.
    intros HI (a & r & Hd) HD. eapply RInv_upd; [exact HI|exact Hd| |].
    - intros rt H1 H2 H3 H4 H5 H6. unfold push_covers, upd. rewrite H6, HD. cbn.
      eexists. split; [reflexivity|]. cbn.
      repeat (split; [assumption|]). split; [apply oins_sorted; exact H4|].
      split; [exact H5|]. intros R'. rewrite oget_oins. unfold set_tab. rewrite eqb_refl. cbn.
      destruct (eqb R' R); [reflexivity|apply H6].
    - intros id' R' Hne. unfold set_tab. destruct (eqb_spec id' id); [contradiction|]. auto.
  Qed.

  Lemma agg_coverages R covs : forall D C m,
    RInv D C m ->
    (forall c, In c covs ->
       (exists a r, last_def tg (cov_upper c) = Some (a, r)) /\
       (exists a r, last_def tg (cov_lower c) = Some (a, r)) /\
       D (cov_upper c) R <> None /\ C (cov_lower c) R <> None) ->
    exists m', for_each covs (agg_coverage R) m = Done m' /\
      RInv (app_tab D R (below1 covs)) (app_tab C R (above1 covs)) m'.
  Proof.
    induction covs as [|c covs IH]; intros D C m HI Hc; cbn [for_each].
    - exists m. split; [reflexivity|]. eapply RInv_ext; [| |exact HI]; intros id R'; unfold app_tab; cbn.
      + destruct (eqb R' R); [|reflexivity]. destruct (D id R'); cbn; rewrite ?app_nil_r; reflexivity.
      + destruct (eqb R' R); [|reflexivity]. destruct (C id R'); cbn; rewrite ?app_nil_r; reflexivity.
    - destruct (Hc c (or_introl eq_refl)) as ((ua & ur & Hu) & (la & lr & Hl) & HD & HC).
      unfold agg_coverage at 1, index.
      destruct (ri_get _ _ _ HI _ _ _ Hu) as (rtu & Gu & _ & Gur & _).
      destruct (ri_get _ _ _ HI _ _ _ Hl) as (rtl & Gl & _ & Glr & _).
      rewrite Gu, Gl. cbn [unwrap obind]. rewrite Gur, Glr.
      destruct (D (cov_upper c) R) as [l1|] eqn:E1; [|congruence].
      destruct (C (cov_lower c) R) as [l2|] eqn:E2; [|congruence].
      destruct (RInv_push_depends D C m _ R (lr, cov_location c) l1 HI (ex_intro _ ua (ex_intro _ ur Hu)) E1)
        as (m1 & -> & H1). cbn [obind].
      destruct (RInv_push_covers _ C m1 _ R (ur, cov_location c) l2 H1 (ex_intro _ la (ex_intro _ lr Hl)) E2)
        as (m2 & -> & H2). cbn [obind].
      destruct (IH _ _ _ H2) as (m3 & -> & H3).
      { intros c' Hin. destruct (Hc c' (or_intror Hin)) as (A & B & HD' & HC').
        split; [exact A|]. split; [exact B|].
        unfold set_tab. split; destruct (_ && _); congruence. }
      exists m3. split; [reflexivity|]. eapply RInv_ext; [| |exact H3]; intros id R'.
      + unfold app_tab, set_tab, below1. cbn [flat_map].
        destruct (eqb_spec R' R) as [->|]; [|rewrite andb_false_r; reflexivity].
        rewrite andb_true_r, (eqb_sym (cov_upper c) id).
        destruct (eqb_spec id (cov_upper c)) as [->|]; [|reflexivity].
        rewrite E1. cbn. unfold the_req at 2. rewrite Hl. cbn. rewrite <- app_assoc. reflexivity.
      + unfold app_tab, set_tab, above1. cbn [flat_map].
        destruct (eqb_spec R' R) as [->|]; [|rewrite andb_false_r; reflexivity].
        rewrite andb_true_r, (eqb_sym (cov_lower c) id).
        destruct (eqb_spec id (cov_lower c)) as [->|]; [|reflexivity].
        rewrite E2. cbn. unfold the_req at 2. rewrite Hu. cbn. rewrite <- app_assoc. reflexivity.
  Qed.

  Definition below_of (trs : list traced_relation) (id : requirement_id) (R : relation) :=
    flat_map (fun tr => if eqb (tr_relation tr) R then below1 (tr_covered tr) id else []) trs.
  Definition above_of (trs : list traced_relation) (id : requirement_id) (R : relation) :=
    flat_map (fun tr => if eqb (tr_relation tr) R then above1 (tr_covered tr) id else []) trs.

  Lemma agg_all_coverages trs : forall D C m,
    RInv D C m ->
    (forall tr c, In tr trs -> In c (tr_covered tr) ->
       (exists a r, last_def tg (cov_upper c) = Some (a, r)) /\
       (exists a r, last_def tg (cov_lower c) = Some (a, r)) /\
       D (cov_upper c) (tr_relation tr) <> None /\ C (cov_lower c) (tr_relation tr) <> None) ->
    exists m', for_each trs (fun m tr => for_each (tr_covered tr) (agg_coverage (tr_relation tr)) m) m = Done m' /\
      RInv (fun id R => option_map (fun l => l ++ below_of trs id R) (D id R))
           (fun id R => option_map (fun l => l ++ above_of trs id R) (C id R)) m'.
  Proof.
    induction trs as [|tr trs IH]; intros D C m HI Hc; cbn [for_each].
    - exists m. split; [reflexivity|]. eapply RInv_ext; [| |exact HI]; intros id R; cbn.
      + destruct (D id R); cbn; rewrite ?app_nil_r; reflexivity.
      + destruct (C id R); cbn; rewrite ?app_nil_r; reflexivity.
    - destruct (agg_coverages (tr_relation tr) (tr_covered tr) D C m HI) as (m1 & -> & H1).
      { intros c Hin. apply Hc; [left; reflexivity|exact Hin]. }
      cbn [obind]. destruct (IH _ _ _ H1) as (m2 & -> & H2).
      { intros tr' c Hin Hin'. destruct (Hc tr' c (or_intror Hin) Hin') as (A & B & HD' & HC').
        split; [exact A|]. split; [exact B|]. unfold app_tab.
        split; (destruct (eqb _ _); [|assumption]).
        - destruct (D (cov_upper c) (tr_relation tr')); [discriminate|congruence].
        - destruct (C (cov_lower c) (tr_relation tr')); [discriminate|congruence]. }
      exists m2. split; [reflexivity|]. eapply RInv_ext; [| |exact H2]; intros id R.
      + unfold app_tab, below_of. cbn [flat_map]. rewrite (eqb_sym (tr_relation tr) R).
        destruct (eqb R (tr_relation tr)); [|reflexivity].
        destruct (D id R); cbn; [rewrite <- app_assoc|]; reflexivity.
      + unfold app_tab, above_of. cbn [flat_map]. rewrite (eqb_sym (tr_relation tr) R).
        destruct (eqb R (tr_relation tr)); [|reflexivity].
        destruct (C id R); cbn; [rewrite <- app_assoc|]; reflexivity.
  Qed.

  Lemma listed_existsb R trs :
    existsb (fun tr => eqb (tr_relation tr) R) trs = true <-> In R (map tr_relation trs).
  Proof.
    rewrite existsb_exists, in_map_iff. split; intros (tr & H1 & H2); exists tr.
    - apply eqb_true in H2. auto.
    - rewrite eqb_true. auto.
  Qed.

  Theorem aggregate_spec :
    lowers_known ->
    exists ag, aggregate tg = Done ag /\ ag_traced ag = tg /\
      (okeys (ag_artefacts ag) = okeys (tg_artefacts tg) /\ osorted (ag_artefacts ag) /\
       forall k a, oget k (tg_artefacts tg) = Some a ->
         oget k (ag_artefacts ag) = Some (mkAR (listed_above tg k) (listed_below tg k) a)) /\
      osorted (ag_requirements ag) /\
      (forall id, In id (okeys (ag_requirements ag)) <-> exists a r, last_def tg id = Some (a, r)) /\
      (forall id a r, last_def tg id = Some (a, r) ->
         exists rt, oget id (ag_requirements ag) = Some rt /\
           rt_artefact rt = a /\ rt_requirement rt = r /\
           osorted (rt_depends rt) /\ osorted (rt_covers rt) /\
           (forall R, (rel_listed tg R /\ In id (ids_of tg (rel_upper R)) /\
                       oget R (rt_depends rt) = Some (below tg id R)) \/
                      (~ (rel_listed tg R /\ In id (ids_of tg (rel_upper R))) /\
                       oget R (rt_depends rt) = None)) /\
           (forall R, (rel_listed tg R /\ (exists la, In la (rel_lower R) /\ In id (ids_of tg la)) /\
                       oget R (rt_covers rt) = Some (above tg id R)) \/
                      (~ (rel_listed tg R /\ (exists la, In la (rel_lower R) /\ In id (ids_of tg la))) /\
                       oget R (rt_covers rt) = None))).
  Proof.
    intros HL. unfold aggregate.
    destruct (agg_relations_spec (tg_relations tg) _ _ _ _ _ _ AInv_init RInv_init)
      as (arts & reqs & -> & HA & HR).
    { intros tr Hin. split; [apply OK; exact Hin|]. intros la. apply HL. exact Hin. }
    cbn [obind fst snd].
    destruct (agg_all_coverages (tg_relations tg) _ _ _ HR) as (reqs' & -> & HR').
    { intros tr c Htr Hc.
      pose proof (ok_cov_upper OK tr c Htr Hc) as Hu.
      destruct (ok_cov_lower OK tr c Htr Hc) as (la & Hla & Hl).
      split; [eapply known_def; exact Hu|]. split; [eapply known_def; exact Hl|].
      assert (HE : existsb (fun tr0 => eqb (tr_relation tr0) (tr_relation tr)) (tg_relations tg) = true).
      { apply listed_existsb. apply in_map. exact Htr. }
      rewrite HE. cbn [andb]. split.
      - apply smem_In in Hu. rewrite Hu. discriminate.
      - assert (HX : existsb (fun la => smem (cov_lower c) (ids_of tg la)) (rel_lower (tr_relation tr)) = true).
        { apply existsb_exists. exists la. split; [exact Hla|]. apply smem_In. exact Hl. }
        rewrite HX. discriminate. }
    cbn [obind]. eexists. split; [reflexivity|]. cbn [ag_traced ag_artefacts ag_requirements].
    split; [reflexivity|]. split.
    { split; [apply HA|]. split; [apply HA|]. intros k a Ha. rewrite (ai_get _ _ _ HA _ _ Ha). reflexivity. }
    split; [apply HR'|]. split; [apply HR'|].
    intros id a r Hd. destruct (ri_get _ _ _ HR' _ _ _ Hd) as (rt & G1 & G2 & G3 & G4 & G5 & G6 & G7).
    exists rt. repeat (split; [assumption|]). split.
    - intros R. rewrite G6. unfold rel_listed. rewrite <- listed_existsb, <- smem_In.
      destruct (existsb _ _), (smem id _); cbn; auto 6; right; split; auto; intros []; discriminate.
    - intros R. rewrite G7. unfold rel_listed. rewrite <- listed_existsb.
      assert (HX : existsb (fun la => smem id (ids_of tg la)) (rel_lower R) = true <->
                   exists la, In la (rel_lower R) /\ In id (ids_of tg la)).
      { rewrite existsb_exists. split; intros (la & H1 & H2); exists la; rewrite smem_In in *; auto. }
      rewrite <- HX.
      destruct (existsb (fun tr => eqb (tr_relation tr) R) (tg_relations tg)),
        (existsb (fun la => smem id (ids_of tg la)) (rel_lower R)); cbn; auto 6;
        right; split; auto; intros []; discriminate.
  Qed.

  (** ** Panic: exactly the unknown lower artefacts *)
  Lemma agg_lowers_bad tr las la : forall up low arts D C reqs,
    AInv up low arts -> RInv D C reqs ->
    In la las -> ~ In la (okeys (tg_artefacts tg)) ->
    for_each las (agg_lower tg tr) (arts, reqs) = Panic.
  Proof.
    induction las as [|x las IH]; intros up low arts D C reqs HA HR Hin Hn; [destruct Hin|].
    cbn [for_each]. destruct (in_dec ord_eq_dec x (okeys (tg_artefacts tg))) as [Hx|Hx].
    - destruct (agg_lowers tr [x] _ _ _ _ _ _ HA HR) as (arts' & reqs' & E & HA' & HR').
      { intros y [<-|[]]. exact Hx. }
      cbn [for_each] in E. destruct (agg_lower tg tr (arts, reqs) x) as [s|]; [|discriminate].
      cbn in E. inversion E; subst. cbn [obind]. destruct Hin as [->|Hin]; [contradiction|].
      eapply IH; eassumption.
    - unfold agg_lower at 1, upd. cbn [fst snd].
      assert (Hnone : oget x arts = None).
      { apply oget_None. rewrite (ai_keys _ _ _ HA). exact Hx. }
      rewrite Hnone. reflexivity.
  Qed.

  Theorem aggregate_panic : ~ lowers_known -> aggregate tg = Panic.
  Proof.
    intros HN. unfold aggregate.
    assert (HX : forall trs up low arts D C reqs,
      AInv up low arts -> RInv D C reqs ->
      (forall tr, In tr trs -> In tr (tg_relations tg)) ->
      ~ (forall tr la, In tr trs -> In la (rel_lower (tr_relation tr)) -> In la (okeys (tg_artefacts tg))) ->
      for_each trs (agg_relation tg) (arts, reqs) = Panic).
    { induction trs as [|tr trs IH]; intros up low arts D C reqs HA HR Hsub Hbad.
      { exfalso. apply Hbad. intros tr la []. }
      cbn [for_each].
      pose proof (ok_upper OK tr (Hsub tr (or_introl eq_refl))) as Hu.
      destruct (Forall_Exists_dec (fun la => In la (okeys (tg_artefacts tg)))
                  (fun la => in_dec ord_eq_dec la (okeys (tg_artefacts tg))) (rel_lower (tr_relation tr)))
        as [HF|HE].
      - rewrite Forall_forall in HF.
        destruct (agg_relations_spec [tr] _ _ _ _ _ _ HA HR) as (arts' & reqs' & E & HA' & HR').
        { intros tr' [<-|[]]. split; [exact Hu|exact HF]. }
        cbn [for_each] in E. destruct (agg_relation tg (arts, reqs) tr) as [s|]; [|discriminate].
        cbn in E. inversion E; subst. cbn [obind].
        eapply IH; [exact HA'|exact HR'| |].
        + intros tr' Hin. apply Hsub. right. exact Hin.
        + intros Hall. apply Hbad. intros tr' la [<-|Hin] Hla; [apply HF; exact Hla|eapply Hall; eassumption].
      - apply Exists_exists in HE. destruct HE as (la & Hla & Hn).
        unfold agg_relation at 1. cbn [fst snd].
        destruct (AInv_lower up low arts tr _ HA Hu) as (arts1 & -> & HA1). cbn [obind].
        pose proof Hu as Hu'. apply oget_key_Some in Hu'. destruct Hu' as [a Ha].
        unfold index. rewrite Ha. cbn [unwrap obind]. rewrite (ids_of_get _ _ Ha).
        destruct (RInv_insert_depends_all D C reqs (ids_of tg (rel_upper (tr_relation tr)))
                    (tr_relation tr) HR) as (reqs1 & -> & HR1).
        { intros id. apply known_def. }
        cbn [obind]. rewrite (agg_lowers_bad tr _ la _ _ _ _ _ _ HA1 HR1 Hla Hn). reflexivity. }
    rewrite (HX _ _ _ _ _ _ _ AInv_init RInv_init); [reflexivity|auto|exact HN].
  Qed.
End Agg.

(** ** Traced graphs satisfy the precondition *)
Lemma trace_agg_ok g tg : graph_wf g -> trace g = Done tg -> agg_ok tg.
Proof.
  intros WF TR. destruct (trace_done g WF tg TR) as (pc & pd & A1 & A2 & _).
  assert (Hids : forall k, ids_of tg k = map req_id (reqs_of g k)).
  { intros k. unfold ids_of, reqs_of. rewrite A1.
    destruct (oget k (g_artefacts g)) as [a|] eqn:Ha; [|reflexivity].
    apply oget_Some_In in Ha. destruct (wf_art g WF k a Ha) as [_ [_ Hk]].
    unfold okeys, ovalues. rewrite map_map. apply map_ext_in. intros [i r] Hin. cbn.
    symmetry. apply Hk. exact Hin. }
  split.
  - rewrite A1. apply WF.
  - intros tr Hin. rewrite A1. destruct (coverage_exact g WF tg TR tr (mkCoverage [] [] (mkLocation [] None) Upwards) Hin) as [Hr _].
    destruct (trace_done_ok g WF tg TR _ Hr) as (ua & Hua & _). eapply oget_Some_key. exact Hua.
  - intros tr c Hin Hc. apply (coverage_exact g WF tg TR tr c Hin) in Hc.
    destruct Hc as (l & Hl & <-). rewrite Hids. cbn. apply in_map. apply Hl.
  - intros tr c Hin Hc. apply (coverage_exact g WF tg TR tr c Hin) in Hc.
    destruct Hc as (l & Hl & <-). destruct Hl as (_ & H1 & H2 & _).
    exists (lk_lower_art l). split; [exact H1|]. rewrite Hids. cbn. apply in_map.
    unfold first_defs in H2. apply filter_In in H2. apply H2.
Qed.

Lemma trace_lowers_known g tg :
  graph_wf g -> trace g = Done tg ->
  (lowers_known tg <-> forall rel la, In rel (g_relations g) -> In la (rel_lower rel) ->
                                      In la (okeys (g_artefacts g))).
Proof.
  intros WF TR. destruct (trace_done g WF tg TR) as (pc & pd & A1 & A2 & _).
  unfold lowers_known. rewrite A1, A2. split.
  - intros H rel la Hr Hla. apply (H (traced_of g rel) la); [apply in_map; exact Hr|exact Hla].
  - intros H tr la Htr. apply in_map_iff in Htr. destruct Htr as (rel & <- & Hr). cbn. apply H. exact Hr.
Qed.

Lemma agg_total_iff g tg :
  graph_wf g -> trace g = Done tg ->
  ((exists ag, aggregate tg = Done ag) <->
   forall rel la, In rel (g_relations g) -> In la (rel_lower rel) -> In la (okeys (g_artefacts g))).
Proof.
  intros WF TR. pose proof (trace_agg_ok g tg WF TR) as HOK. split.
  - intros [ag Hag]. apply (trace_lowers_known g tg WF TR). intros tr la Htr Hla.
    destruct (in_dec ord_eq_dec la (okeys (tg_artefacts tg))) as [Hx|Hx]; [exact Hx|].
    rewrite (aggregate_panic tg HOK) in Hag; [discriminate|].
    intros HL. apply Hx. eapply HL; eassumption.
  - intros H. destruct (aggregate_spec tg HOK) as (ag & E & _).
    + apply (trace_lowers_known g tg WF TR). exact H.
    + eauto.
Qed.

Lemma last_def_in g tg id a r :
  graph_wf g -> trace g = Done tg -> last_def tg id = Some (a, r) ->
  oget (art_id a) (g_artefacts g) = Some a /\ In r (reqs_of g (art_id a)) /\ req_id r = id.
Proof.
  intros WF TR Hd. destruct (trace_done g WF tg TR) as (pc & pd & A1 & _).
  unfold last_def in Hd. apply oget_Some_In in Hd. apply in_rev in Hd.
  unfold all_defs in Hd. rewrite A1 in Hd. apply in_flat_map in Hd. destruct Hd as (a' & Ha' & Hin).
  apply in_map_iff in Hin. destruct Hin as ([i r'] & He & Hin). cbn in He. inversion He; subst.
  apply ovalues_In in Ha'. destruct Ha' as [k Hk].
  destruct (wf_art g WF k a Hk) as [Hid [Hs Hk']]. rewrite Hid.
  pose proof (In_oget k a _ (proj1 WF) Hk) as Hg. split; [exact Hg|].
  split; [|apply Hk'; exact Hin].
  unfold reqs_of. rewrite Hg. apply ovalues_In. eauto.
Qed.

Lemma agg_first_definition g tg id a r :
  graph_wf g -> trace g = Done tg -> unique_ids g -> last_def tg id = Some (a, r) ->
  first_of g id = Some r.
Proof.
  intros WF TR HU Hd. destruct (last_def_in g tg id a r WF TR Hd) as (_ & Hin & <-).
  eapply reqs_of_first; eassumption.
Qed.

(** The aggregated requirement is the definition in the artefact with the largest id. *)
Lemma agg_rt g tg ag id rt :
  graph_wf g -> trace g = Done tg -> aggregate tg = Done ag -> oget id (ag_requirements ag) = Some rt ->
  last_def tg id = Some (rt_artefact rt, rt_requirement rt).
Proof.
  intros WF TR AG Hrt.
  pose proof (proj1 (agg_total_iff g tg WF TR) (ex_intro _ ag AG)) as HL.
  destruct (aggregate_spec tg (trace_agg_ok g tg WF TR)
              (proj2 (trace_lowers_known g tg WF TR) HL)) as (ag' & E0 & _ & _ & _ & HK & HD).
  rewrite E0 in AG. injection AG as ->.
  destruct (proj1 (HK id)) as (a & r & E); [eapply oget_Some_key; exact Hrt|].
  destruct (HD id a r E) as (rt' & E' & <- & <- & _). congruence.
Qed.

Lemma agg_first_rt g tg ag id rt :
  graph_wf g -> trace g = Done tg -> unique_ids g -> aggregate tg = Done ag ->
  oget id (ag_requirements ag) = Some rt -> first_of g id = Some (rt_requirement rt).
Proof.
  intros WF TR HU AG Hrt. eapply agg_first_definition; try eassumption. eapply agg_rt; eassumption.
Qed.

Lemma last_def_largest (arts : omap artefact_id artefact) id a r :
  osorted arts ->
  oget id (rev (flat_map (fun a => map (fun e => (fst e, (a, snd e))) (art_requirements a)) (ovalues arts))) = Some (a, r) ->
  exists k, In (k, a) arts /\
    forall k' a', In (k', a') arts -> In id (okeys (art_requirements a')) -> cmp k' k <> Gt.
Proof.
  induction arts as [|[k0 a0] arts IH]; intros HS; [discriminate|]. cbn [ovalues map flat_map snd].
  inversion HS as [|? ? HS' HL]; subst. rewrite rev_app_distr, oget_app.
  destruct (oget id (rev (flat_map _ (map snd arts)))) as [x|] eqn:E.
  - intros Hx. inversion Hx; subst x. destruct (IH HS' E) as (k & Hin & HM). exists k. split; [right; exact Hin|].
    intros k' a' [Hk|Hk] Hid; [|exact (HM k' a' Hk Hid)]. inversion Hk; subst. rewrite Forall_forall in HL.
    assert (Hlt : lt k' k) by (apply HL; apply in_map_iff; exists (k, a); auto). unfold lt in Hlt. rewrite Hlt. discriminate.
  - intros H0. apply oget_Some_In in H0. apply in_rev in H0. apply in_map_iff in H0. destruct H0 as (y & Hy & _).
    inversion Hy; subst. exists k0. split; [left; reflexivity|].
    intros k' a' [Hk|Hk] Hid; [inversion Hk; subst; rewrite cmp_refl; discriminate|]. exfalso.
    apply oget_None in E. apply E. unfold okeys. rewrite map_rev. apply -> in_rev. apply in_map_iff in Hid.
    destruct Hid as ([i q] & <- & Hq). apply in_map_iff. exists (i, (a', q)). split; [reflexivity|].
    apply in_flat_map. exists a'. split; [apply in_map_iff; exists (k', a'); auto|]. apply in_map_iff. exists (i, q). auto.
Qed.

Lemma agg_last_rt g tg ag id rt :
  graph_wf g -> trace g = Done tg -> aggregate tg = Done ag -> oget id (ag_requirements ag) = Some rt ->
  exists k, oget k (g_artefacts g) = Some (rt_artefact rt) /\ In (rt_requirement rt) (reqs_of g k) /\
    req_id (rt_requirement rt) = id /\
    forall k' r', In r' (reqs_of g k') -> req_id r' = id -> cmp k' k <> Gt.
Proof.
  intros WF TR AG Hrt. pose proof (agg_rt g tg ag id rt WF TR AG Hrt) as Hd.
  destruct (last_def_in g tg id _ _ WF TR Hd) as (H1 & H2 & H3).
  destruct (trace_done g WF tg TR) as (pc & pd & A1 & _). unfold last_def, all_defs in Hd. rewrite A1 in Hd.
  destruct (last_def_largest _ _ _ _ (proj1 WF) Hd) as (k & Hin & HM).
  destruct (wf_art g WF k _ Hin) as [Hid _]. rewrite Hid in H1, H2. exists k.
  split; [exact H1|]. split; [exact H2|]. split; [exact H3|].
  intros k' r' Hr Hid'. unfold reqs_of in Hr. destruct (oget k' (g_artefacts g)) as [a'|] eqn:Ea; [|destruct Hr].
  apply oget_Some_In in Ea. apply (HM k' a' Ea). destruct (wf_art g WF k' a' Ea) as [_ [_ HK]].
  apply ovalues_In in Hr. destruct Hr as (i & Hr). rewrite (HK i r' Hr) in Hid'. subst i. apply in_map_iff. exists (id, r'). auto.
Qed.

Lemma in_the_req g tg id r :
  graph_wf g -> trace g = Done tg -> In r (the_req tg id) -> req_id r = id.
Proof.
  intros WF TR. unfold the_req. destruct (last_def tg id) as [[a r']|] eqn:E; [|intros []].
  intros [<-|[]]. apply (last_def_in g tg id a r' WF TR E).
Qed.

Lemma below_above g tg u l R loc :
  graph_wf g -> trace g = Done tg ->
  ((exists r, In (r, loc) (below tg u R) /\ req_id r = l) <->
   (exists r, In (r, loc) (above tg l R) /\ req_id r = u)).
Proof.
  intros WF TR. pose proof (trace_agg_ok g tg WF TR) as HOK.
  assert (Hd : forall tr c, In tr (tg_relations tg) -> In c (tr_covered tr) ->
     (exists r, In r (the_req tg (cov_upper c))) /\ (exists r, In r (the_req tg (cov_lower c)))).
  { intros tr c Htr Hc. unfold the_req. split.
    - destruct (known_def tg _ _ (ok_cov_upper tg HOK tr c Htr Hc)) as (a & r & ->). eexists. left. reflexivity.
    - destruct (ok_cov_lower tg HOK tr c Htr Hc) as (la & _ & Hl).
      destruct (known_def tg _ _ Hl) as (a & r & ->). eexists. left. reflexivity. }
  unfold below, above. split; intros (r & Hin & Hid).
  - apply in_flat_map in Hin. destruct Hin as (tr & Htr & Hin).
    destruct (eqb (tr_relation tr) R) eqn:ER; [|destruct Hin].
    apply in_flat_map in Hin. destruct Hin as (c & Hc & Hin).
    destruct (eqb_spec (cov_upper c) u) as [Hu|]; [|destruct Hin].
    apply in_map_iff in Hin. destruct Hin as (r' & He & Hr'). inversion He; subst r' loc.
    pose proof (in_the_req g tg _ _ WF TR Hr') as Hl.
    destruct (Hd tr c Htr Hc) as [(ru & Hru) _]. exists ru. split.
    + apply in_flat_map. exists tr. split; [exact Htr|]. rewrite ER.
      apply in_flat_map. exists c. split; [exact Hc|].
      rewrite <- Hid, Hl, eqb_refl. apply in_map_iff. exists ru. auto.
    + rewrite (in_the_req g tg _ _ WF TR Hru). exact Hu.
  - apply in_flat_map in Hin. destruct Hin as (tr & Htr & Hin).
    destruct (eqb (tr_relation tr) R) eqn:ER; [|destruct Hin].
    apply in_flat_map in Hin. destruct Hin as (c & Hc & Hin).
    destruct (eqb_spec (cov_lower c) l) as [Hu|]; [|destruct Hin].
    apply in_map_iff in Hin. destruct Hin as (r' & He & Hr'). inversion He; subst r' loc.
    pose proof (in_the_req g tg _ _ WF TR Hr') as Hl.
    destruct (Hd tr c Htr Hc) as [_ (ru & Hru)]. exists ru. split.
    + apply in_flat_map. exists tr. split; [exact Htr|]. rewrite ER.
      apply in_flat_map. exists c. split; [exact Hc|].
      rewrite <- Hid, Hl, eqb_refl. apply in_map_iff. exists ru. auto.
    + rewrite (in_the_req g tg _ _ WF TR Hru). exact Hu.
Qed.
