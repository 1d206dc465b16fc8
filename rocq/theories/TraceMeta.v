(** Comparing the tracing of two graphs. *)
From Coq Require Import Permutation.
From Verif Require Import Base OMap Models Tracer TraceSpec TraceIndex TraceFacts TraceCor MetaSpec.

Lemma in_ids g k id : In id (ids_of g k) <-> exists r, In r (reqs_of g k) /\ req_id r = id.
Proof. unfold ids_of. rewrite in_map_iff. split; intros (r & H1 & H2); exists r; auto. Qed.

Section Shape.
  Variables g g' : graph.
  Hypothesis WF : graph_wf g.
  Hypothesis WF' : graph_wf g'.
  Hypothesis SH : same_shape g g'.

  Lemma shape_key k : oget k (g_artefacts g) = None <-> oget k (g_artefacts g') = None.
  Proof.
    destruct SH as (_ & _ & H). specialize (H k). unfold ignores in H.
    destruct (oget k (g_artefacts g)), (oget k (g_artefacts g')); cbn in H; split; congruence.
  Qed.

  Lemma defined_before_iff (h : graph) k id : graph_wf h ->
    (defined_before h k id = true <->
     exists k0, cmp k0 k = Lt /\ In id (ids_of h k0)).
  Proof.
    intros W. unfold defined_before. rewrite existsb_exists. split.
    - intros ([k0 a] & Hin & Hb). cbn [fst snd] in Hb. apply andb_prop in Hb. destruct Hb as [Hc He].
      exists k0. split; [destruct (cmp k0 k); congruence|]. apply existsb_exists in He.
      destruct He as (r & Hr & Hid). apply in_ids. exists r. unfold reqs_of.
      rewrite (In_oget _ _ _ (proj1 W) Hin). split; [exact Hr|]. destruct (eqb_spec (req_id r) id); congruence.
    - intros (k0 & Hc & Hid). apply in_ids in Hid. destruct Hid as (r & Hr & Hid). unfold reqs_of in Hr.
      destruct (oget k0 (g_artefacts h)) as [a|] eqn:E; [|destruct Hr].
      exists (k0, a). split; [apply oget_Some_In; exact E|]. cbn [fst snd]. rewrite Hc. cbn.
      apply existsb_exists. exists r. split; [exact Hr|]. rewrite Hid. apply eqb_refl.
  Qed.

  Lemma shape_before k id : defined_before g k id = defined_before g' k id.
  Proof.
    destruct SH as (_ & H & _).
    destruct (defined_before g k id) eqn:E, (defined_before g' k id) eqn:E'; try reflexivity.
    - apply (defined_before_iff g k id WF) in E. destruct E as (k0 & Hc & Hid). rewrite H in Hid.
      assert (E2 : defined_before g' k id = true) by (apply (defined_before_iff g' k id WF'); eauto). congruence.
    - apply (defined_before_iff g' k id WF') in E'. destruct E' as (k0 & Hc & Hid). rewrite <- H in Hid.
      assert (E2 : defined_before g k id = true) by (apply (defined_before_iff g k id WF); eauto). congruence.
  Qed.
End Shape.

Lemma same_shape_sym g g' : same_shape g g' -> same_shape g' g.
Proof. intros (H1 & H2 & H3). split; [auto|]. split; intros k; symmetry; auto. Qed.
Lemma same_connections_sym g g' : same_shape g g' -> same_connections g g' -> same_connections g' g.
Proof.
  intros (H1 & H2 & H3) HC rel la u l Hr Hla Hu Hl. rewrite <- H1 in Hr. rewrite <- H2 in Hu, Hl.
  symmetry. apply HC; assumption.
Qed.

(** A link exists between two requirements if they are connected. *)
Lemma link_connected g rel l : is_link g rel l ->
  connected g (rel_upper rel) (req_id (lk_upper l)) (lk_lower_art l) (req_id (lk_lower l)).
Proof.
  intros (Hu & _ & Hl & Hd). unfold first_defs in Hl. apply filter_In in Hl. destruct Hl as [Hl _].
  destruct (lk_dir l).
  - right. exists (lk_lower l), (lk_ref l). destruct Hd. auto.
  - left. exists (lk_upper l), (lk_ref l). destruct Hd. auto.
Qed.
Lemma connected_link g rel up la low : graph_wf g ->
  In up (reqs_of g (rel_upper rel)) -> In la (rel_lower rel) -> In low (first_defs g la) ->
  connected g (rel_upper rel) (req_id up) la (req_id low) ->
  exists l, is_link g rel l /\ lk_upper l = up /\ lk_lower_art l = la /\ lk_lower l = low.
Proof.
  intros WF Hu Hla Hl HC. assert (Hl' : In low (reqs_of g la)) by (unfold first_defs in Hl; apply filter_In in Hl; apply Hl).
  destruct HC as [(up' & d & Hup' & Hid & Hd & Hr)|(low' & c & Hlow' & Hid & Hc & Hr)].
  - assert (up' = up).
    { pose proof (find_nodup_in _ _ (reqs_of_nodup g WF (rel_upper rel)) Hu) as F1.
      pose proof (find_nodup_in _ _ (reqs_of_nodup g WF (rel_upper rel)) Hup') as F2. rewrite Hid in F2. congruence. }
    subst up'. exists (mkLink up la low d Downwards). repeat split; assumption.
  - assert (low' = low).
    { pose proof (find_nodup_in _ _ (reqs_of_nodup g WF la) Hl') as F1.
      pose proof (find_nodup_in _ _ (reqs_of_nodup g WF la) Hlow') as F2. rewrite Hid in F2. congruence. }
    subst low'. exists (mkLink up la low c Upwards). repeat split; assumption.
Qed.

Section Same.
  Variables g g' : graph.
  Hypothesis WF : graph_wf g.
  Hypothesis WF' : graph_wf g'.
  Hypothesis SH : same_shape g g'.
  Hypothesis SC : same_connections g g'.

  (** A link of [g] has a counterpart in [g']. *)
  Lemma link_transfer rel l : In rel (g_relations g) -> is_link g rel l ->
    exists l', is_link g' rel l' /\ req_id (lk_upper l') = req_id (lk_upper l) /\
      lk_lower_art l' = lk_lower_art l /\ req_id (lk_lower l') = req_id (lk_lower l).
  Proof.
    intros Hrel Hl. pose proof (link_connected g rel l Hl) as HC. destruct Hl as (Hu & Hla & Hlow & _).
    unfold first_defs in Hlow. apply filter_In in Hlow. destruct Hlow as [Hlow Hfirst].
    assert (Iu : In (req_id (lk_upper l)) (ids_of g (rel_upper rel))) by (apply in_ids; eauto).
    assert (Il : In (req_id (lk_lower l)) (ids_of g (lk_lower_art l))) by (apply in_ids; eauto).
    apply (SC rel _ _ _ Hrel Hla Iu Il) in HC.
    destruct SH as (_ & HI & _). rewrite HI in Iu, Il. apply in_ids in Iu. apply in_ids in Il.
    destruct Iu as (up' & Hup' & Eu). destruct Il as (low' & Hlow' & El).
    destruct (connected_link g' rel up' (lk_lower_art l) low' WF' Hup' Hla) as (l' & Hl' & E1 & E2 & E3).
    - unfold first_defs. apply filter_In. split; [exact Hlow'|]. rewrite El.
      rewrite <- (shape_before g g' WF WF' SH). exact Hfirst.
    - rewrite Eu, El. exact HC.
    - exists l'. split; [exact Hl'|]. rewrite E1, E2, E3. auto.
  Qed.
End Same.

Lemma shape_ok g g' rel : same_shape g g' -> relation_ok g rel -> relation_ok g' rel.
Proof.
  intros SH (ua & Hua & H). destruct SH as (_ & HI & HF).
  destruct (oget (rel_upper rel) (g_artefacts g')) as [ua'|] eqn:E.
  2:{ specialize (HF (rel_upper rel)). unfold ignores in HF. rewrite Hua, E in HF. discriminate. }
  exists ua'. split; [exact E|]. destruct H as [H|H].
  - left. specialize (HI (rel_upper rel)). unfold ids_of, reqs_of in HI. rewrite Hua, E, H in HI.
    cbn in HI. destruct (art_requirements ua') as [|[k r] m]; [reflexivity|discriminate].
  - right. intros la Hla. specialize (H la Hla). apply oget_key_Some in H. destruct H as [a Ha].
    specialize (HF la). unfold ignores in HF. rewrite Ha in HF.
    destruct (oget la (g_artefacts g')) eqn:E'; [|discriminate]. apply oget_Some_key in E'. exact E'.
Qed.

Lemma uncovered_transfer g g' rel : graph_wf g -> graph_wf g' -> same_shape g g' -> same_connections g g' ->
  In rel (g_relations g) ->
  forall id, In id (tr_uncovered (traced_of g rel)) -> In id (tr_uncovered (traced_of g' rel)).
Proof.
  intros WF WF' SH SC Hrel id. unfold traced_of. cbn [tr_uncovered]. rewrite !in_map_iff.
  intros (up & <- & Hup). apply filter_In in Hup. destruct Hup as [Hup Hn].
  assert (Iu : In (req_id up) (ids_of g (rel_upper rel))) by (apply in_ids; eauto).
  pose proof SH as (HR & HI & _). rewrite HI in Iu. apply in_ids in Iu. destruct Iu as (up' & Hup' & Eu).
  exists up'. split; [exact Eu|]. apply filter_In. split; [exact Hup'|].
  destruct (is_nil (links_of g' rel up')) eqn:E; [reflexivity|]. exfalso.
  apply (is_nil_links_of g' rel up' Hup') in E. destruct E as (l & Hl & El).
  destruct (link_transfer g' g WF' WF (same_shape_sym _ _ SH) (same_connections_sym _ _ SH SC) rel l) as (l0 & Hl0 & E0 & _).
  { rewrite <- HR. exact Hrel. }
  { exact Hl. }
  rewrite El, Eu in E0.
  assert (lk_upper l0 = up).
  { pose proof (find_nodup_in _ _ (reqs_of_nodup g WF (rel_upper rel)) Hup) as F1.
    pose proof (find_nodup_in _ _ (reqs_of_nodup g WF (rel_upper rel)) (proj1 Hl0)) as F2. rewrite E0 in F2. congruence. }
  assert (HC : covered_along g rel up) by (exists l0; auto).
  apply (is_nil_links_of g rel up Hup) in HC. congruence.
Qed.

Lemma covers_transfer g g' k r r' : graph_wf g -> graph_wf g' -> same_shape g g' -> same_connections g g' ->
  In r' (first_defs g' k) -> req_id r' = req_id r -> covers_something g k r -> covers_something g' k r'.
Proof.
  intros WF WF' SH SC Hr' Eid (rel & l & Hrel & Hl & Ea & El).
  destruct (link_transfer g g' WF WF' SH SC rel l Hrel Hl) as (l' & Hl' & _ & Ea' & El').
  exists rel, l'. split; [rewrite <- (proj1 SH); exact Hrel|]. split; [exact Hl'|]. split; [congruence|].
  assert (HF : In (lk_lower l') (first_defs g' k)) by (destruct Hl' as (_ & _ & HF & _); congruence).
  apply (first_defs_first_of g' WF') in HF. apply (first_defs_first_of g' WF') in Hr'.
  rewrite El', El, <- Eid in HF. congruence.
Qed.

Lemma same_trace g g' tg : graph_wf g -> graph_wf g' -> same_shape g g' -> same_connections g g' ->
  trace g = Done tg ->
  exists tg', trace g' = Done tg' /\ tg_derived tg' = tg_derived tg /\
    map tr_relation (tg_relations tg') = map tr_relation (tg_relations tg) /\
    map tr_uncovered (tg_relations tg') = map tr_uncovered (tg_relations tg).
Proof.
  intros WF WF' SH SC TR. pose proof SH as (HR & HI & HF).
  pose proof (same_shape_sym _ _ SH) as SH'. pose proof (same_connections_sym _ _ SH SC) as SC'.
  destruct (trace_done _ WF _ TR) as (pc & pd & A1 & A2 & (A3 & A4 & A5) & _).
  destruct (trace_exact g' WF') as (tg' & pc' & pd' & B0 & B1 & B2 & (B3 & B4 & B5) & _).
  { intros rel Hrel. rewrite <- HR in Hrel. apply (shape_ok g g' rel SH). apply (trace_done_ok g WF tg TR rel Hrel). }
  exists tg'. split; [exact B0|]. split; [|split].
  - apply osorted_ext; [exact B3|exact A3|]. intros k.
    destruct (oget k (g_artefacts g)) as [a|] eqn:Ha.
    + destruct (oget k (g_artefacts g')) as [a'|] eqn:Ha'.
      2:{ apply (shape_key g g' SH) in Ha'. congruence. }
      destruct (A5 k a Ha) as (d & -> & Hs & Hd). destruct (B5 k a' Ha') as (d' & -> & Hs' & Hd').
      assert (EI : art_ignore_derived a = art_ignore_derived a').
      { specialize (HF k). unfold ignores in HF. rewrite Ha, Ha' in HF. cbn in HF. congruence. }
      f_equal. apply ssorted_ext; [exact Hs'|exact Hs|]. intros id. rewrite Hd, Hd', EI.
      assert (HX : forall h h' r, graph_wf h -> graph_wf h' -> same_shape h h' -> same_connections h h' ->
                     In r (first_defs h k) -> ~ covers_something h k r ->
                     exists r', In r' (first_defs h' k) /\ req_id r' = req_id r /\ ~ covers_something h' k r').
      { clear - HI. intros h h' r W W' S C Hr Hno. pose proof S as (_ & HI' & _).
        unfold first_defs in Hr. apply filter_In in Hr. destruct Hr as [Hr Hf].
        assert (Ir : In (req_id r) (ids_of h k)) by (apply in_ids; eauto). rewrite HI' in Ir. apply in_ids in Ir.
        destruct Ir as (r' & Hr' & Er).
        assert (HF' : In r (first_defs h k)) by (unfold first_defs; apply filter_In; split; assumption).
        exists r'. split; [|split; [exact Er|]].
        - unfold first_defs. apply filter_In. split; [exact Hr'|]. rewrite Er.
          rewrite <- (shape_before h h' W W' S). exact Hf.
        - intros Hc. apply Hno.
          apply (covers_transfer h' h k r' r W' W (same_shape_sym _ _ S) (same_connections_sym _ _ S C) HF'); [congruence|exact Hc]. }
      split.
      * intros (Hi & r & Hr & Hid & Hno). split; [exact Hi|].
        destruct (HX g' g r WF' WF SH' SC' Hr Hno) as (r' & Hr' & Er & Hno'). exists r'. rewrite Er. auto.
      * intros (Hi & r & Hr & Hid & Hno). split; [exact Hi|].
        destruct (HX g g' r WF WF' SH SC Hr Hno) as (r' & Hr' & Er & Hno'). exists r'. rewrite Er. auto.
    + assert (Hn1 : oget k (tg_derived tg) = None).
      { apply oget_None. rewrite A4. apply oget_None. exact Ha. }
      assert (Hn2 : oget k (tg_derived tg') = None).
      { apply oget_None. rewrite B4. apply oget_None. apply (shape_key g g' SH). exact Ha. }
      congruence.
  - rewrite A2, B2, !map_map. cbn. rewrite HR. reflexivity.
  - rewrite A2, B2, !map_map, <- HR. apply map_ext_in. intros rel Hrel.
    apply ssorted_ext.
    + unfold traced_of. cbn. apply map_filter_sorted, reqs_of_sorted. exact WF'.
    + unfold traced_of. cbn. apply map_filter_sorted, reqs_of_sorted. exact WF.
    + intros id. split.
      * apply (uncovered_transfer g' g rel WF' WF SH' SC'). rewrite <- HR. exact Hrel.
      * apply (uncovered_transfer g g' rel WF WF' SH SC Hrel).
Qed.

(** ** One relation to several artefacts, or several relations *)
Lemma links_of_app g u ls1 ls2 up :
  Permutation (links_of g (mkRelation u (ls1 ++ ls2)) up)
              (links_of g (mkRelation u ls1) up ++ links_of g (mkRelation u ls2) up).
Proof.
  unfold links_of, links_up. cbn [rel_lower]. rewrite flat_map_app.
  assert (HD : Permutation (links_down g (mkRelation u (ls1 ++ ls2)) up)
                           (links_down g (mkRelation u ls1) up ++ links_down g (mkRelation u ls2) up)).
  { unfold links_down. cbn [rel_lower]. induction (req_depends up) as [|d ds IH]; cbn [flat_map]; [constructor|].
    rewrite flat_map_app, <- !app_assoc. apply Permutation_app_head.
    eapply Permutation_trans; [apply Permutation_app_head; exact IH|].
    rewrite !app_assoc. apply Permutation_app_tail. apply Permutation_app_comm. }
  eapply Permutation_trans; [apply Permutation_app_tail; exact HD|].
  rewrite <- !app_assoc. apply Permutation_app_head. rewrite !app_assoc. apply Permutation_app_tail.
  apply Permutation_app_comm.
Qed.

Lemma flat_map_perm_app {A B} (f f1 f2 : A -> list B) l :
  (forall a, Permutation (f a) (f1 a ++ f2 a)) -> Permutation (flat_map f l) (flat_map f1 l ++ flat_map f2 l).
Proof.
  intros H. induction l as [|a l IH]; cbn [flat_map]; [constructor|].
  eapply Permutation_trans; [apply Permutation_app; [apply H|exact IH]|].
  rewrite <- !app_assoc. apply Permutation_app_head. rewrite !app_assoc. apply Permutation_app_tail.
  apply Permutation_app_comm.
Qed.

Lemma links_app g u ls1 ls2 :
  Permutation (links g (mkRelation u (ls1 ++ ls2))) (links g (mkRelation u ls1) ++ links g (mkRelation u ls2)).
Proof. unfold links. cbn [rel_upper]. apply flat_map_perm_app. intros up. apply links_of_app. Qed.

Lemma is_link_app g u ls1 ls2 l :
  is_link g (mkRelation u (ls1 ++ ls2)) l <-> is_link g (mkRelation u ls1) l \/ is_link g (mkRelation u ls2) l.
Proof. unfold is_link. cbn [rel_upper rel_lower]. rewrite in_app_iff. tauto. Qed.

Lemma perm_nil_iff {A} (l l' : list A) : Permutation l l' -> is_nil l = is_nil l'.
Proof.
  intros H. destruct l, l'; try reflexivity.
  - apply Permutation_nil in H. discriminate.
  - apply Permutation_sym, Permutation_nil in H. discriminate.
Qed.
Lemma is_nil_app {A} (l l' : list A) : is_nil (l ++ l') = is_nil l && is_nil l'.
Proof. destruct l; reflexivity. Qed.

Lemma perm_filter {A} (p : A -> bool) l l' : Permutation l l' -> Permutation (filter p l) (filter p l').
Proof.
  intros H. induction H as [|x l l' H IH|x y l|l l1 l2 H1 IH1 H2 IH2]; cbn [filter].
  - constructor.
  - destruct (p x); [constructor|]; exact IH.
  - destruct (p x), (p y); try apply Permutation_refl. constructor.
  - eapply Permutation_trans; eassumption.
Qed.

Lemma filter_all {A} (p : A -> bool) l : (forall x, In x l -> p x = true) -> filter p l = l.
Proof.
  induction l as [|x l IH]; intros H; [reflexivity|]. cbn [filter]. rewrite (H x (or_introl eq_refl)). f_equal.
  apply IH. intros y Hy. apply H. right. exact Hy.
Qed.

Lemma split_relation arts rels rels2 u ls1 ls2 tg tg' :
  let g := mkGraph arts (rels ++ mkRelation u (ls1 ++ ls2) :: rels2) in
  let g' := mkGraph arts (rels ++ mkRelation u ls1 :: mkRelation u ls2 :: rels2) in
  graph_wf g -> trace g = Done tg -> trace g' = Done tg' ->
  tg_derived tg' = tg_derived tg /\
  Permutation (filter not_unused (tg_errors tg)) (filter not_unused (tg_errors tg')) /\
  exists rs tr tr1 tr2 rs2, tg_relations tg = rs ++ tr :: rs2 /\ tg_relations tg' = rs ++ tr1 :: tr2 :: rs2 /\
    map tr_relation rs = rels /\
    Permutation (tr_covered tr) (tr_covered tr1 ++ tr_covered tr2) /\
    forall id, In id (tr_uncovered tr) <-> In id (tr_uncovered tr1) /\ In id (tr_uncovered tr2).
Proof.
  intros g g' WF TR TR'.
  assert (WF' : graph_wf g') by exact WF.
  destruct (trace_done _ WF _ TR) as (pc & pd & A1 & A2 & (A3 & A4 & A5) & A6 & A7 & A8 & A9 & A10).
  destruct (trace_done _ WF' _ TR') as (pc' & pd' & B1 & B2 & (B3 & B4 & B5) & B6 & B7 & B8 & B9 & B10).
  assert (HL : forall l, (exists rel, In rel (g_relations g) /\ is_link g rel l) <->
                         (exists rel, In rel (g_relations g') /\ is_link g' rel l)).
  { intros l. cbn [g_relations g g']. split.
    - intros (rel & Hin & Hl). apply in_app_iff in Hin. destruct Hin as [Hin|[<-|Hin]];
        [exists rel; split; [apply in_app_iff; auto|exact Hl]| |exists rel; split; [apply in_app_iff; cbn; auto|exact Hl]].
      + apply is_link_app in Hl. destruct Hl as [Hl|Hl].
        * exists (mkRelation u ls1). split; [apply in_app_iff; right; left; reflexivity|exact Hl].
        * exists (mkRelation u ls2). split; [apply in_app_iff; right; right; left; reflexivity|exact Hl].
    - intros (rel & Hin & Hl). apply in_app_iff in Hin. destruct Hin as [Hin|[<-|[<-|Hin]]];
        [exists rel; split; [apply in_app_iff; auto|exact Hl]| | |exists rel; split; [apply in_app_iff; cbn; auto|exact Hl]].
      + eexists. split; [apply in_app_iff; right; left; reflexivity|]. apply is_link_app. left. exact Hl.
      + eexists. split; [apply in_app_iff; right; left; reflexivity|]. apply is_link_app. right. exact Hl. }
  assert (HC : forall k r, covers_something g k r <-> covers_something g' k r).
  { intros k r. unfold covers_something. split.
    - intros (rel & l & Hr & Hl & E). destruct (proj1 (HL l) (ex_intro _ rel (conj Hr Hl))) as (rel' & Hr' & Hl').
      exists rel', l. auto.
    - intros (rel & l & Hr & Hl & E). destruct (proj2 (HL l) (ex_intro _ rel (conj Hr Hl))) as (rel' & Hr' & Hl').
      exists rel', l. auto. }
  assert (HK : forall d x y, linked g d x y <-> linked g' d x y).
  { intros d x y. unfold linked. split.
    - intros (rel & l & Hr & Hl & E). destruct (proj1 (HL l) (ex_intro _ rel (conj Hr Hl))) as (rel' & Hr' & Hl').
      exists rel', l. auto.
    - intros (rel & l & Hr & Hl & E). destruct (proj2 (HL l) (ex_intro _ rel (conj Hr Hl))) as (rel' & Hr' & Hl').
      exists rel', l. auto. }
  split; [|split].
  - apply osorted_ext; [exact B3|exact A3|]. intros k.
    destruct (oget k arts) as [a|] eqn:Ha.
    + destruct (A5 k a Ha) as (d & -> & Hs & Hd). destruct (B5 k a Ha) as (d' & -> & Hs' & Hd').
      f_equal. apply ssorted_ext; [exact Hs'|exact Hs|]. intros id. rewrite Hd, Hd'.
      split; intros (Hi & r & Hr & Hid & Hno); (split; [exact Hi|]); exists r;
        (split; [exact Hr|]); (split; [exact Hid|]); intros Hc; apply Hno; apply HC; exact Hc.
    + assert (Hn1 : oget k (tg_derived tg) = None).
      { apply oget_None. rewrite A4. cbn. apply oget_None. exact Ha. }
      assert (Hn2 : oget k (tg_derived tg') = None).
      { apply oget_None. rewrite B4. cbn. apply oget_None. exact Ha. }
      congruence.
  - assert (pc' = pc).
    { apply ssorted_ext; [exact B6|exact A6|]. intros [x y]. rewrite A7, B7.
      unfold dangling_covers. rewrite HK. reflexivity. }
    assert (pd' = pd).
    { apply ssorted_ext; [exact B8|exact A8|]. intros [x y]. rewrite A9, B9.
      unfold dangling_depends. rewrite HK. reflexivity. }
    subst pc' pd'. rewrite A10, B10. cbn [g_relations g g']. rewrite !flat_map_app, !filter_app.
    change (dup_errors g') with (dup_errors g). change (relation_errors g') with (relation_errors g).
    change (covers_error g') with (covers_error g). change (depends_error g') with (depends_error g).
    apply Permutation_app_head. apply Permutation_app_tail. apply Permutation_app_head.
    cbn [flat_map]. rewrite !filter_app, app_assoc. apply Permutation_app_tail. unfold relation_errors.
    assert (HU : forall rel, filter not_unused (unused_errors g rel) = []).
    { intros rel. unfold unused_errors. destruct (is_nil (links g rel)); reflexivity. }
    assert (HE : forall ls, flat_map (link_errors g (mkRelation u ls)) = flat_map (link_errors g (mkRelation u (ls1 ++ ls2)))).
    { intros ls. reflexivity. }
    rewrite !filter_app, !HU, !app_nil_r, (HE ls1), (HE ls2), <- filter_app, <- flat_map_app.
    apply perm_filter. apply Permutation_flat_map. apply links_app.
  - exists (map (traced_of g) rels), (traced_of g (mkRelation u (ls1 ++ ls2))),
      (traced_of g (mkRelation u ls1)), (traced_of g (mkRelation u ls2)), (map (traced_of g) rels2).
    split; [rewrite A2; cbn [g_relations g]; rewrite map_app; reflexivity|].
    split; [rewrite B2; cbn [g_relations g']; rewrite map_app; reflexivity|].
    split; [rewrite map_map; apply map_id|].
    unfold traced_of. cbn [tr_covered tr_uncovered rel_upper]. split.
    + rewrite <- map_app. apply Permutation_map. apply links_app.
    + intros id.
      assert (HN : forall up, is_nil (links_of g (mkRelation u (ls1 ++ ls2)) up) =
                is_nil (links_of g (mkRelation u ls1) up) && is_nil (links_of g (mkRelation u ls2) up)).
      { intros up. rewrite <- is_nil_app. apply perm_nil_iff. apply links_of_app. }
      rewrite !in_map_iff. split.
      * intros (up & Hid & Hup). apply filter_In in Hup. destruct Hup as [Hup Hn]. rewrite HN in Hn.
        apply andb_prop in Hn. destruct Hn as [H1 H2].
        split; exists up; (split; [exact Hid|]); apply filter_In; auto.
      * intros ((up & Hid & Hup) & (up2 & Hid2 & Hup2)). apply filter_In in Hup. apply filter_In in Hup2.
        destruct Hup as [Hup H1]. destruct Hup2 as [Hup2 H2].
        assert (up2 = up).
        { pose proof (find_nodup_in _ _ (reqs_of_nodup g WF u) Hup) as F1.
          pose proof (find_nodup_in _ _ (reqs_of_nodup g WF u) Hup2) as F2. rewrite Hid2, <- Hid in F2. congruence. }
        subst up2. exists up. split; [exact Hid|]. apply filter_In. split; [exact Hup|]. rewrite HN, H1, H2. reflexivity.
Qed.

(** ** An artefact nothing is connected with *)
Lemma oins_perm {K V} `{Ord K} (k : K) (v : V) m : ~ In k (okeys m) -> Permutation (oins k v m) ((k, v) :: m).
Proof.
  induction m as [|[k' v'] m IH]; intros HN; [apply Permutation_refl|]. cbn [oins].
  destruct (cmp k k') eqn:E.
  - apply cmp_eq in E. subst. elim HN. left. reflexivity.
  - apply Permutation_refl.
  - eapply Permutation_trans; [apply perm_skip; apply IH; intros X; apply HN; right; exact X|apply perm_swap].
Qed.
Lemma flat_map_none {A B} (f : A -> list B) l : (forall x, In x l -> f x = []) -> flat_map f l = [].
Proof.
  induction l as [|x l IH]; intros HE; [reflexivity|]. cbn [flat_map].
  rewrite (HE x (or_introl eq_refl)), IH; [reflexivity|]. intros y Hy. apply HE. right. exact Hy.
Qed.
Lemma filter_none {A} (f : A -> bool) l : (forall x, In x l -> f x = false) -> filter f l = [].
Proof.
  induction l as [|x l IH]; intros HE; [reflexivity|]. cbn [filter].
  rewrite (HE x (or_introl eq_refl)). apply IH. intros y Hy. apply HE. right. exact Hy.
Qed.
Lemma NoDup_app_r {A} (l r : list A) : NoDup (l ++ r) -> NoDup r.
Proof. induction l as [|x l IH]; [auto|]. cbn. intros H. inversion H; auto. Qed.
Lemma NoDup_app_disjoint {A} (l r : list A) : NoDup (l ++ r) -> forall x, In x l -> ~ In x r.
Proof.
  induction l as [|y l IH]; cbn; intros H x Hx Hr; [exact Hx|]. inversion H; subst. destruct Hx as [->|Hx].
  - match goal with X : ~ In x _ |- _ => apply X end. apply in_app_iff. auto.
  - eapply IH; eassumption.
Qed.
Lemma NoDup_incl_rest {A} (l l' : list A) : NoDup l -> NoDup l' -> incl l l' -> exists r, Permutation l' (l ++ r).
Proof.
  revert l'. induction l as [|x l IH]; intros l' N N' HI; [exists l'; apply Permutation_refl|].
  destruct (in_split x l' (HI x (or_introl eq_refl))) as (l1 & l2 & ->). inversion N; subst.
  destruct (IH (l1 ++ l2)) as (r & Hr).
  - assumption.
  - eapply NoDup_remove_1. exact N'.
  - intros y Hy. specialize (HI y (or_intror Hy)). apply in_app_iff in HI. apply in_app_iff.
    destruct HI as [HI|[->|HI]]; [auto|contradiction|auto].
  - exists r. cbn [app]. eapply Permutation_trans; [apply Permutation_sym, Permutation_middle|]. apply perm_skip. exact Hr.
Qed.

Section Frame.
  Variables (arts : omap artefact_id artefact) (rels : list relation) (k : artefact_id) (a : artefact).
  Let g := mkGraph arts rels.
  Let g' := mkGraph (oins k a arts) rels.
  Hypothesis WF : graph_wf g.
  Hypothesis AID : art_id a = k.
  Hypothesis AWF : artefact_wf a.
  Hypothesis NEW : ~ In k (okeys arts).
  Hypothesis FRESH : forall r, In r (ovalues (art_requirements a)) -> ~ In (req_id r) (map req_id (all_reqs g)).
  Hypothesis APART : forall rel, In rel rels -> rel_upper rel <> k /\ ~ In k (rel_lower rel).

  Lemma frame_wf : graph_wf g'.
  Proof.
    destruct WF as [HS HA]. split; cbn [g_artefacts g g'].
    - apply oins_sorted. exact HS.
    - intros k0 a0 Hin. apply In_oget in Hin; [|apply oins_sorted; exact HS].
      rewrite oget_oins in Hin. destruct (eqb_spec k0 k) as [->|HN].
      + inversion Hin; subst. split; [reflexivity|exact AWF].
      + apply HA. apply oget_Some_In. exact Hin.
  Qed.

  Lemma frame_reqs k0 : k0 <> k -> reqs_of g' k0 = reqs_of g k0.
  Proof. intros HN. unfold reqs_of. cbn [g_artefacts g g']. rewrite oget_oins_other by exact HN. reflexivity. Qed.
  Lemma frame_new : reqs_of g' k = ovalues (art_requirements a).
  Proof. unfold reqs_of. cbn [g_artefacts g']. rewrite oget_oins_same. reflexivity. Qed.

  Lemma in_all_reqs (h : graph) r : graph_wf h -> (In r (all_reqs h) <-> exists k0, In r (reqs_of h k0)).
  Proof.
    intros W. unfold all_reqs. rewrite in_flat_map. split.
    - intros ([k0 a0] & Hin & Hr). exists k0. unfold reqs_of. rewrite (In_oget _ _ _ (proj1 W) Hin). exact Hr.
    - intros (k0 & Hr). unfold reqs_of in Hr. destruct (oget k0 (g_artefacts h)) as [a0|] eqn:E; [|destruct Hr].
      exists (k0, a0). split; [apply oget_Some_In; exact E|exact Hr].
  Qed.

  Lemma known_not_new k0 id : In id (ids_of g k0) -> ~ In id (ids_of g' k).
  Proof.
    intros H1 H2. apply in_ids in H1. apply in_ids in H2. destruct H1 as (r1 & Hr1 & E1). destruct H2 as (r2 & Hr2 & E2).
    rewrite frame_new in Hr2. apply (FRESH r2 Hr2). rewrite E2, <- E1. apply in_map. apply in_all_reqs; [exact WF|]. eauto.
  Qed.
  Lemma none_of_k id : ~ In id (ids_of g k).
  Proof.
    intros H. apply in_ids in H. destruct H as (r & Hr & _). unfold reqs_of in Hr. cbn [g_artefacts g] in Hr.
    rewrite (proj2 (oget_None k arts) NEW) in Hr. destruct Hr.
  Qed.

  Lemma frame_before k0 k1 id : In id (ids_of g k1) -> defined_before g' k0 id = defined_before g k0 id.
  Proof.
    intros Hid. pose proof frame_wf as WF'.
    destruct (defined_before g k0 id) eqn:E, (defined_before g' k0 id) eqn:E'; try reflexivity.
    - apply (defined_before_iff g k0 id WF) in E. destruct E as (k2 & Hc & Hin).
      assert (HN : k2 <> k) by (intros ->; apply (none_of_k id); exact Hin).
      assert (E2 : defined_before g' k0 id = true).
      { apply (defined_before_iff g' k0 id WF'). exists k2. split; [exact Hc|]. unfold ids_of. rewrite frame_reqs by exact HN. exact Hin. }
      congruence.
    - apply (defined_before_iff g' k0 id WF') in E'. destruct E' as (k2 & Hc & Hin).
      assert (HN : k2 <> k) by (intros ->; exact (known_not_new k1 id Hid Hin)).
      assert (E2 : defined_before g k0 id = true).
      { apply (defined_before_iff g k0 id WF). exists k2. split; [exact Hc|]. unfold ids_of in *. rewrite frame_reqs in Hin by exact HN. exact Hin. }
      congruence.
  Qed.

  Lemma frame_first_defs k0 : k0 <> k -> first_defs g' k0 = first_defs g k0.
  Proof.
    intros HN. unfold first_defs. rewrite (frame_reqs k0 HN). apply filter_ext_in. intros r Hr.
    rewrite (frame_before k0 k0); [reflexivity|]. apply in_ids. eauto.
  Qed.
  Lemma frame_first_new : first_defs g' k = ovalues (art_requirements a).
  Proof.
    unfold first_defs. rewrite frame_new. apply filter_all. intros r Hr.
    destruct (defined_before g' k (req_id r)) eqn:E; [|reflexivity]. exfalso.
    apply (defined_before_iff g' k _ frame_wf) in E. destruct E as (k2 & Hc & Hin).
    assert (HN : k2 <> k) by (intros ->; rewrite cmp_refl in Hc; discriminate).
    unfold ids_of in Hin. rewrite frame_reqs in Hin by exact HN.
    apply (known_not_new k2 (req_id r) Hin). apply in_ids. exists r. rewrite frame_new. auto.
  Qed.

  Lemma frame_is_link rel l : In rel rels -> (is_link g' rel l <-> is_link g rel l).
  Proof.
    intros Hrel. destruct (APART rel Hrel) as [HU HL]. unfold is_link. rewrite (frame_reqs _ HU).
    split; intros (H1 & H2 & H3 & H4); (split; [exact H1|]; split; [exact H2|]; split; [|exact H4]).
    - rewrite frame_first_defs in H3; [exact H3|]. intros E. rewrite E in H2. exact (HL H2).
    - rewrite frame_first_defs; [exact H3|]. intros E. rewrite E in H2. exact (HL H2).
  Qed.
  Lemma frame_links_of rel up : In rel rels -> links_of g' rel up = links_of g rel up.
  Proof.
    intros Hrel. destruct (APART rel Hrel) as [HU HL]. unfold links_of, links_down, links_up. f_equal.
    - apply flat_map_ext_in. intros d _. apply flat_map_ext_in. intros la Hla. rewrite frame_first_defs; [reflexivity|].
      intros ->. exact (HL Hla).
    - apply flat_map_ext_in. intros la Hla. rewrite frame_first_defs; [reflexivity|]. intros ->. exact (HL Hla).
  Qed.
  Lemma frame_links rel : In rel rels -> links g' rel = links g rel.
  Proof.
    intros Hrel. destruct (APART rel Hrel) as [HU _]. unfold links. rewrite (frame_reqs _ HU).
    apply flat_map_ext_in. intros up _. apply frame_links_of. exact Hrel.
  Qed.
  Lemma frame_traced rel : In rel rels -> traced_of g' rel = traced_of g rel.
  Proof.
    intros Hrel. destruct (APART rel Hrel) as [HU _]. unfold traced_of. rewrite frame_links by exact Hrel. f_equal.
    rewrite (frame_reqs _ HU). f_equal. apply filter_ext_in. intros up _. rewrite frame_links_of by exact Hrel. reflexivity.
  Qed.

  Lemma frame_first_of id r : first_of g' id = Some r <->
    first_of g id = Some r \/ (In r (ovalues (art_requirements a)) /\ req_id r = id).
  Proof.
    rewrite (first_of_spec g' frame_wf), (first_of_spec g WF). split.
    - intros (Hid & k0 & a0 & Hin & Hf). destruct (eqb_spec k0 k) as [->|HN].
      + right. rewrite frame_first_new in Hf. auto.
      + left. split; [exact Hid|]. exists k0, a0. rewrite frame_first_defs in Hf by exact HN. split; [|exact Hf].
        apply In_oget in Hin; [|apply frame_wf]. cbn [g_artefacts g'] in Hin. rewrite oget_oins_other in Hin by exact HN.
        apply oget_Some_In. exact Hin.
    - intros [(Hid & k0 & a0 & Hin & Hf)|(Hr & Hid)].
      + assert (HN : k0 <> k).
        { intros ->. apply NEW. cbn [g_artefacts g] in Hin. apply in_map_iff. exists (k, a0). auto. }
        split; [exact Hid|]. exists k0, a0. split.
        * apply oget_Some_In. cbn [g_artefacts g']. rewrite oget_oins_other by exact HN. apply In_oget; [apply WF|exact Hin].
        * rewrite frame_first_defs by exact HN. exact Hf.
      + split; [exact Hid|]. exists k, a. split.
        * apply oget_Some_In. cbn [g_artefacts g']. apply oget_oins_same.
        * rewrite frame_first_new. exact Hr.
  Qed.

  Lemma frame_dup e : In e (dup_errors g') <-> In e (dup_errors g).
  Proof.
    assert (HD : forall h, graph_wf h -> (In e (dup_errors h) <->
                   exists k0 r, In r (reqs_of h k0) /\ In e (dup_errors_of h k0 r))).
    { intros h W. unfold dup_errors. rewrite in_flat_map. split.
      - intros ([k0 a0] & Hin & He). apply in_flat_map in He. destruct He as (r & Hr & He). exists k0, r.
        unfold reqs_of. rewrite (In_oget _ _ _ (proj1 W) Hin). auto.
      - intros (k0 & r & Hr & He). unfold reqs_of in Hr. destruct (oget k0 (g_artefacts h)) as [a0|] eqn:E; [|destruct Hr].
        exists (k0, a0). split; [apply oget_Some_In; exact E|]. apply in_flat_map. exists r. auto. }
    rewrite (HD g' frame_wf), (HD g WF).
    assert (HO : forall k0 r, In r (reqs_of g k0) -> first_of g' (req_id r) = first_of g (req_id r)).
    { intros k0 r Hr. destruct (first_of g' (req_id r)) as [x|] eqn:E.
      - apply frame_first_of in E. destruct E as [E|(Hx & Hid)]; [congruence|]. exfalso.
        apply (FRESH x Hx). rewrite Hid. apply in_map. apply in_all_reqs; [exact WF|]. eauto.
      - destruct (first_of g (req_id r)) as [x|] eqn:E'; [|reflexivity].
        assert (first_of g' (req_id r) = Some x) by (apply frame_first_of; auto). congruence. }
    split; intros (k0 & r & Hr & He).
    - destruct (eqb_spec k0 k) as [->|HN].
      + exfalso. assert (Hf : In r (first_defs g' k)) by (rewrite frame_first_new, <- frame_new; exact Hr).
        unfold first_defs in Hf. apply filter_In in Hf. destruct Hf as [_ Hf]. unfold dup_errors_of in He.
        destruct (defined_before g' k (req_id r)); [discriminate|destruct He].
      + rewrite frame_reqs in Hr by exact HN. exists k0, r. split; [exact Hr|]. unfold dup_errors_of in *.
        rewrite (frame_before k0 k0), (HO k0 r Hr) in He by (apply in_ids; eauto). exact He.
    - assert (HN : k0 <> k) by (intros ->; apply (none_of_k (req_id r)); apply in_ids; eauto).
      exists k0, r. rewrite frame_reqs by exact HN. split; [exact Hr|]. unfold dup_errors_of in *.
      rewrite (frame_before k0 k0), (HO k0 r Hr) by (apply in_ids; eauto). exact He.
  Qed.

  Lemma frame_linked d x y : linked g' d x y <-> linked g d x y.
  Proof.
    unfold linked. cbn [g_relations g g']. split; intros (rel & l & Hr & Hl & E); exists rel, l; (split; [exact Hr|]);
      (split; [|exact E]); apply (frame_is_link rel l Hr); exact Hl.
  Qed.
  Lemma linked_known d x y : linked g d x y -> In x (map req_id (all_reqs g)) /\ In y (map req_id (all_reqs g)).
  Proof.
    intros (rel & l & Hr & (Hu & Hla & Hl & _) & _ & <- & <-). split; apply in_map; apply in_all_reqs; try exact WF.
    - eauto.
    - unfold first_defs in Hl. apply filter_In in Hl. destruct Hl. eauto.
  Qed.

  Variables tg tg' : traced_graph.
  Hypothesis TR : trace g = Done tg.
  Hypothesis TR' : trace g' = Done tg'.

  Lemma frame_errors e : In e (tg_errors tg') <-> In e (tg_errors tg) \/ dangles_in a e.
  Proof.
    pose proof frame_wf as WF'.
    assert (HS : forall e0, is_covers_unknown e0 || is_depends_unknown e0 = false ->
              (In e0 (tg_errors tg') <-> In e0 (tg_errors tg))).
    { intros e0 Hc.
      destruct (trace_done _ WF _ TR) as (pc & pd & _ & _ & _ & _ & _ & _ & _ & A10).
      destruct (trace_done _ WF' _ TR') as (pc' & pd' & _ & _ & _ & _ & _ & _ & _ & B10).
      assert (HD : forall h qc qd, ~ In e0 (flat_map (covers_error h) qc ++ flat_map (depends_error h) qd)).
      { intros h qc qd Hin. apply in_app_iff in Hin. destruct Hin as [Hin|Hin]; apply in_flat_map in Hin;
          destruct Hin as (p & _ & Hp).
        - unfold covers_error in Hp. destruct (first_of _ _); [|destruct Hp]. destruct (first_location _ _); [|destruct Hp].
          destruct Hp as [<-|[]]. discriminate.
        - unfold depends_error in Hp. destruct (first_of _ _); [|destruct Hp]. destruct (first_location _ _); [|destruct Hp].
          destruct Hp as [<-|[]]. discriminate. }
      assert (HE : flat_map (relation_errors g') rels = flat_map (relation_errors g) rels).
      { apply flat_map_ext_in. intros rel Hrel. unfold relation_errors, unused_errors. rewrite (frame_links rel Hrel).
        f_equal. apply flat_map_ext_in. intros l Hl. unfold link_errors. f_equal.
        unfold missing_title_errors, wants_title. cbn [g_artefacts g g'].
        assert (HN : referenced_artefact rel l <> k).
        { destruct (APART rel Hrel) as [HU HL]. unfold referenced_artefact. destruct (lk_dir l); [exact HU|].
          apply in_links in Hl. destruct Hl as (_ & Hla & _). intros E. rewrite E in Hla. exact (HL Hla). }
        rewrite oget_oins_other by exact HN. reflexivity. }
      rewrite A10, B10. cbn [g_relations g g']. rewrite HE, !in_app_iff, frame_dup.
      specialize (HD g' pc' pd') as HD1. specialize (HD g pc pd) as HD2. rewrite in_app_iff in HD1, HD2. tauto. }
    destruct (covers_unknown_exact _ WF _ TR) as [C _]. destruct (covers_unknown_exact _ WF' _ TR') as [C' _].
    destruct (depends_unknown_exact _ WF _ TR) as [Dp _]. destruct (depends_unknown_exact _ WF' _ TR') as [Dp' _].
    destruct (is_covers_unknown e || is_depends_unknown e) eqn:Ecls.
    2:{ rewrite (HS e Ecls). split; [auto|]. intros [H|(r & _ & [(i & l & _ & ->)|(i & l & _ & ->)])]; [exact H|discriminate|discriminate]. }
    destruct e; try discriminate.
    - (* depends *)
      rewrite Dp', Dp. unfold dangling_depends. rewrite frame_linked. split.
      + intros ((( up & d & Hf & Hd & Hi) & Hno) & Hfirst & Hloc). apply frame_first_of in Hfirst.
        destruct Hfirst as [Hfirst|(Hr & _)].
        * left. split; [|split; [exact Hfirst|exact Hloc]]. split; [|exact Hno]. exists req.
          unfold first_location in Hloc. destruct (find _ _) as [x|] eqn:Ef; [|discriminate]. apply find_some in Ef.
          destruct Ef as [Hx Ex]. exists x. split; [exact Hfirst|]. split; [exact Hx|]. destruct (eqb_spec (ref_id x) id); congruence.
        * right. exists req. split; [exact Hr|]. right. exists id, loc. auto.
      + intros [(((up & d & Hf & Hd & Hi) & Hno) & Hfirst & Hloc)|(r & Hr & [(i & l & Hl & E)|(i & l & Hl & E)])]; [| discriminate |].
        * split; [|split; [apply frame_first_of; left; exact Hfirst|exact Hloc]]. split; [|exact Hno].
          exists up, d. split; [apply frame_first_of; left; exact Hf|]. auto.
        * injection E; intros -> -> ->. split; [|split; [apply frame_first_of; right; auto|exact Hl]]. split.
          -- unfold first_location in Hl. destruct (find _ _) as [x|] eqn:Ef; [|discriminate]. apply find_some in Ef.
             destruct Ef as [Hx Ex]. exists r, x. split; [apply frame_first_of; right; auto|]. split; [exact Hx|].
             destruct (eqb_spec (ref_id x) i); congruence.
          -- intros HL. apply linked_known in HL. destruct HL as [HL _]. exact (FRESH r Hr HL).
    - (* covers *)
      rewrite C', C. unfold dangling_covers. rewrite frame_linked. split.
      + intros (((low & c & Hf & Hc & Hi) & Hno) & Hfirst & Hloc). apply frame_first_of in Hfirst.
        destruct Hfirst as [Hfirst|(Hr & _)].
        * left. split; [|split; [exact Hfirst|exact Hloc]]. split; [|exact Hno]. exists req.
          unfold first_location in Hloc. destruct (find _ _) as [x|] eqn:Ef; [|discriminate]. apply find_some in Ef.
          destruct Ef as [Hx Ex]. exists x. split; [exact Hfirst|]. split; [exact Hx|]. destruct (eqb_spec (ref_id x) id); congruence.
        * right. exists req. split; [exact Hr|]. left. exists id, loc. auto.
      + intros [(((low & c & Hf & Hc & Hi) & Hno) & Hfirst & Hloc)|(r & Hr & [(i & l & Hl & E)|(i & l & Hl & E)])]; [| | discriminate].
        * split; [|split; [apply frame_first_of; left; exact Hfirst|exact Hloc]]. split; [|exact Hno].
          exists low, c. split; [apply frame_first_of; left; exact Hf|]. auto.
        * injection E; intros -> -> ->. split; [|split; [apply frame_first_of; right; auto|exact Hl]]. split.
          -- unfold first_location in Hl. destruct (find _ _) as [x|] eqn:Ef; [|discriminate]. apply find_some in Ef.
             destruct Ef as [Hx Ex]. exists r, x. split; [apply frame_first_of; right; auto|]. split; [exact Hx|].
             destruct (eqb_spec (ref_id x) i); congruence.
          -- intros HL. apply linked_known in HL. destruct HL as [_ HL]. exact (FRESH r Hr HL).
  Qed.

  Lemma frame_dup_perm : Permutation (dup_errors g') (dup_errors g).
  Proof.
    unfold dup_errors at 1. cbn [g_artefacts g'].
    rewrite (Permutation_flat_map _ (oins_perm k a arts NEW)). cbn [flat_map fst snd].
    replace (flat_map (dup_errors_of g' k) (ovalues (art_requirements a))) with (@nil error).
    - cbn [app]. unfold dup_errors. cbn [g_artefacts g].
      erewrite flat_map_ext_in; [apply Permutation_refl|]. intros [k0 a0] Hin. cbn [fst snd].
      apply flat_map_ext_in. intros r Hr.
      assert (Hq : In r (reqs_of g k0)).
      { unfold reqs_of. cbn [g_artefacts g]. rewrite (In_oget k0 a0 arts (proj1 WF) Hin). exact Hr. }
      unfold dup_errors_of. rewrite (frame_before k0 k0) by (apply in_ids; eauto).
      replace (first_of g' (req_id r)) with (first_of g (req_id r)); [reflexivity|].
      destruct (first_of g (req_id r)) as [x|] eqn:E'.
      + symmetry. apply frame_first_of. auto.
      + destruct (first_of g' (req_id r)) as [x|] eqn:E; [|reflexivity].
        apply frame_first_of in E. destruct E as [E|(Hx & Hid)]; [congruence|]. exfalso.
        apply (FRESH x Hx). rewrite Hid. apply in_map. apply in_all_reqs; [exact WF|]. eauto.
    - symmetry. apply flat_map_none. intros r Hr. unfold dup_errors_of.
      assert (Hf : In r (first_defs g' k)) by (rewrite frame_first_new; exact Hr).
      unfold first_defs in Hf. apply filter_In in Hf. destruct Hf as [_ Hf].
      destruct (defined_before g' k (req_id r)); [discriminate|reflexivity].
  Qed.

  Lemma frame_relation_errors : flat_map (relation_errors g') rels = flat_map (relation_errors g) rels.
  Proof.
    apply flat_map_ext_in. intros rel Hrel. unfold relation_errors, unused_errors. rewrite (frame_links rel Hrel).
    f_equal. apply flat_map_ext_in. intros l Hl. unfold link_errors. f_equal.
    unfold missing_title_errors, wants_title. cbn [g_artefacts g g'].
    assert (HN : referenced_artefact rel l <> k).
    { destruct (APART rel Hrel) as [HU HL]. unfold referenced_artefact. destruct (lk_dir l); [exact HU|].
      apply in_links in Hl. destruct Hl as (_ & Hla & _). intros E. rewrite E in Hla. exact (HL Hla). }
    rewrite oget_oins_other by exact HN. reflexivity.
  Qed.

  (** The errors are the old ones, as often as before, and each dangling reference once. *)
  Lemma frame_errors_perm :
    exists new, Permutation (tg_errors tg') (tg_errors tg ++ new) /\ NoDup new /\
      forall e, In e new <-> dangles_in a e.
  Proof.
    pose proof frame_wf as WF'. set (unk := fun e => is_covers_unknown e || is_depends_unknown e).
    assert (HP : forall h th, graph_wf h -> trace h = Done th ->
      Permutation (tg_errors th) ((dup_errors h ++ flat_map (relation_errors h) (g_relations h)) ++ filter unk (tg_errors th)) /\
      NoDup (filter unk (tg_errors th))).
    { intros h th W T. split.
      - destruct (trace_done _ W _ T) as (pc & pd & _ & _ & _ & _ & _ & _ & _ & A10).
        assert (E1 : filter unk (dup_errors h ++ flat_map (relation_errors h) (g_relations h)) = []).
        { apply filter_none. intros e He. apply in_app_iff in He. destruct He as [He|He].
          - rewrite <- (filter_dup_errors_id h) in He. apply filter_In in He. destruct He as [_ He]. destruct e; try discriminate; reflexivity.
          - apply in_flat_map in He. destruct He as (rel & _ & He). unfold relation_errors in He. apply in_app_iff in He.
            destruct He as [He|He].
            + apply in_flat_map in He. destruct He as (l & _ & He). unfold link_errors in He. apply in_app_iff in He.
              destruct He as [He|He].
              * unfold wrong_title_errors in He. destruct (ref_title _); [|destruct He].
                destruct (option_eqb _ _ _); [destruct He|]. destruct He as [<-|[]]. destruct (lk_dir l); reflexivity.
              * unfold missing_title_errors in He. destruct (ref_title _); [destruct He|].
                destruct (wants_title _ _); [|destruct He]. destruct He as [<-|[]]. reflexivity.
            + unfold unused_errors in He. destruct (is_nil _); [|destruct He]. destruct He as [<-|[]]. reflexivity. }
        assert (E2 : filter unk (flat_map (covers_error h) pc ++ flat_map (depends_error h) pd) =
                     flat_map (covers_error h) pc ++ flat_map (depends_error h) pd).
        { apply filter_all. intros e Hin. apply in_app_iff in Hin. destruct Hin as [Hin|Hin]; apply in_flat_map in Hin;
            destruct Hin as (p & _ & Hp).
          - unfold covers_error in Hp. destruct (first_of _ _); [|destruct Hp]. destruct (first_location _ _); [|destruct Hp].
            destruct Hp as [<-|[]]. reflexivity.
          - unfold depends_error in Hp. destruct (first_of _ _); [|destruct Hp]. destruct (first_location _ _); [|destruct Hp].
            destruct Hp as [<-|[]]. reflexivity. }
        rewrite A10, app_assoc, filter_app, E1, E2. apply Permutation_refl.
      - destruct (covers_unknown_exact _ W _ T) as [_ N1]. destruct (depends_unknown_exact _ W _ T) as [_ N2].
        clear - N1 N2. induction (tg_errors th) as [|e l IH]; [constructor|]. unfold unk in *. cbn [filter] in *.
        destruct (is_covers_unknown e) eqn:Ec, (is_depends_unknown e) eqn:Ed; cbn [orb]; try (apply IH; assumption).
        + destruct e; discriminate.
        + inversion N1; subst. constructor; [|apply IH; assumption]. intros H. apply filter_In in H. destruct H as [H _].
          match goal with X : ~ In e _ |- _ => apply X end. apply filter_In. auto.
        + inversion N2; subst. constructor; [|apply IH; assumption]. intros H. apply filter_In in H. destruct H as [H _].
          match goal with X : ~ In e _ |- _ => apply X end. apply filter_In. auto. }
    destruct (HP g tg WF TR) as [P N]. destruct (HP g' tg' WF' TR') as [P' N'].
    destruct (NoDup_incl_rest _ _ N N') as (new & Hn).
    { intros e He. apply filter_In in He. destruct He as [He Hu]. apply filter_In. split; [|exact Hu].
      apply frame_errors. auto. }
    exists new. assert (NA : NoDup (filter unk (tg_errors tg) ++ new)) by (eapply Permutation_NoDup; eassumption).
    split; [|split].
    - eapply Permutation_trans; [exact P'|]. eapply Permutation_trans; [apply Permutation_app; [|exact Hn]|].
      + apply Permutation_app; [apply frame_dup_perm|]. cbn [g_relations g']. rewrite frame_relation_errors. apply Permutation_refl.
      + rewrite app_assoc. apply Permutation_app_tail. apply Permutation_sym. exact P.
    - eapply NoDup_app_r. exact NA.
    - intros e. split.
      + intros He. assert (Hin : In e (filter unk (tg_errors tg'))).
        { eapply Permutation_in; [apply Permutation_sym; exact Hn|]. apply in_app_iff. auto. }
        apply filter_In in Hin. destruct Hin as [Hin Hu]. apply frame_errors in Hin. destruct Hin as [Hin|Hin]; [|exact Hin].
        exfalso. apply (NoDup_app_disjoint _ _ NA e); [apply filter_In; auto|exact He].
      + intros Hd. assert (Hin : In e (filter unk (tg_errors tg'))).
        { apply filter_In. split; [apply frame_errors; auto|].
          destruct Hd as (r & _ & [(i & l & _ & ->)|(i & l & _ & ->)]); reflexivity. }
        eapply Permutation_in in Hin; [|exact Hn]. apply in_app_iff in Hin. destruct Hin as [Hin|Hin]; [|exact Hin].
        exfalso. apply filter_In in Hin. destruct Hin as [Hin _].
        assert (HX : forall r, In r (ovalues (art_requirements a)) -> first_of g (req_id r) <> Some r).
        { intros r Hr Hf. apply (FRESH r Hr). apply (first_of_spec g WF) in Hf. destruct Hf as (_ & k0 & a0 & _ & Hf).
          apply in_map. apply in_all_reqs; [exact WF|]. apply filter_In in Hf. destruct Hf. eauto. }
        destruct Hd as (r & Hr & [(i & l & _ & ->)|(i & l & _ & ->)]).
        * apply (proj1 (covers_unknown_exact _ WF _ TR)) in Hin. destruct Hin as (_ & Hf & _). exact (HX r Hr Hf).
        * apply (proj1 (depends_unknown_exact _ WF _ TR)) in Hin. destruct Hin as (_ & Hf & _). exact (HX r Hr Hf).
  Qed.

  Lemma frame_rest :
    tg_relations tg' = tg_relations tg /\
    (forall k0, k0 <> k -> oget k0 (tg_derived tg') = oget k0 (tg_derived tg)) /\
    oget k (tg_derived tg') = Some (if art_ignore_derived a then [] else okeys (art_requirements a)).
  Proof.
    pose proof frame_wf as WF'.
    destruct (trace_done _ WF _ TR) as (pc & pd & A1 & A2 & (A3 & A4 & A5) & _).
    destruct (trace_done _ WF' _ TR') as (pc' & pd' & B1 & B2 & (B3 & B4 & B5) & _).
    assert (HC : forall k0 r, covers_something g' k0 r <-> covers_something g k0 r).
    { intros k0 r. unfold covers_something. cbn [g_relations g g'].
      split; intros (rel & l & Hr & Hl & E); exists rel, l; (split; [exact Hr|]); (split; [|exact E]);
        apply (frame_is_link rel l Hr); exact Hl. }
    split; [|split].
    - rewrite A2, B2. cbn [g_relations g g']. apply map_ext_in. intros rel Hrel. apply frame_traced. exact Hrel.
    - intros k0 HN. destruct (oget k0 arts) as [a0|] eqn:Ha.
      + assert (Ha' : oget k0 (g_artefacts g') = Some a0) by (cbn [g_artefacts g']; rewrite oget_oins_other; assumption).
        destruct (A5 k0 a0 Ha) as (d & -> & Hs & Hd). destruct (B5 k0 a0 Ha') as (d' & -> & Hs' & Hd').
        f_equal. apply ssorted_ext; [exact Hs'|exact Hs|]. intros id. rewrite Hd, Hd', (frame_first_defs k0 HN).
        split; intros (Hi & r & Hr & Hid & Hno); (split; [exact Hi|]); exists r;
          (split; [exact Hr|]); (split; [exact Hid|]); intros Hc; apply Hno; apply HC; exact Hc.
      + assert (Hn1 : oget k0 (tg_derived tg) = None).
        { apply oget_None. rewrite A4. cbn. apply oget_None. exact Ha. }
        assert (Hn2 : oget k0 (tg_derived tg') = None).
        { apply oget_None. rewrite B4. apply oget_None. cbn [g_artefacts g']. rewrite oget_oins_other; assumption. }
        congruence.
    - assert (Ha' : oget k (g_artefacts g') = Some a) by (cbn [g_artefacts g']; apply oget_oins_same).
      destruct (B5 k a Ha') as (d' & -> & Hs' & Hd'). f_equal.
      assert (Hno : forall r, ~ covers_something g' k r).
      { intros r (rel & l & Hr & (_ & Hla & _) & Ea & _). rewrite Ea in Hla. exact (proj2 (APART rel Hr) Hla). }
      destruct AWF as [HS HK].
      destruct (art_ignore_derived a).
      + destruct d' as [|x d']; [reflexivity|]. destruct (proj1 (Hd' x)) as [E _]; [left; reflexivity|discriminate].
      + apply ssorted_ext; [exact Hs'|exact HS|]. intros id. rewrite Hd'. rewrite frame_first_new. split.
        * intros (_ & r & Hr & <- & _). apply ovalues_In in Hr. destruct Hr as (i & Hr). rewrite (HK i r Hr).
          apply in_map_iff. exists (i, r). auto.
        * intros Hid. split; [reflexivity|]. apply in_map_iff in Hid. destruct Hid as ([i r] & <- & Hr). exists r.
          split; [apply ovalues_In; eauto|]. split; [apply HK; exact Hr|apply Hno].
  Qed.
End Frame.

Lemma split_done arts rels rels2 u ls1 ls2 tg :
  let g := mkGraph arts (rels ++ mkRelation u (ls1 ++ ls2) :: rels2) in
  let g' := mkGraph arts (rels ++ mkRelation u ls1 :: mkRelation u ls2 :: rels2) in
  graph_wf g -> trace g = Done tg -> exists tg', trace g' = Done tg'.
Proof.
  intros g g' WF TR. assert (WF' : graph_wf g') by exact WF.
  destruct (trace_exact g' WF') as (tg' & pc & pd & E & _); [|eauto].
  intros rel Hrel. cbn [g_relations g'] in Hrel. apply in_app_iff in Hrel.
  assert (H1 : relation_ok g (mkRelation u (ls1 ++ ls2))).
  { apply (trace_done_ok g WF tg TR). cbn [g_relations g]. apply in_app_iff. right. left. reflexivity. }
  destruct H1 as (ua & Hua & H). cbn [rel_upper rel_lower] in Hua, H.
  destruct Hrel as [Hrel|[<-|[<-|Hrel]]];
    [apply (trace_done_ok g WF tg TR); cbn [g_relations g]; apply in_app_iff; left; exact Hrel| | |
     apply (trace_done_ok g WF tg TR); cbn [g_relations g]; apply in_app_iff; right; right; exact Hrel].
  - exists ua. split; [exact Hua|]. destruct H as [H|H]; [left; exact H|right]. intros la Hla. apply H.
    apply in_app_iff. left. exact Hla.
  - exists ua. split; [exact Hua|]. destruct H as [H|H]; [left; exact H|right]. intros la Hla. apply H.
    apply in_app_iff. right. exact Hla.
Qed.

Lemma split_trace arts rels rels2 u ls1 ls2 tg :
  let g := mkGraph arts (rels ++ mkRelation u (ls1 ++ ls2) :: rels2) in
  let g' := mkGraph arts (rels ++ mkRelation u ls1 :: mkRelation u ls2 :: rels2) in
  graph_wf g -> trace g = Done tg ->
  exists tg' rs tr tr1 tr2 rs2, trace g' = Done tg' /\
    tg_derived tg' = tg_derived tg /\
    Permutation (filter not_unused (tg_errors tg)) (filter not_unused (tg_errors tg')) /\
    tg_relations tg = rs ++ tr :: rs2 /\ tg_relations tg' = rs ++ tr1 :: tr2 :: rs2 /\ map tr_relation rs = rels /\
    Permutation (tr_covered tr) (tr_covered tr1 ++ tr_covered tr2) /\
    forall id, In id (tr_uncovered tr) <-> In id (tr_uncovered tr1) /\ In id (tr_uncovered tr2).
Proof.
  intros g g' WF TR. destruct (split_done _ _ _ _ _ _ _ WF TR) as (tg' & TR').
  destruct (split_relation _ _ _ _ _ _ _ _ WF TR TR') as (H1 & H2 & rs & tr & tr1 & tr2 & rs2 & H3).
  exists tg', rs, tr, tr1, tr2, rs2. tauto.
Qed.

Lemma frame_trace arts rels k a tg :
  let g := mkGraph arts rels in
  graph_wf g -> trace g = Done tg -> artefact_wf a -> unconnected g k a ->
  exists tg', trace (mkGraph (oins k a arts) rels) = Done tg' /\
    tg_relations tg' = tg_relations tg /\
    (forall k0, k0 <> k -> oget k0 (tg_derived tg') = oget k0 (tg_derived tg)) /\
    oget k (tg_derived tg') = Some (if art_ignore_derived a then [] else okeys (art_requirements a)) /\
    (exists new, Permutation (tg_errors tg') (tg_errors tg ++ new) /\ NoDup new /\
       forall e, In e new <-> dangles_in a e).
Proof.
  intros g WF TR AWF (AID & NEW & FRESH & APART).
  pose proof (frame_wf arts rels k a WF AID AWF NEW FRESH APART) as WF'.
  destruct (trace_exact _ WF') as (tg' & pc & pd & E & _).
  { intros rel Hrel. destruct (trace_done_ok g WF tg TR rel Hrel) as (ua & Hua & H). exists ua.
    destruct (APART rel Hrel) as [HU HL]. cbn [g_artefacts].
    split; [rewrite oget_oins_other by exact HU; exact Hua|]. destruct H as [H|H]; [left; exact H|right].
    intros la Hla. apply oget_Some_key with (v := match oget la arts with Some x => x | None => a end).
    rewrite oget_oins_other by (intros ->; exact (HL Hla)).
    specialize (H la Hla). apply oget_key_Some in H. destruct H as [v Hv]. cbn [g_artefacts g] in Hv. rewrite Hv. reflexivity. }
  exists tg'. split; [exact E|].
  destruct (frame_rest arts rels k a WF AID AWF NEW FRESH APART tg tg' TR E) as (H1 & H2 & H3).
  split; [exact H1|]. split; [exact H2|]. split; [exact H3|].
  apply (frame_errors_perm arts rels k a WF AID AWF NEW FRESH APART tg tg' TR E).
Qed.

Definition connectedb (g : graph) ua u la l : bool :=
  existsb (fun up => eqb (req_id up) u && existsb (fun d => eqb (ref_id d) l) (req_depends up)) (reqs_of g ua) ||
  existsb (fun low => eqb (req_id low) l && existsb (fun c => eqb (ref_id c) u) (req_covers low)) (reqs_of g la).
Lemma connectedb_iff g ua u la l : connectedb g ua u la l = true <-> connected g ua u la l.
Proof.
  assert (HE : forall f : reference -> bool, forall l0, existsb f l0 = true <-> exists x, In x l0 /\ f x = true)
    by (intros; apply existsb_exists).
  assert (HQ : forall x y : str, eqb x y = true <-> x = y).
  { intros x y. destruct (eqb_spec x y); split; congruence. }
  unfold connectedb, connected. rewrite orb_true_iff, !existsb_exists. split.
  - intros [(up & Hu & H)|(low & Hl & H)]; apply andb_true_iff in H; destruct H as [H1 H2]; apply HE in H2;
      destruct H2 as (x & Hx & H2); apply HQ in H1; apply HQ in H2; [left; exists up, x|right; exists low, x]; auto.
  - intros [(up & d & H1 & H2 & H3 & H4)|(low & c & H1 & H2 & H3 & H4)]; [left; exists up|right; exists low]; (split; [exact H1|]);
      apply andb_true_iff; (split; [apply HQ; exact H2|]); apply HE; eexists; (split; [exact H3|]); apply HQ; exact H4.
Qed.
