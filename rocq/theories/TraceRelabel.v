(** Other names, places and texts: the result has them too. *)
From Coq Require Import Sorted.
From Verif Require Import Base OMap Models Tracer TraceSpec TraceIndex TraceFacts TraceCor MetaSpec TraceMeta RelabelSpec.

Lemma flat_map_map {A B C} (h : A -> B) (k : B -> list C) l : flat_map k (map h l) = flat_map (fun a => k (h a)) l.
Proof. induction l as [|a l IH]; cbn; [reflexivity|]. f_equal. exact IH. Qed.
Lemma map_flat_map {A B C} (h : B -> C) (k : A -> list B) l : map h (flat_map k l) = flat_map (fun a => map h (k a)) l.
Proof. induction l as [|a l IH]; cbn; [reflexivity|]. rewrite map_app. f_equal. exact IH. Qed.
Lemma filter_map {A B} (h : A -> B) (p : B -> bool) (q : A -> bool) l :
  (forall a, p (h a) = q a) -> filter p (map h l) = map h (filter q l).
Proof. intros E. induction l as [|a l IH]; cbn; [reflexivity|]. rewrite E. destruct (q a); cbn; [f_equal|]; exact IH. Qed.
Lemma find_map {A B} (h : A -> B) (p : B -> bool) (q : A -> bool) l :
  (forall a, p (h a) = q a) -> find p (map h l) = option_map h (find q l).
Proof. intros E. induction l as [|a l IH]; cbn; [reflexivity|]. rewrite E. destruct (q a); [reflexivity|exact IH]. Qed.
Lemma existsb_map {A B} (h : A -> B) (p : B -> bool) (q : A -> bool) l :
  (forall a, p (h a) = q a) -> existsb p (map h l) = existsb q l.
Proof. intros E. induction l as [|a l IH]; cbn; [reflexivity|]. rewrite E, IH. reflexivity. Qed.
Lemma is_nil_map {A B} (h : A -> B) l : is_nil (map h l) = is_nil l.
Proof. destruct l; reflexivity. Qed.
Lemma oget_map {V W} (h : V -> W) (m : omap str V) k :
  oget k (map (fun e => (fst e, h (snd e))) m) = option_map h (oget k m).
Proof. induction m as [|[k0 v] m IH]; cbn; [reflexivity|]. destruct (eqb k k0); [reflexivity|exact IH]. Qed.
Lemma okeys_map {V W} (h : V -> W) (m : omap str V) : okeys (map (fun e => (fst e, h (snd e))) m) = okeys m.
Proof. unfold okeys. rewrite map_map. reflexivity. Qed.

Section Relabel.
  Variable f : relabeling.
  Hypothesis F : faithful f.

  Lemma rl_eqb a b : eqb (rl_id f a) (rl_id f b) = eqb a b.
  Proof. unfold eqb. rewrite (proj1 F). reflexivity. Qed.
  Lemma rl_inj a b : rl_id f a = rl_id f b -> a = b.
  Proof. intros H. apply cmp_eq. rewrite <- (proj1 F). apply cmp_eq. exact H. Qed.
  Lemma rl_ssorted (s : list requirement_id) : ssorted s -> ssorted (map (rl_id f) s).
  Proof.
    intros H. induction H as [|a s H IH Ha]; cbn; constructor; [exact IH|].
    apply Forall_map. eapply Forall_impl; [|exact Ha]. intros b Hb. unfold lt in *. rewrite (proj1 F). exact Hb.
  Qed.
  Definition on_pair (p : requirement_id * requirement_id) := (rl_id f (fst p), rl_id f (snd p)).
  Lemma on_pair_cmp p q : cmp (on_pair p) (on_pair q) = cmp p q.
  Proof.
    destruct p as [a b], q as [c d]. unfold on_pair. cbn [fst snd].
    change (match cmp (rl_id f a) (rl_id f c) with Eq => cmp (rl_id f b) (rl_id f d) | x => x end =
            match cmp a c with Eq => cmp b d | x => x end). rewrite !(proj1 F). reflexivity.
  Qed.
  Lemma on_pair_ssorted s : ssorted s -> ssorted (map on_pair s).
  Proof.
    intros H. induction H as [|a s H IH Ha]; cbn; constructor; [exact IH|].
    apply Forall_map. eapply Forall_impl; [|exact Ha]. intros b Hb. unfold lt in *. rewrite on_pair_cmp. exact Hb.
  Qed.

  Notation req' := (on_requirement f).
  Notation ref' := (on_reference f).
  Notation err' := (on_error f).

  Definition on_link (l : link) : link :=
    mkLink (req' (lk_upper l)) (lk_lower_art l) (req' (lk_lower l)) (ref' (lk_ref l)) (lk_dir l).

  Lemma on_artefact_values a : ovalues (art_requirements (on_artefact f a)) = map req' (ovalues (art_requirements a)).
  Proof. unfold ovalues, on_artefact. cbn [art_requirements]. rewrite !map_map. reflexivity. Qed.

  Variable g : graph.
  Notation g' := (on_graph f g).

  Lemma oget_rl k : oget k (g_artefacts g') = option_map (on_artefact f) (oget k (g_artefacts g)).
  Proof. cbn [on_graph g_artefacts]. apply oget_map. Qed.
  Lemma reqs_of_rl k : reqs_of g' k = map req' (reqs_of g k).
  Proof. unfold reqs_of. rewrite oget_rl. destruct (oget k (g_artefacts g)) as [a|]; cbn [option_map]; [apply on_artefact_values|reflexivity]. Qed.
  Lemma all_reqs_rl : all_reqs g' = map req' (all_reqs g).
  Proof.
    unfold all_reqs. cbn [on_graph g_artefacts]. unfold on_artefacts. rewrite flat_map_map, map_flat_map.
    apply flat_map_ext. intros [k a]. cbn [fst snd]. apply on_artefact_values.
  Qed.
  Lemma defined_before_rl k id : defined_before g' k (rl_id f id) = defined_before g k id.
  Proof.
    unfold defined_before. cbn [on_graph g_artefacts]. unfold on_artefacts. apply existsb_map. intros [k0 a]. cbn [fst snd].
    f_equal. rewrite on_artefact_values. apply existsb_map. intros r. cbn [req_id on_requirement]. apply rl_eqb.
  Qed.
  Lemma first_defs_rl k : first_defs g' k = map req' (first_defs g k).
  Proof.
    unfold first_defs. rewrite reqs_of_rl. apply filter_map. intros r. cbn [req_id on_requirement].
    rewrite defined_before_rl. reflexivity.
  Qed.
  Lemma first_of_rl id : first_of g' (rl_id f id) = option_map req' (first_of g id).
  Proof. unfold first_of. rewrite all_reqs_rl. apply find_map. intros r. cbn [req_id on_requirement]. apply rl_eqb. Qed.
  Lemma first_of_rl_back id r' : first_of g' id = Some r' -> exists id0 r, id = rl_id f id0 /\ first_of g id0 = Some r /\ r' = req' r.
  Proof.
    intros H. pose proof H as H2. unfold first_of in H2. apply find_some in H2. destruct H2 as [Hin He].
    apply eqb_true in He. rewrite all_reqs_rl in Hin. apply in_map_iff in Hin. destruct Hin as (r & <- & Hr).
    cbn [req_id on_requirement] in He. subst id. rewrite first_of_rl in H. exists (req_id r).
    destruct (first_of g (req_id r)) as [r0|]; [|discriminate]. exists r0. cbn in H. split; [reflexivity|]. split; congruence.
  Qed.

  Lemma links_of_rl rel up : links_of g' rel (req' up) = map on_link (links_of g rel up).
  Proof.
    unfold links_of. rewrite map_app. f_equal.
    - unfold links_down. cbn [req_depends on_requirement]. rewrite flat_map_map, map_flat_map. apply flat_map_ext. intros d.
      rewrite map_flat_map. apply flat_map_ext. intros la. rewrite first_defs_rl.
      rewrite (filter_map _ _ (fun low => eqb (req_id low) (ref_id d))).
      + rewrite !map_map. reflexivity.
      + intros low. cbn [req_id on_requirement ref_id on_reference]. apply rl_eqb.
    - unfold links_up. rewrite map_flat_map. apply flat_map_ext. intros la.
      rewrite first_defs_rl, flat_map_map, map_flat_map. apply flat_map_ext. intros low. cbn [req_covers on_requirement].
      rewrite (filter_map _ _ (fun c => eqb (ref_id c) (req_id up))).
      + rewrite !map_map. reflexivity.
      + intros c. cbn [req_id on_requirement ref_id on_reference]. apply rl_eqb.
  Qed.
  Lemma links_rl rel : links g' rel = map on_link (links g rel).
  Proof.
    unfold links. rewrite reqs_of_rl, flat_map_map, map_flat_map. apply flat_map_ext. intros up. apply links_of_rl.
  Qed.
  Lemma traced_of_rl rel : traced_of g' rel = on_relation f (traced_of g rel).
  Proof.
    unfold traced_of, on_relation. cbn [tr_relation tr_covered tr_uncovered]. f_equal.
    - rewrite links_rl, !map_map. reflexivity.
    - rewrite reqs_of_rl. rewrite (filter_map _ _ (fun up => is_nil (links_of g rel up))).
      + rewrite !map_map. reflexivity.
      + intros up. rewrite links_of_rl. apply is_nil_map.
  Qed.

  Lemma wants_title_rl k : wants_title g' k = wants_title g k.
  Proof. unfold wants_title. rewrite oget_rl. destruct (oget k (g_artefacts g)); reflexivity. Qed.
  Lemma referenced_rl l : referenced (on_link l) = req' (referenced l).
  Proof. unfold referenced. cbn [lk_dir on_link]. destruct (lk_dir l); reflexivity. Qed.
  Lemma title_rl t o : option_eqb str_eqb (Some (rl_title f t)) (option_map (rl_title f) o) = option_eqb str_eqb (Some t) o.
  Proof.
    destruct o as [u|]; [|reflexivity]. cbn [option_map option_eqb].
    change (eqb (rl_title f t) (rl_title f u) = eqb t u). destruct (eqb_spec t u) as [->|N]; [apply eqb_refl|].
    destruct (eqb_spec (rl_title f t) (rl_title f u)) as [E|]; [|reflexivity]. apply (proj2 F) in E. contradiction.
  Qed.
  Lemma link_errors_rl rel l : link_errors g' rel (on_link l) = map err' (link_errors g rel l).
  Proof.
    unfold link_errors. rewrite map_app. f_equal.
    - unfold wrong_title_errors. rewrite referenced_rl. cbn [lk_ref on_link ref_title on_reference req_title on_requirement].
      destruct (ref_title (lk_ref l)) as [t|]; [|reflexivity]. cbn [option_map].
      rewrite title_rl. destruct (option_eqb str_eqb (Some t) (req_title (referenced l))); [reflexivity|].
      cbn [lk_dir on_link]. destruct (lk_dir l); reflexivity.
    - unfold missing_title_errors. rewrite referenced_rl. cbn [lk_ref on_link ref_title on_reference].
      destruct (ref_title (lk_ref l)) as [t|]; [reflexivity|]. cbn [option_map].
      replace (referenced_artefact rel (on_link l)) with (referenced_artefact rel l) by reflexivity.
      rewrite wants_title_rl. destruct (wants_title g (referenced_artefact rel l)); reflexivity.
  Qed.
  Lemma relation_errors_rl rel : relation_errors g' rel = map err' (relation_errors g rel).
  Proof.
    unfold relation_errors, unused_errors. rewrite map_app, links_rl, is_nil_map, flat_map_map, map_flat_map. f_equal.
    - apply flat_map_ext. intros l. apply link_errors_rl.
    - destruct (is_nil (links g rel)); reflexivity.
  Qed.
  Lemma dup_errors_rl : dup_errors g' = map err' (dup_errors g).
  Proof.
    unfold dup_errors. cbn [on_graph g_artefacts]. unfold on_artefacts. rewrite flat_map_map, map_flat_map.
    apply flat_map_ext. intros [k a]. cbn [fst snd]. rewrite on_artefact_values, flat_map_map, map_flat_map.
    apply flat_map_ext. intros r. unfold dup_errors_of. cbn [req_id on_requirement].
    change (mkGraph (map (fun e => (fst e, on_artefact f (snd e))) (g_artefacts g)) (g_relations g)) with g'.
    rewrite defined_before_rl, first_of_rl. destruct (defined_before g k (req_id r)); [|reflexivity].
    destruct (first_of g (req_id r)); reflexivity.
  Qed.

  Lemma first_location_rl id refs :
    first_location (rl_id f id) (map ref' refs) = option_map (rl_location f) (first_location id refs).
  Proof.
    unfold first_location. rewrite (find_map _ _ (fun r => eqb (ref_id r) id)).
    - destruct (find _ refs); reflexivity.
    - intros r. cbn [ref_id on_reference]. apply rl_eqb.
  Qed.
  Lemma covers_error_rl p : covers_error g' (on_pair p) = map err' (covers_error g p).
  Proof.
    unfold covers_error, on_pair. cbn [fst snd]. rewrite first_of_rl. destruct (first_of g (snd p)) as [low|]; [|reflexivity].
    cbn [option_map req_covers on_requirement]. rewrite first_location_rl.
    destruct (first_location (fst p) (req_covers low)); reflexivity.
  Qed.
  Lemma depends_error_rl p : depends_error g' (on_pair p) = map err' (depends_error g p).
  Proof.
    unfold depends_error, on_pair. cbn [fst snd]. rewrite first_of_rl. destruct (first_of g (fst p)) as [up|]; [|reflexivity].
    cbn [option_map req_depends on_requirement]. rewrite first_location_rl.
    destruct (first_location (snd p) (req_depends up)); reflexivity.
  Qed.

  Lemma is_link_rl rel l' : is_link g' rel l' <-> exists l, l' = on_link l /\ is_link g rel l.
  Proof.
    rewrite <- in_links, links_rl, in_map_iff. split; intros (l & H1 & H2); exists l; (split; [congruence|]); apply in_links; exact H2.
  Qed.
  Lemma linked_rl d u l : linked g' d (rl_id f u) (rl_id f l) <-> linked g d u l.
  Proof.
    unfold linked. cbn [on_graph g_relations]. split.
    - intros (rel & lk' & Hr & Hl & Hd & Hu & Hlo). apply is_link_rl in Hl. destruct Hl as (lk & -> & Hl).
      exists rel, lk. cbn in Hd, Hu, Hlo. apply rl_inj in Hu. apply rl_inj in Hlo. auto.
    - intros (rel & lk & Hr & Hl & Hd & Hu & Hlo). exists rel, (on_link lk). split; [exact Hr|].
      split; [apply is_link_rl; eauto|]. cbn. split; [exact Hd|]. split; congruence.
  Qed.
  Lemma dangling_covers_rl u' l' :
    dangling_covers g' u' l' <-> exists u l, u' = rl_id f u /\ l' = rl_id f l /\ dangling_covers g u l.
  Proof.
    unfold dangling_covers. split.
    - intros ((low' & c' & Hf & Hc & He) & Hn). apply first_of_rl_back in Hf. destruct Hf as (l & low & -> & Hf & ->).
      cbn [req_covers on_requirement] in Hc. apply in_map_iff in Hc. destruct Hc as (c & <- & Hc). cbn in He. subst u'.
      exists (ref_id c), l. split; [reflexivity|]. split; [reflexivity|]. split; [eauto|]. intros HL. apply Hn. apply linked_rl. exact HL.
    - intros (u & l & -> & -> & (low & c & Hf & Hc & He) & Hn). split.
      + exists (req' low), (ref' c). rewrite first_of_rl, Hf. cbn. split; [reflexivity|]. split; [apply in_map; exact Hc|congruence].
      + intros HL. apply Hn. apply linked_rl. exact HL.
  Qed.
  Lemma dangling_depends_rl u' l' :
    dangling_depends g' u' l' <-> exists u l, u' = rl_id f u /\ l' = rl_id f l /\ dangling_depends g u l.
  Proof.
    unfold dangling_depends. split.
    - intros ((low' & c' & Hf & Hc & He) & Hn). apply first_of_rl_back in Hf. destruct Hf as (l & low & -> & Hf & ->).
      cbn [req_depends on_requirement] in Hc. apply in_map_iff in Hc. destruct Hc as (c & <- & Hc). cbn in He. subst l'.
      exists l, (ref_id c). split; [reflexivity|]. split; [reflexivity|]. split; [eauto|]. intros HL. apply Hn. apply linked_rl. exact HL.
    - intros (u & l & -> & -> & (low & c & Hf & Hc & He) & Hn). split.
      + exists (req' low), (ref' c). rewrite first_of_rl, Hf. cbn. split; [reflexivity|]. split; [apply in_map; exact Hc|congruence].
      + intros HL. apply Hn. apply linked_rl. exact HL.
  Qed.

  Lemma relation_ok_rl rel : relation_ok g' rel <-> relation_ok g rel.
  Proof.
    unfold relation_ok. rewrite oget_rl. cbn [on_graph g_artefacts]. unfold on_artefacts. rewrite okeys_map. split.
    - intros (ua' & E & H). destruct (oget (rel_upper rel) (g_artefacts g)) as [ua|]; [|discriminate].
      cbn in E. inversion E; subst ua'. exists ua. split; [reflexivity|]. destruct H as [H|H]; [left|right; exact H].
      cbn [art_requirements on_artefact] in H. destruct (art_requirements ua); [reflexivity|discriminate].
    - intros (ua & E & H). rewrite E. exists (on_artefact f ua). split; [reflexivity|]. destruct H as [H|H]; [left|right; exact H].
      cbn [art_requirements on_artefact]. rewrite H. reflexivity.
  Qed.

  Hypothesis WF : graph_wf g.
  Lemma graph_wf_rl : graph_wf g'.
  Proof.
    destruct WF as [HS HA]. split.
    - cbn [on_graph g_artefacts]. unfold on_artefacts, osorted. rewrite okeys_map. exact HS.
    - intros k a' Hin. cbn [on_graph g_artefacts] in Hin. unfold on_artefacts in Hin. apply in_map_iff in Hin.
      destruct Hin as ([k0 a] & E & Hin). cbn in E. inversion E; subst k a'. clear E.
      destruct (HA _ _ Hin) as [Hid [Hso Hk]]. split; [exact Hid|]. split.
      + unfold osorted, okeys. cbn [art_requirements on_artefact]. rewrite map_map. cbn [fst].
        rewrite <- (map_map fst (rl_id f)). apply rl_ssorted. exact Hso.
      + intros k r Hr. cbn [art_requirements on_artefact] in Hr. apply in_map_iff in Hr. destruct Hr as ([k1 r1] & E & Hr).
        cbn in E. inversion E; subst k r. cbn. f_equal. apply (Hk _ _ Hr).
  Qed.

  Lemma covers_something_rl k r : covers_something g' k (req' r) -> In r (first_defs g k) -> covers_something g k r.
  Proof.
    intros (rel & lk' & Hr & Hl & Ha & He) Hf. apply is_link_rl in Hl. destruct Hl as (lk & -> & Hl).
    exists rel, lk. cbn in Ha, He. split; [exact Hr|]. split; [exact Hl|]. split; [exact Ha|].
    destruct Hl as (_ & _ & HF & _). rewrite Ha in HF.
    apply (first_defs_first_of g WF) in HF. apply (first_defs_first_of g WF) in Hf.
    assert (E : req_id (lk_lower lk) = req_id r) by (apply rl_inj; exact (f_equal req_id He)). rewrite E in HF. congruence.
  Qed.

  Theorem trace_rl : trace g' = match trace g with Done tg => Done (on_traced f tg) | Panic => Panic end.
  Proof.
    destruct (relations_ok_dec g) as [OK|BAD].
    2:{ rewrite (trace_panic g WF BAD). apply trace_panic; [exact graph_wf_rl|]. intros H. apply BAD. intros rel Hrel.
        apply relation_ok_rl. apply H. exact Hrel. }
    destruct (trace_exact g WF OK) as (tg & pc & pd & -> & A1 & A2 & (A3 & A4 & A5) & A6 & A7 & A8 & A9 & A10).
    assert (OK' : forall rel, In rel (g_relations g') -> relation_ok g' rel).
    { intros rel Hrel. apply relation_ok_rl. apply OK. exact Hrel. }
    destruct (trace_exact g' graph_wf_rl OK') as (tg' & pc' & pd' & -> & B1 & B2 & (B3 & B4 & B5) & B6 & B7 & B8 & B9 & B10).
    f_equal.
    assert (Epc : pc' = map on_pair pc).
    { apply ssorted_ext; [exact B6|apply on_pair_ssorted; exact A6|]. intros [u' l']. rewrite B7, dangling_covers_rl, in_map_iff. split.
      - intros (u & l & -> & -> & H). exists (u, l). split; [reflexivity|]. apply A7. exact H.
      - intros ([u l] & E & H). cbn in E. inversion E; subst. exists u, l. split; [reflexivity|]. split; [reflexivity|]. apply A7. exact H. }
    assert (Epd : pd' = map on_pair pd).
    { apply ssorted_ext; [exact B8|apply on_pair_ssorted; exact A8|]. intros [u' l']. rewrite B9, dangling_depends_rl, in_map_iff. split.
      - intros (u & l & -> & -> & H). exists (u, l). split; [reflexivity|]. apply A9. exact H.
      - intros ([u l] & E & H). cbn in E. inversion E; subst. exists u, l. split; [reflexivity|]. split; [reflexivity|]. apply A9. exact H. }
    assert (ED : tg_derived tg' = map (fun e => (fst e, map (rl_id f) (snd e))) (tg_derived tg)).
    { apply osorted_ext; [exact B3|unfold osorted; rewrite okeys_map; exact A3|]. intros k. rewrite oget_map.
      change (oget k (tg_derived tg') = option_map (map (rl_id f)) (oget k (tg_derived tg))).
      destruct (oget k (g_artefacts g)) as [a|] eqn:Ha.
      - destruct (A5 k a Ha) as (d & -> & Hs & Hd).
        assert (Ha' : oget k (g_artefacts g') = Some (on_artefact f a)) by (rewrite oget_rl, Ha; reflexivity).
        destruct (B5 k _ Ha') as (d' & -> & Hs' & Hd'). cbn [option_map]. f_equal.
        apply ssorted_ext; [exact Hs'|apply rl_ssorted; exact Hs|]. intros id. rewrite Hd', in_map_iff, first_defs_rl. split.
        + intros (Hi & r' & Hr' & <- & Hno). apply in_map_iff in Hr'. destruct Hr' as (r & <- & Hr). exists (req_id r).
          split; [reflexivity|]. apply Hd. split; [exact Hi|]. exists r. split; [exact Hr|]. split; [reflexivity|].
          intros HC. apply Hno. destruct HC as (rel & lk & Hrel & Hl & Hart & Hlow). exists rel, (on_link lk).
          split; [exact Hrel|]. split; [apply is_link_rl; eauto|]. cbn. split; [exact Hart|]. rewrite Hlow. reflexivity.
        + intros (id0 & <- & Hin). apply Hd in Hin. destruct Hin as (Hi & r & Hr & <- & Hno). split; [exact Hi|].
          exists (req' r). split; [apply in_map; exact Hr|]. split; [reflexivity|]. intros HC. apply Hno.
          apply covers_something_rl; assumption.
      - assert (Hn1 : oget k (tg_derived tg) = None) by (apply oget_None; rewrite A4; apply oget_None; exact Ha).
        assert (Hn2 : oget k (tg_derived tg') = None).
        { apply oget_None. rewrite B4. apply oget_None. rewrite oget_rl, Ha. reflexivity. }
        rewrite Hn1, Hn2. reflexivity. }
    destruct tg' as [a' r' d' e'], tg as [a0 r0 d0 e0]. cbn [tg_artefacts tg_relations tg_derived tg_errors] in *.
    unfold on_traced. cbn [tg_artefacts tg_relations tg_derived tg_errors]. subst. f_equal.
    - cbn [on_graph g_relations]. rewrite map_map. apply map_ext. intros rel. apply traced_of_rl.
    - rewrite !map_app. f_equal; [apply dup_errors_rl|]. f_equal; [|f_equal].
      + cbn [on_graph g_relations]. rewrite map_flat_map. apply flat_map_ext. intros rel. apply relation_errors_rl.
      + rewrite flat_map_map, map_flat_map. apply flat_map_ext. intros p. apply covers_error_rl.
      + rewrite flat_map_map, map_flat_map. apply flat_map_ext. intros p. apply depends_error_rl.
  Qed.
End Relabel.
