(** From files to the exit status. *)
From Verif Require Import Base OMap Models Unicode Utf8 Paths MdSyntax MdParser MdSpec MdRefine MdExact MdFacts MdLines MdCor MdCor2
  RustParser RustSpec RustFacts RustCor Tracer TraceSpec TraceIndex TraceFacts TraceCor Aggregator Show Sort Serialize Tags
  MdFmt Formatters Controller FmtSpec CtlSpec CtlFacts JobFacts JobCor CtlCor E2ESpec.
Open Scope N_scope.

Lemma no_repeats l : repeats [] l = [] -> forall r, In r l -> first_with (req_id r) l = Some r.
Proof.
  intros H r Hr. apply in_split in Hr. destruct Hr as (l1 & l2 & ->).
  rewrite first_with_app. destruct (first_with (req_id r) l1) as [old|] eqn:F.
  - pose proof (repeats_in l1 r l2 old [] F) as X. rewrite H in X. destruct X.
  - unfold first_with. cbn [find]. rewrite eqb_refl. reflexivity.
Qed.

Lemma sorted_out_ref dt p ms xs es : sorted_out dt p ms xs es ->
  forall m x, In (m, x) xs -> In m ms /\ reference_of p m x.
Proof.
  induction 1 as [|m0 x0 ms xs es HR _ IH|m0 e ms xs es _ _ IH]; intros m x H.
  - destruct H.
  - destruct H as [E|H]; [inversion E; subst; split; [left; reflexivity|exact HR]|].
    destruct (IH m x H) as [H1 H2]. split; [right; exact H1|exact H2].
  - destruct (IH m x H) as [H1 H2]. split; [right; exact H1|exact H2].
Qed.
Lemma sorted_out_clean dt p ms xs : sorted_out dt p ms xs [] -> forall m, In m ms -> exists x, In (m, x) xs.
Proof.
  remember [] as es eqn:E. induction 1 as [|m0 x0 ms xs es HR _ IH|m0 e ms xs es _ _ IH]; intros m H; [destruct H| |discriminate].
  destruct H as [<-|H]; [exists x0; left; reflexivity|]. destruct (IH E m H) as (x & Hx). exists x. right. exact Hx.
Qed.
Lemma forall2_in_r {A B} (R : A -> B -> Prop) l l' b : Forall2 R l l' -> In b l' -> exists a, In a l /\ R a b.
Proof.
  induction 1 as [|x y l l' H _ IH]; intros Hb; [destruct Hb|].
  destruct Hb as [<-|Hb]; [exists x; split; [left; reflexivity|exact H]|].
  destruct (IH Hb) as (a & H1 & H2). exists a. split; [right; exact H1|exact H2].
Qed.
Lemma forall2_in_l {A B} (R : A -> B -> Prop) l l' a : Forall2 R l l' -> In a l -> exists b, In b l' /\ R a b.
Proof.
  induction 1 as [|x y l l' H _ IH]; intros Ha; [destruct Ha|].
  destruct Ha as [<-|Ha]; [exists y; split; [left; reflexivity|exact H]|].
  destruct (IH Ha) as (b & H1 & H2). exists b. split; [right; exact H1|exact H2].
Qed.
Lemma flat_map_nil {A B} (f : A -> list B) l : flat_map f l = [] -> forall a, In a l -> f a = [].
Proof.
  intros H a Ha. destruct (f a) as [|b bs] eqn:E; [reflexivity|].
  assert (X : In b (flat_map f l)) by (apply in_flat_map; exists a; rewrite E; split; [exact Ha|left; reflexivity]).
  rewrite H in X. destruct X.
Qed.

Lemma first_defs_before g k1 k2 r1 r2 :
  In r1 (first_defs g k1) -> In r2 (first_defs g k2) -> req_id r1 = req_id r2 -> cmp k1 k2 <> Lt.
Proof.
  intros H1 H2 E HC. apply filter_In in H1. destruct H1 as [H1 _]. apply filter_In in H2. destruct H2 as [_ H2].
  apply negb_true_iff in H2. apply not_true_iff_false in H2. apply H2. unfold defined_before. apply existsb_exists.
  unfold reqs_of in H1. destruct (oget k1 (g_artefacts g)) as [a|] eqn:Ea; [|destruct H1].
  exists (k1, a). split; [apply oget_Some_In; exact Ea|]. cbn [fst snd]. rewrite HC. cbn [andb].
  apply existsb_exists. exists r1. split; [exact H1|]. rewrite E. apply eqb_refl.
Qed.
Lemma unique_requirement g k1 k2 r1 r2 : graph_wf g -> unique_ids g ->
  In r1 (reqs_of g k1) -> In r2 (reqs_of g k2) -> req_id r1 = req_id r2 -> r1 = r2 /\ k1 = k2.
Proof.
  intros WF HU H1 H2 E. split.
  - pose proof (reqs_of_first g WF k1 r1 HU H1) as F1. pose proof (reqs_of_first g WF k2 r2 HU H2) as F2.
    rewrite E in F1. congruence.
  - rewrite <- (unique_first_defs g WF k1 HU) in H1. rewrite <- (unique_first_defs g WF k2 HU) in H2.
    pose proof (first_defs_before _ _ _ _ _ H1 H2 E) as C1.
    pose proof (first_defs_before _ _ _ _ _ H2 H1 (eq_sym E)) as C2.
    destruct (cmp k1 k2) eqn:C; [apply cmp_eq; exact C|congruence|].
    elim C2. rewrite cmp_opp, C. reflexivity.
Qed.

Section E2E.
  Context {U : UnicodeTables} {D : Debug} {US : UnstableSort} {CT : CaseTables} {J : JsonText}
    {I : Inputs} {O : Outputs}.

  Lemma exit_0_project cf base jobs h c :
    main_rc cf base jobs = (h, Exit 0) -> usable cf c -> traces c jobs ->
    exists ctl, controller_new c base = Done ctl /\ sound_project (ctl_graph ctl).
  Proof.
    intros HM HU (n & j & H1 & H2 & H3 & H4).
    pose proof (proj1 (exit_0 cf base jobs h) HM) as (c' & ctl & js & ss & HU' & HC & _).
    assert (c' = c) by (destruct HU, HU'; congruence). subst c'. exists ctl. split; [exact HC|].
    eapply exit_0_sound; [exact HM|exact HU|exact HC|].
    pose proof (controller_new_spec c base) as HS. rewrite HC in HS.
    destruct HS as (_ & _ & _ & _ & EJ & ED & _).
    exists n, j. split; [|rewrite EJ; auto]. unfold chosen. rewrite ED. exact H1.
  Qed.

  (** What the controller stores for an artefact without errors. *)
  Lemma clean_artefact c base ctl k a :
    controller_new c base = Done ctl -> oget k (g_artefacts (ctl_graph ctl)) = Some a -> art_errors a = [] ->
    exists ac reqs, last_config c k = Some ac /\ sources base ac (art_files a) reqs [] /\
      (forall r, In r (ovalues (art_requirements a)) <-> In r reqs).
  Proof.
    intros HC Ha HE. destruct (controller_has c base ctl k a HC Ha) as (ac & HL & reqs & errs & HS & _ & _ & _ & HO & HG & Ee).
    rewrite HE in Ee. symmetry in Ee. apply app_eq_nil in Ee. destruct Ee as [-> Ee].
    apply app_eq_nil in Ee. destruct Ee as [ER _].
    exists ac, reqs. split; [exact HL|]. split; [exact HS|]. intros r. split.
    - intros H. apply in_map_iff in H. destruct H as ([id r'] & E & H). cbn in E. subst r'.
      apply (In_oget _ _ _ HO) in H. rewrite HG in H. apply first_with_some in H. tauto.
    - intros H. pose proof (no_repeats reqs ER r H) as F. rewrite <- HG in F. apply oget_Some_In in F.
      apply in_map_iff. exists (req_id r, r). split; [reflexivity|exact F].
  Qed.

  (** The requirements of a Markdown artefact without errors are those of its file. *)
  Lemma clean_markdown c base ctl k a p r :
    controller_new c base = Done ctl -> oget k (g_artefacts (ctl_graph ctl)) = Some a -> art_errors a = [] ->
    markdown_file c base k p r ->
    exists reqs, md_parse p r = Done (reqs, []) /\ forall x, In x (ovalues (art_requirements a)) <-> In x reqs.
  Proof.
    intros HC Ha HE (ac & q & HL & HP & Hq & -> & HO).
    destruct (clean_artefact c base ctl k a HC Ha HE) as (ac' & reqs & HL' & HS & HR).
    assert (ac' = ac) by congruence. subst ac'.
    exists reqs. split; [|exact HR].
    inversion HS as [q' x H1 H2 H3 E1 E2 E3|H1 H2 E1 E2 E3|H1 H2 E1 E2|e H1 H2|fs xs H1 H2 H3 H4]; try congruence.
    assert (q' = q) by congruence. subst q'. rewrite HP in H3.
    inversion H3 as [? ? m EO|? r' x' EO EP| | | |]; subst; cbn [fst snd] in *; try discriminate; try congruence.
    assert (r' = r) by congruence. subst r'. rewrite EP. destruct x as [y1 y2]. cbn in *. subst. reflexivity.
  Qed.

  Lemma clean_headings p r reqs n id t :
    md_parse p r = Done (reqs, []) -> ends_in_requirement r -> In (n, id, t) (headings (doc_lines r)) ->
    exists req, In req reqs /\ req_id req = id /\ req_title req = Some t.
  Proof.
    intros HM HE Hh. destruct (md_headings p r reqs [] HM) as [_ H].
    assert (HN : ~ loses_last p r []).
    { intros [H1|[H1|(n' & m & [] & _)]]; [|exact (HE H1)].
      destruct (doc_error r) as [m|] eqn:Ed; [|congruence].
      destruct (md_blocks_exist r) as (bes & HF).
      assert (HP : md_parse p r <> Panic) by congruence.
      pose proof (md_exact p r bes HF HP) as X. rewrite HM in X. injection X as _ X.
      symmetry in X. apply app_eq_nil in X. unfold io_error in X. rewrite Ed in X. destruct X as [_ X]. discriminate. }
    specialize (H HN). apply (in_map (head_of p)) in Hh. rewrite <- H in Hh.
    apply in_map_iff in Hh. destruct Hh as (req & E & Hreq). exists req. split; [exact Hreq|].
    unfold head, head_of in E. inversion E; subst. auto.
  Qed.

  (** The requirements of a Rust artefact without errors. *)
  Lemma clean_rust c base ctl k a :
    controller_new c base = Done ctl -> oget k (g_artefacts (ctl_graph ctl)) = Some a -> art_errors a = [] ->
    is_rust c k ->
    (forall x, In x (ovalues (art_requirements a)) ->
       exists f tree ms, rust_file c base k f tree /\ group_of f ms x /\
         forall y, In y ms -> In (fst y) (marks [] tree) /\ reference_of f (fst y) (snd y)) /\
    (forall f tree m, rust_file c base k f tree -> In m (marks [] tree) ->
       exists x ref, In x (ovalues (art_requirements a)) /\ req_id x = mark_id m /\ In ref (req_covers x) /\
         reference_of f m ref).
  Proof.
    intros HC Ha HE (ac & HL & HP).
    destruct (clean_artefact c base ctl k a HC Ha HE) as (ac' & reqs & HL' & HS & HR).
    assert (ac' = ac) by congruence. subst ac'.
    assert (HX : exists files xs, expands base (ac_paths ac) files /\ Forall2 (file_result PRust) files xs /\
               reqs = flat_map fst xs /\ flat_map snd xs = []).
    { inversion HS as [q' x H1 H2 H3 E1 E2 E3|H1 H2 E1 E2 E3|H1 H2 E1 E2|e H1 H2|fs xs H1 H2 H3 H4 E1 E2];
        try discriminate; try (exfalso; apply H1; exact HP).
      exists (art_files a), xs. auto. }
    destruct HX as (files & xs & HEx & HF & -> & HN).
    assert (HG : forall f x, file_result PRust f x -> snd x = [] ->
              exists r source tree gs, in_open f = inl r /\ read_to_string r = ROk source /\ in_syn source = inl tree /\
                Forall2 (group_of f) gs (fst x) /\ sorted_out in_debug_tokens f (marks [] tree) (concat gs) []).
    { intros f x HF1 Hx. inversion HF1 as [? ? m EO| | |? r x' EO EP| |]; subst; cbn [snd] in Hx; try discriminate.
      destruct (read_to_string r) as [source|e] eqn:ER.
      2:{ rewrite (proj1 (rust_unreadable in_debug_tokens f in_syn r) e ER) in EP. inversion EP; subst. discriminate. }
      destruct (in_syn source) as [tree|[b msg]] eqn:ES.
      2:{ rewrite (proj2 (rust_unreadable in_debug_tokens f in_syn r) source b msg ER ES) in EP.
          inversion EP; subst. discriminate. }
      destruct x as [y1 y2]. cbn [snd] in Hx. subst y2.
      destruct (rust_exact in_debug_tokens f in_syn r source tree y1 [] ER ES EP) as (gs & G1 & _ & G2).
      exists r, source, tree, gs. auto. }
    split.
    - intros x Hx. apply HR in Hx. apply in_flat_map in Hx. destruct Hx as (y & Hy & Hx).
      destruct (forall2_in_r _ _ _ _ HF Hy) as (f & Hf & HFr).
      destruct (HG f y HFr (flat_map_nil _ _ HN y Hy)) as (r & source & tree & gs & EO & ER & ES & G1 & G2).
      destruct (forall2_in_r _ _ _ _ G1 Hx) as (ms & Hms & HGr).
      exists f, tree, ms. split; [|split; [exact HGr|]].
      + exists ac, files, r, source. auto 10.
      + intros [m ref] Hm. apply (sorted_out_ref _ _ _ _ _ G2). apply in_concat. exists ms. split; [exact Hms|exact Hm].
    - intros f tree m (ac' & files' & r' & source' & HL2 & _ & HEx' & Hf & EO' & ER' & ES') Hm.
      assert (ac' = ac) by congruence. subst ac'.
      assert (files' = files) by (eapply expands_unique; eassumption). subst files'.
      destruct (forall2_in_l _ _ _ _ HF Hf) as (y & Hy & HFr).
      destruct (HG f y HFr (flat_map_nil _ _ HN y Hy)) as (r & source & tree' & gs & EO & ER & ES & G1 & G2).
      assert (r' = r) by congruence. subst r'. assert (source' = source) by congruence. subst source'.
      assert (tree' = tree) by congruence. subst tree'.
      destruct (sorted_out_clean _ _ _ _ G2 m Hm) as (ref & Href).
      pose proof (proj2 (sorted_out_ref _ _ _ _ _ G2 m ref Href)) as HRef.
      apply in_concat in Href. destruct Href as (ms & Hms & Href).
      destruct (forall2_in_l _ _ _ _ G1 Hms) as (x & Hx & HGr).
      exists x, ref. split; [apply HR; apply in_flat_map; exists y; auto|].
      destruct HGr as (m1 & x1 & ms' & b & sc & -> & _ & Hid & ->).
      split; [symmetry; exact (Hid _ Href)|]. split; [|exact HRef].
      cbn [req_covers]. apply (in_map snd) in Href. exact Href.
  Qed.

  Lemma reqs_of_artefact g k r : In r (reqs_of g k) -> exists a, oget k (g_artefacts g) = Some a /\ In r (ovalues (art_requirements a)).
  Proof. unfold reqs_of. destruct (oget k (g_artefacts g)) as [a|]; [eauto|intros []]. Qed.

  Lemma known_artefact c base ctl k ac :
    controller_new c base = Done ctl -> last_config c k = Some ac -> exists a, oget k (g_artefacts (ctl_graph ctl)) = Some a.
  Proof.
    intros HC HL. pose proof (controller_artefact c base ctl k HC) as H. rewrite HL in H.
    destruct H as (a & Ha & _). eauto.
  Qed.
  Lemma sound_errors g k a : sound_project g -> oget k (g_artefacts g) = Some a -> art_errors a = [].
  Proof.
    intros HS Ha. apply (so_parsed g HS). apply in_map_iff. exists (k, a). split; [reflexivity|].
    apply oget_Some_In. exact Ha.
  Qed.
  Lemma controller_relations c base ctl : controller_new c base = Done ctl -> g_relations (ctl_graph ctl) = cf_relations c.
  Proof.
    intros HC. pose proof (controller_new_spec c base) as HS. rewrite HC in HS. destruct HS as (_ & HB & _). exact (proj1 HB).
  Qed.

  Theorem headings_covered cf base jobs h c rel p r n id t :
    main_rc cf base jobs = (h, Exit 0) -> usable cf c -> traces c jobs ->
    In rel (cf_relations c) -> markdown_file c base (rel_upper rel) p r -> ends_in_requirement r ->
    (forall la, In la (rel_lower rel) -> is_rust c la) ->
    In (n, id, t) (headings (doc_lines r)) ->
    exists la f tree m, In la (rel_lower rel) /\ rust_file c base la f tree /\ In m (marks [] tree) /\
      (names m id t \/ depends_on p r id (mark_id m)).
  Proof.
    intros HM HU HT Hrel HMd HEnd HRust Hh.
    destruct (exit_0_project cf base jobs h c HM HU HT) as (ctl & HC & HS).
    pose proof (controller_relations c base ctl HC) as ER.
    assert (HX := HMd). destruct HX as (ac & q & HL & _).
    destruct (known_artefact c base ctl _ ac HC HL) as (a & Ha).
    destruct (clean_markdown c base ctl _ a p r HC Ha (sound_errors _ _ _ HS Ha) HMd) as (reqs & HPar & HR).
    destruct (clean_headings p r reqs n id t HPar HEnd Hh) as (req & Hreq & Hid & Ht).
    assert (Hup : In req (reqs_of (ctl_graph ctl) (rel_upper rel))).
    { unfold reqs_of. rewrite Ha. apply HR. exact Hreq. }
    assert (Hrel' : In rel (g_relations (ctl_graph ctl))) by (rewrite ER; exact Hrel).
    destruct (so_covered _ HS rel req Hrel' Hup) as (l & Hl & El).
    pose proof (so_titles _ HS rel l Hrel' Hl) as HTi.
    destruct Hl as (_ & Hla & Hlow & Hdir). apply filter_In in Hlow. destruct Hlow as [Hlow _].
    destruct (reqs_of_artefact _ _ _ Hlow) as (a' & Ha' & Hlow').
    pose proof (clean_rust c base ctl _ a' HC Ha' (sound_errors _ _ _ HS Ha') (HRust _ Hla)) as [HCR _].
    destruct (HCR _ Hlow') as (f & tree & ms & HRf & HGr & Hms).
    exists (lk_lower_art l), f, tree.
    unfold referenced in HTi. destruct (lk_dir l).
    - destruct Hdir as [Hc Hr]. destruct HGr as (m1 & x1 & ms' & b & sc & E1 & _ & _ & E2).
      rewrite E2 in Hc. cbn [req_covers] in Hc. apply in_map_iff in Hc. destruct Hc as ([m ref] & E3 & Hm).
      cbn [snd] in E3. subst ref. destruct (Hms _ Hm) as [Hmark [HRef _]]. cbn [fst snd] in *.
      exists m. split; [exact Hla|]. split; [exact HRf|]. split; [exact Hmark|]. left.
      rewrite Hr, El, Hid in HRef. unfold names. destruct (ref_title (lk_ref l)) as [t'|]; [|left; exact HRef].
      right. rewrite El, Ht in HTi. inversion HTi; subst. exact HRef.
    - destruct Hdir as [Hd Hr]. destruct HGr as (m1 & x1 & ms' & b & sc & E1 & _ & _ & E2).
      exists m1. split; [exact Hla|]. split; [exact HRf|].
      split; [apply (Hms (m1, x1)); rewrite E1; left; reflexivity|]. right.
      destruct (md_in_req p _ _ _ _ HPar Hreq) as (s & be & Hs & Hok & Ereq).
      exists s, be, (lk_ref l). rewrite El in Hd. split; [exact Hs|]. split; [exact Hok|].
      pose proof (section_req_head p s (fst be)) as Hhd. destruct s as [[[n0 id0] t0] ls0].
      cbn [section_req section_head fst snd] in *.
      split; [rewrite Ereq in Hid; unfold head, head_of in Hhd; injection Hhd as _ X _; congruence|].
      split; [|rewrite Hr, E2; reflexivity].
      destruct (blocks_agree p (fst be) n0 id0 t0) as (_ & _ & X & _). rewrite <- X, <- Ereq. exact Hd.
  Qed.

  Lemma clean_heading_of p r reqs errs req : md_parse p r = Done (reqs, errs) -> In req reqs ->
    exists n t, In (n, req_id req, t) (headings (doc_lines r)) /\ req_title req = Some t.
  Proof.
    intros HM Hreq.
    assert (H : In (head req) (map (head_of p) (headings (doc_lines r)))).
    { destruct (md_blocks_exist r) as (bes & HF).
      assert (HP : md_parse p r <> Panic) by congruence.
      pose proof (md_exact p r bes HF HP) as X. rewrite HM in X. injection X as X _.
      rewrite headings_sections. change (snd (MdSpec.sections (doc_lines r))) with (doc_sections r).
      rewrite <- (zip_heads p _ _ HF).
      apply in_map. rewrite X in Hreq. destruct (last_lost r bes); [apply in_removelast in Hreq|]; exact Hreq. }
    apply in_map_iff in H. destruct H as ([[n id] t] & E & H). unfold head, head_of in E. inversion E; subst.
    exists n, t. split; [exact H|reflexivity].
  Qed.

  Theorem marks_known cf base jobs h c la f tree m :
    main_rc cf base jobs = (h, Exit 0) -> usable cf c -> traces c jobs ->
    rust_file c base la f tree -> In m (marks [] tree) ->
    exists rel id t, In rel (cf_relations c) /\ In la (rel_lower rel) /\ refers (mk_tokens m) id t /\
      forall p r, markdown_file c base (rel_upper rel) p r ->
        exists n title, In (n, id, title) (headings (doc_lines r)) /\ (t = None \/ t = Some title).
  Proof.
    intros HM HU HT HRf Hm.
    destruct (exit_0_project cf base jobs h c HM HU HT) as (ctl & HC & HS).
    pose proof (controller_relations c base ctl HC) as ER.
    assert (WF : graph_wf (ctl_graph ctl)) by exact (proj1 (controller_well_made c base ctl HC)).
    assert (HX := HRf). destruct HX as (ac & files & r0 & source & HL & HP & _).
    destruct (known_artefact c base ctl _ ac HC HL) as (a & Ha).
    pose proof (clean_rust c base ctl _ a HC Ha (sound_errors _ _ _ HS Ha) (ex_intro _ ac (conj HL HP))) as [_ HCR].
    destruct (HCR f tree m HRf Hm) as (x & ref & Hx & Eid & Href & HRef & _).
    assert (Hin : In x (reqs_of (ctl_graph ctl) la)) by (unfold reqs_of; rewrite Ha; exact Hx).
    destruct (so_covers _ HS la x ref Hin Href) as (rel & lk & Hrel & Hlk & Hdir & Hu & Hlo).
    assert (Hlow : lk_lower lk = x /\ lk_lower_art lk = la).
    { destruct Hlk as (_ & _ & Hl & _). pose proof (unique_first_defs _ WF (lk_lower_art lk) (so_unique _ HS)) as UF.
      rewrite UF in Hl. eapply unique_requirement; [exact WF|exact (so_unique _ HS)|exact Hl|exact Hin|exact Hlo]. }
    destruct Hlow as [El Ela].
    exists rel, (ref_id ref), (ref_title ref). split; [rewrite <- ER; exact Hrel|].
    assert (HLk := Hlk). destruct HLk as (Hup & Hla & Hdef & _). rewrite Ela in Hla. split; [exact Hla|]. split; [exact HRef|].
    intros p r HMd. assert (HX := HMd). destruct HX as (ac2 & q2 & HL2 & _).
    destruct (known_artefact c base ctl _ ac2 HC HL2) as (a2 & Ha2).
    destruct (clean_markdown c base ctl _ a2 p r HC Ha2 (sound_errors _ _ _ HS Ha2) HMd) as (reqs & HPar & HR).
    destruct (reqs_of_artefact _ _ _ Hup) as (a3 & Ha3 & Hup3). assert (a3 = a2) by congruence. subst a3.
    destruct (clean_heading_of p r reqs [] (lk_upper lk) HPar (proj1 (HR _) Hup3)) as (n & title & Hh & Ht).
    exists n, title. split; [rewrite <- Hu; exact Hh|].
    assert (HL3 : is_link (ctl_graph ctl) rel (mkLink (lk_upper lk) la x ref Upwards)).
    { split; [exact Hup|]. split; [exact Hla|]. split; [cbn; rewrite <- El, <- Ela; exact Hdef|]. cbn. split; [exact Href|symmetry; exact Hu]. }
    pose proof (so_titles _ HS rel _ Hrel HL3) as HTi. cbn in HTi.
    destruct (ref_title ref) as [t'|]; [|left; reflexivity]. right. congruence.
  Qed.
End E2E.
