(** Facts about the controller. *)
From Verif Require Import Base OMap Models Unicode Utf8 Paths MdParser MonoParser RustParser Tracer
  TraceSpec TraceFacts TraceCor Show Sort Serialize JsonValues JsonValueFacts MdFmt Formatters Controller CtlSpec.
Open Scope N_scope.

(** ** Storing *)
Lemma find_app {A} (f : A -> bool) l1 l2 :
  find f (l1 ++ l2) = match find f l1 with Some x => Some x | None => find f l2 end.
Proof. induction l1 as [|x l1 IH]; cbn [app find]; [reflexivity|]. destruct (f x); [reflexivity|exact IH]. Qed.

Lemma fold_store reqs : forall before m es,
  osorted m -> (forall id, oget id m = first_with id before) ->
  exists m', fold_left store reqs (m, es) = (m', es ++ repeats before reqs) /\ osorted m' /\
    forall id, oget id m' = first_with id (before ++ reqs).
Proof.
  induction reqs as [|r reqs IH]; intros before m es HS HG; cbn [fold_left repeats].
  - exists m. rewrite !app_nil_r. auto.
  - assert (E : store (m, es) r = match first_with (req_id r) before with
                                  | Some old => (m, es ++ [EDuplicateRequirement old r])
                                  | None => (oins (req_id r) r m, es)
                                  end).
    { unfold store. cbn [fst snd]. rewrite HG. reflexivity. }
    rewrite E. destruct (first_with (req_id r) before) as [old|] eqn:F.
    + destruct (IH (before ++ [r]) m (es ++ [EDuplicateRequirement old r]) HS) as (m' & E1 & S1 & G1).
      { intros id. rewrite HG. unfold first_with in *. rewrite find_app.
        destruct (find (fun r0 => eqb (req_id r0) id) before) eqn:F2; [reflexivity|].
        cbn [find]. destruct (eqb_spec (req_id r) id) as [<-|]; [congruence|reflexivity]. }
      exists m'. rewrite E1, <- app_assoc. split; [reflexivity|]. split; [exact S1|].
      intros id. rewrite G1, <- app_assoc. reflexivity.
    + destruct (IH (before ++ [r]) (oins (req_id r) r m) es) as (m' & E1 & S1 & G1).
      { apply oins_sorted. exact HS. }
      { intros id. unfold first_with in *. rewrite find_app. cbn [find].
        destruct (eqb_spec (req_id r) id) as [<-|Hne].
        - rewrite oget_oins_same, F. reflexivity.
        - rewrite oget_oins_other by congruence. rewrite HG.
          destruct (find (fun r0 => eqb (req_id r0) id) before); reflexivity. }
      exists m'. rewrite E1. split; [reflexivity|]. split; [exact S1|].
      intros id. rewrite G1, <- app_assoc. reflexivity.
Qed.

(** ** Roots *)
Definition lowered (rels : list relation) (id : artefact_id) : Prop :=
  exists rel, In rel rels /\ In id (rel_lower rel).

(** The state of the roots: the configured ids, false for those lowered so far. *)
Definition roots_ok (ids : list artefact_id) (low : artefact_id -> Prop) (m : omap artefact_id bool) : Prop :=
  forall id, match oget id m with
             | None => ~ In id ids
             | Some b => In id ids /\ (b = true <-> ~ low id)
             end.

Lemma roots_ok_known ids low m id : roots_ok ids low m -> (In id ids <-> exists b, oget id m = Some b).
Proof.
  intros H. specialize (H id). destruct (oget id m) as [b|].
  - split; [eauto|intros _; apply H].
  - split; [contradiction|intros [b Hb]; discriminate].
Qed.

Lemma roots_init_ok acs : roots_ok (map ac_id acs) (fun _ => False) (roots_init acs).
Proof.
  intros id. unfold roots_init. destruct (oget id (ocollect _)) as [b|] eqn:E.
  - pose proof (oget_Some_key _ _ _ E) as K. apply (proj1 (In_okeys_ocollect _ _)) in K. rewrite map_map in K. cbn in K.
    split; [exact K|]. rewrite oget_ocollect in E. apply oget_Some_In in E. apply in_rev in E.
    apply in_map_iff in E. destruct E as (ac & E & _). inversion E; subst. tauto.
  - apply oget_None in E. intros H. apply E. apply (proj2 (In_okeys_ocollect _ _)). rewrite map_map. exact H.
Qed.

Lemma roots_lower_ok ids low la : forall m,
  roots_ok ids low m ->
  match for_each la roots_lower m with
  | Done m' => (forall x, In x la -> In x ids) /\ roots_ok ids (fun id => low id \/ In id la) m'
  | Panic => exists x, In x la /\ ~ In x ids
  end.
Proof.
  revert low. induction la as [|x la IH]; intros low m HR; cbn [for_each].
  - split; [intros ? []|]. intros id. specialize (HR id). destruct (oget id m); [|exact HR].
    cbn [In]. intuition.
  - unfold roots_lower at 1. pose proof (HR x) as HX. destruct (oget x m) as [b|] eqn:E; cbn [obind].
    + specialize (IH (fun id => low id \/ id = x) (oins x false m)).
      destruct (for_each la roots_lower (oins x false m)) as [m'|].
      * destruct IH as [I1 I2].
        { intros id. rewrite oget_oins. destruct (eqb_spec id x) as [->|Hne].
          - split; [apply HX|]. intuition discriminate.
          - specialize (HR id). destruct (oget id m) as [b'|]; [|exact HR].
            split; [apply HR|]. split; [intros H [Hl|He]; [apply HR in Hl; [exact Hl|exact H]|exact (Hne He)]|].
            intros H. apply HR. intros Hl. apply H. left. exact Hl. }
        split; [intros y [<-|Hy]; [apply HX|apply I1; exact Hy]|].
        intros id. specialize (I2 id). destruct (oget id m') as [b'|]; [|exact I2].
        split; [apply I2|]. destruct I2 as [_ I2]. rewrite I2. cbn [In]. split; intros H F; apply H; intuition.
      * destruct IH as (y & Hy & Hn).
        { intros id. rewrite oget_oins. destruct (eqb_spec id x) as [->|Hne].
          - split; [apply HX|]. intuition discriminate.
          - specialize (HR id). destruct (oget id m) as [b'|]; [|exact HR].
            split; [apply HR|]. split; [intros H [Hl|He]; [apply HR in Hl; [exact Hl|exact H]|exact (Hne He)]|].
            intros H. apply HR. intros Hl. apply H. left. exact Hl. }
        exists y. split; [right; exact Hy|exact Hn].
    + exists x. split; [left; reflexivity|exact HX].
Qed.

Lemma roots_ok_ext ids low low' m : (forall id, low id <-> low' id) -> roots_ok ids low m -> roots_ok ids low' m.
Proof.
  intros HE HR id. specialize (HR id). destruct (oget id m) as [b|]; [|exact HR].
  split; [apply HR|]. destruct HR as [_ HR]. rewrite HR. split; intros H F; apply H, HE, F.
Qed.

Lemma roots_relations_ok ids rels : forall low m,
  roots_ok ids low m ->
  match for_each rels roots_relation m with
  | Done m' =>
      (forall rel, In rel rels -> forall id, id = rel_upper rel \/ In id (rel_lower rel) -> In id ids) /\
      roots_ok ids (fun id => low id \/ lowered rels id) m'
  | Panic => exists rel id, In rel rels /\ (id = rel_upper rel \/ In id (rel_lower rel)) /\ ~ In id ids
  end.
Proof.
  induction rels as [|rel rels IH]; intros low m HR; cbn [for_each].
  - split; [intros ? []|]. eapply roots_ok_ext; [|exact HR]. intros id. unfold lowered. cbn [In]. firstorder.
  - unfold roots_relation at 1. pose proof (HR (rel_upper rel)) as HX.
    destruct (oget (rel_upper rel) m) as [b|] eqn:E.
    + pose proof (roots_lower_ok ids low (rel_lower rel) m HR) as HL.
      destruct (for_each (rel_lower rel) roots_lower m) as [m1|]; cbn [obind].
      * destruct HL as [L1 L2]. specialize (IH _ m1 L2).
        destruct (for_each rels roots_relation m1) as [m'|].
        -- destruct IH as [I1 I2]. split.
           ++ intros rel' [<-|Hr] id Hid; [|apply (I1 rel' Hr id Hid)].
              destruct Hid as [->|Hid]; [apply HX|apply L1; exact Hid].
           ++ eapply roots_ok_ext; [|exact I2]. intros id. unfold lowered. cbn [In]. split.
              ** intros [[H|H]|(r & H1 & H2)]; [left; exact H|right; exists rel; auto|right; exists r; auto].
              ** intros [H|(r & [<-|H1] & H2)]; [auto|auto|right; exists r; auto].
        -- destruct IH as (r & id & H1 & H2 & H3). exists r, id. split; [right; exact H1|auto].
      * destruct HL as (x & H1 & H2). exists rel, x. split; [left; reflexivity|auto].
    + cbn [obind]. exists rel, (rel_upper rel). split; [left; reflexivity|auto].
Qed.

Section CtlFacts.
  Context {U : UnicodeTables} {D : Debug} {I : Inputs}.

  (** ** Sources *)
  Lemma glob_entries_spec l :
    match glob_entries l with
    | inl fs => l = map inl fs
    | inr e => exists fs q m rest, l = map inl fs ++ inr (q, m) :: rest /\ e = EIo q m
    end.
  Proof.
    induction l as [|[p|[q m]] l IH]; cbn [glob_entries]; [reflexivity| |].
    - destruct (glob_entries l) as [fs|e]; [cbn [map]; congruence|].
      destruct IH as (fs & q & m & rest & -> & ->). exists (p :: fs), q, m, rest. split; reflexivity.
    - exists [], q, m, l. split; reflexivity.
  Qed.

  Lemma glob_paths_spec base ps :
    match glob_paths base ps with
    | inl fs => expands base ps fs
    | inr e => expansion_fails base ps e
    end.
  Proof.
    induction ps as [|p ps IH]; cbn [glob_paths]; [constructor|].
    fold (pattern_of base p). destruct (in_glob (pattern_of base p)) as [l|m] eqn:E; [|constructor; exact E].
    pose proof (glob_entries_spec l) as HL. destruct (glob_entries l) as [fs|e].
    - subst l. destruct (glob_paths base ps) as [gs|e]; [constructor; assumption|].
      eapply xf_later; eassumption.
    - destruct HL as (fs & q & m & rest & -> & ->). eapply xf_entry. exact E.
  Qed.

  Lemma map_inl_inj {A B} (l1 : list A) : forall l2, @map A (A + B) inl l1 = map inl l2 -> l1 = l2.
  Proof. induction l1 as [|a l1 IH]; intros [|b l2] H; try discriminate; [reflexivity|]. inversion H. f_equal. auto. Qed.
  Lemma map_inl_no_inr {A B} (l1 l2 : list A) (x : B) r : map inl l1 <> map inl l2 ++ inr x :: r.
  Proof.
    intros H. assert (K : In (inr x) (@map A (A + B) inl l1)) by (rewrite H; apply in_or_app; right; left; reflexivity).
    apply in_map_iff in K. destruct K as (y & K & _). discriminate.
  Qed.
  Lemma map_inl_first {A B} (l1 : list A) : forall l2 (x y : B) r s,
    map inl l1 ++ inr x :: r = map inl l2 ++ inr y :: s -> l1 = l2 /\ x = y.
  Proof.
    induction l1 as [|a l1 IH]; intros [|b l2] x y r s H; cbn in H; inversion H; [auto|].
    destruct (IH _ _ _ _ _ H2). subst. auto.
  Qed.

  Ltac globs :=
    match goal with
    | A : in_glob ?x = inl _, B : in_glob ?x = inl _ |- _ => rewrite A in B; injection B as B
    | A : in_glob ?x = inl _, B : in_glob ?x = inr _ |- _ => rewrite A in B; discriminate
    end.
  Ltac inls :=
    match goal with
    | B : map inl _ ++ inr _ :: _ = map inl _ ++ inr _ :: _ |- _ => apply map_inl_first in B; destruct B as [_ B]
    | B : map inl _ = map inl _ ++ inr _ :: _ |- _ => elim (map_inl_no_inr _ _ _ _ B)
    | B : map inl _ ++ inr _ :: _ = map inl _ |- _ => symmetry in B; elim (map_inl_no_inr _ _ _ _ B)
    | B : map inl _ = map inl _ |- _ => apply map_inl_inj in B
    end.

  Lemma expands_unique base ps fs gs : expands base ps fs -> expands base ps gs -> fs = gs.
  Proof.
    intros H. revert gs. induction H as [|p ps fs gs E _ IH]; intros gs' H'; inversion H'; subst; [reflexivity|].
    globs. inls. subst. f_equal. apply IH. assumption.
  Qed.
  Lemma fails_unique base ps e e' : expansion_fails base ps e -> expansion_fails base ps e' -> e = e'.
  Proof.
    intros H. revert e'. induction H as [p ps m E|p ps fs q m rest E|p ps fs e E _ IH]; intros e' H'; inversion H'; subst;
      try congruence; try globs; try (inls; congruence).
    apply IH. assumption.
  Qed.
  Lemma expands_not_fails base ps fs e : expands base ps fs -> expansion_fails base ps e -> False.
  Proof.
    intros H. induction H as [|p ps fs gs E _ IH]; intros H'; inversion H'; subst; try congruence; try globs;
      solve [inls|apply IH; assumption].
  Qed.

  Lemma json_result p r : in_open p = inl r -> file_result PJson p (json_parse p r).
  Proof.
    intros HO. unfold json_parse. destruct (in_json r) as [v|] eqn:EV.
    - destruct (unjson_requirements v) as [reqs|] eqn:EU.
      + eapply fr_json; [exact HO|exact EV|apply unjson_requirements_exact; exact EU].
      + apply fr_json_bad; [exact HO|]. intros v' E. rewrite EV in E. injection E as <-. apply unjson_requirements_none. exact EU.
    - apply fr_json_bad; [exact HO|]. intros v' E. congruence.
  Qed.

  Lemma file_result_unique ps p x y : file_result ps p x -> file_result ps p y -> x = y.
  Proof.
    intros H H'. destruct H; inversion H'; subst; try congruence;
      match goal with A : in_open p = _, B : in_open p = _ |- _ => rewrite A in B; injection B as -> end;
      try congruence;
      repeat match goal with A : requirements_value _ _ |- _ => apply unjson_requirements_exact in A end; try congruence; exfalso;
      match goal with A : forall v, in_json ?r = Some v -> _, B : in_json ?r = Some _, C : unjson_requirements _ = Some _ |- _ =>
        apply (A _ B); eexists; apply unjson_requirements_exact; exact C end.
  Qed.

  Lemma next_files ac paths : ac_parser ac = PRust -> forall s,
    match for_each paths (parse_next_file ac) s with
    | Done s' => exists xs, Forall2 (file_result PRust) paths xs /\
                   s' = (fst s ++ flat_map fst xs, snd s ++ flat_map snd xs)
    | Panic => exists p, In p paths /\ file_panics PRust p
    end.
  Proof.
    intros HP. induction paths as [|p paths IH]; intros s; cbn [for_each].
    - exists []. split; [constructor|]. cbn [flat_map]. rewrite !app_nil_r. destruct s; reflexivity.
    - unfold parse_next_file at 1. rewrite HP. destruct (in_open p) as [r|m] eqn:EO; cbn [obind].
      + destruct (rust_parse in_syn in_debug_tokens p r) as [x|] eqn:ER; cbn [obind].
        * specialize (IH (fst s ++ fst x, snd s ++ snd x)).
          destruct (for_each paths (parse_next_file ac) _) as [s'|].
          -- destruct IH as (xs & HF & ->). exists (x :: xs). split; [constructor; [eapply fr_rust; eassumption|exact HF]|].
             cbn [flat_map fst snd]. rewrite !app_assoc. reflexivity.
          -- destruct IH as (q & Hq & HQ). exists q. split; [right; exact Hq|exact HQ].
        * exists p. split; [left; reflexivity|]. eapply fp_rust; eassumption.
      + specialize (IH (fst s, snd s ++ [EIo p m])).
        destruct (for_each paths (parse_next_file ac) _) as [s'|].
        * destruct IH as (xs & HF & ->). exists (([], [EIo p m]) :: xs).
          split; [constructor; [constructor; exact EO|exact HF]|].
          cbn [flat_map fst snd app]. rewrite <- app_assoc. reflexivity.
        * destruct IH as (q & Hq & HQ). exists q. split; [right; exact Hq|exact HQ].
  Qed.

  Lemma debug_parser_text ps : debug_parser ps = parser_text ps.
  Proof. destruct ps; reflexivity. Qed.
  Lemma debug_strs_texts l : debug_strs l = texts l.
  Proof.
    unfold debug_strs, texts. destruct l as [|s l]; [reflexivity|]. f_equal. cbn [map].
    revert s. induction l as [|s' l IH]; intros s; [cbn; rewrite ?app_nil_r; reflexivity|].
    cbn [map comma_texts]. change (join (L ", ") (debug_str s :: debug_str s' :: map debug_str l))
      with (debug_str s ++ L ", " ++ join (L ", ") (debug_str s' :: map debug_str l)).
    rewrite <- !app_assoc, IH, <- ?app_assoc. reflexivity.
  Qed.

  Lemma single_spec ac base :
    one_file (ac_parser ac) ->
    match parse_single_file ac base with
    | Done (files, reqs, errs) => sources base ac files reqs errs
    | Panic => exists f, opened base ac f /\ file_panics (ac_parser ac) f
    end.
  Proof.
    intros HO. unfold parse_single_file. destruct (ac_paths ac) as [|p0 [|p1 ps]] eqn:EPS.
    - rewrite <- EPS, debug_parser_text, debug_strs_texts. apply so_count; [exact HO|rewrite EPS; discriminate].
    - destruct (in_open (path_join base p0)) as [r|m] eqn:EO.
      + assert (HS : forall x, file_result (ac_parser ac) (path_join base p0) x ->
                       sources base ac [path_join base p0] (fst x) (snd x)).
        { intros x Hx. apply so_single; assumption. }
        assert (HP : opened base ac (path_join base p0)).
        { left. split; [exact HO|]. exists p0. auto. }
        destruct (ac_parser ac) eqn:EP; cbn [obind].
        * destruct (md_parse (path_join base p0) r) as [x|] eqn:EM; cbn [obind].
          -- apply HS. eapply fr_markdown; eassumption.
          -- eexists. split; [exact HP|]. eapply fp_markdown; eassumption.
        * elim HO. reflexivity.
        * destruct (mono_parse (path_join base p0) r) as [x|] eqn:EM; cbn [obind].
          -- apply HS. eapply fr_mono; eassumption.
          -- eexists. split; [exact HP|]. eapply fp_mono; eassumption.
        * apply HS. apply json_result. exact EO.
      + pose proof (so_single base ac p0 ([], [EIo (path_join base p0) m]) HO EPS) as H. apply H.
        constructor. exact EO.
    - rewrite <- EPS, debug_parser_text, debug_strs_texts. apply so_count; [exact HO|rewrite EPS; discriminate].
  Qed.

  Lemma parse_files_spec ac base :
    match parse_files ac base with
    | Done (files, reqs, errs) => sources base ac files reqs errs
    | Panic => exists f, opened base ac f /\ file_panics (ac_parser ac) f
    end.
  Proof.
    unfold parse_files. pose proof (single_spec ac base) as HS.
    destruct (ac_parser ac) eqn:EP; try (apply HS; discriminate). clear HS.
    unfold parse_multiple_files. destruct (ac_paths ac) as [|p0 ps] eqn:EPS; cbn [is_nil].
    - apply so_none; assumption.
    - rewrite <- EPS. pose proof (glob_paths_spec base (ac_paths ac)) as HG.
      destruct (glob_paths base (ac_paths ac)) as [paths|e].
      + pose proof (next_files ac paths EP ([], [])) as HN.
        destruct (for_each paths (parse_next_file ac) ([], [])) as [s|]; cbn [obind].
        * destruct HN as (xs & HF & ->). cbn [fst snd app]. apply so_many; [exact EP|rewrite EPS; discriminate|exact HG|exact HF].
        * destruct HN as (p & Hp & HP). exists p. split; [|exact HP]. right. split; [exact EP|]. eauto.
      + apply so_fails; assumption.
  Qed.

  Lemma Forall2_unique {A B} (R : A -> B -> Prop) l :
    (forall a x y, R a x -> R a y -> x = y) -> forall xs ys, Forall2 R l xs -> Forall2 R l ys -> xs = ys.
  Proof.
    intros HU. induction l as [|a l IH]; intros xs ys H1 H2; inversion H1; inversion H2; subst; [reflexivity|].
    f_equal; [eapply HU; eassumption|apply IH; assumption].
  Qed.

  Lemma sources_unique base ac f r e f' r' e' :
    sources base ac f r e -> sources base ac f' r' e' -> f = f' /\ r = r' /\ e = e'.
  Proof.
    intros H H'. destruct H; inversion H'; subst; unfold one_file in *; try congruence; try (split; auto; fail);
      repeat match goal with
      | A : ac_paths ac = [?p], B : ac_paths ac = [?q] |- _ =>
          assert (q = p) by congruence; subst q; clear B
      | A : ac_paths ac = [?p], B : length (ac_paths ac) <> _ |- _ => rewrite A in B; elim B; reflexivity
      | A : ac_paths ac = [], B : expansion_fails base (ac_paths ac) _ |- _ => rewrite A in B; inversion B
      | A : expansion_fails base _ ?e1, B : expansion_fails base _ ?e2 |- _ =>
          pose proof (fails_unique _ _ _ _ A B); subst; clear B
      | A : expands base _ _, B : expansion_fails base _ _ |- _ => elim (expands_not_fails _ _ _ _ A B)
      | A : expands base _ _, B : expands base _ _ |- _ =>
          pose proof (expands_unique _ _ _ _ A B); subst; clear B
      | A : file_result _ _ _, B : file_result _ _ _ |- _ =>
          pose proof (file_result_unique _ _ _ _ A B); subst; clear B
      | A : Forall2 _ _ _, B : Forall2 _ _ _ |- _ =>
          pose proof (Forall2_unique _ _ (file_result_unique PRust) _ _ A B); subst; clear B
      end; auto.
  Qed.

  Lemma file_result_or_panics ps p : (exists x, file_result ps p x) \/ file_panics ps p.
  Proof.
    destruct (in_open p) as [r|m] eqn:EO; [|left; eexists; constructor; exact EO].
    destruct ps.
    - destruct (md_parse p r) eqn:E; [left; eexists; eapply fr_markdown|right; eapply fp_markdown]; eassumption.
    - destruct (rust_parse in_syn in_debug_tokens p r) eqn:E;
        [left; eexists; eapply fr_rust|right; eapply fp_rust]; eassumption.
    - destruct (mono_parse p r) eqn:E; [left; eexists; eapply fr_mono|right; eapply fp_mono]; eassumption.
    - left. eexists. apply json_result. exact EO.
  Qed.
  Lemma result_not_panics ps p x : file_result ps p x -> file_panics ps p -> False.
  Proof. intros H H'. destruct H; inversion H'; congruence. Qed.

  Lemma sources_not_panics base ac f r e p :
    sources base ac f r e -> opened base ac p -> file_panics (ac_parser ac) p -> False.
  Proof.
    intros H HO HP. destruct HO as [[HO (p0 & EPS & ->)]|[HO (files & HE & HI)]].
    - destruct H as [q x _ E R|_ E|E|e E|fs xs E]; unfold one_file in *; try congruence.
      + assert (q = p0) by congruence. subst q. eapply result_not_panics; eassumption.
      + rewrite EPS in E. elim E. reflexivity.
    - destruct H as [q x E|E|_ E|e _ E|fs xs _ _ E R]; unfold one_file in *; try congruence.
      + rewrite E in HE. inversion HE; subst. destruct HI.
      + eapply expands_not_fails; eassumption.
      + pose proof (expands_unique _ _ _ _ HE E). subst files. clear -HI HP HO R. rewrite HO in HP.
        induction R as [|a x l xs Hx _ IH]; [destruct HI|]. destruct HI as [->|HI]; [|auto].
        eapply result_not_panics; eassumption.
  Qed.

  (** ** Artefacts *)
  Lemma parse_from_config_spec ac base :
    match parse_from_config ac base with
    | Done (files, m, errs) => exists reqs es,
        sources base ac files reqs es /\ osorted m /\ (forall id, oget id m = first_with id reqs) /\
        errs = es ++ repeats [] reqs
    | Panic => exists f, opened base ac f /\ file_panics (ac_parser ac) f
    end.
  Proof.
    unfold parse_from_config. pose proof (parse_files_spec ac base) as H.
    destruct (parse_files ac base) as [[[files reqs] es]|]; cbn [obind]; [|exact H].
    destruct (fold_store reqs [] [] es) as (m & E & S & G); [constructor|reflexivity|].
    cbv zeta. setoid_rewrite E. cbn [fst snd]. exists reqs, es. auto.
  Qed.

  Lemma first_with_id id l r : first_with id l = Some r -> req_id r = id.
  Proof. intros H. apply find_some in H. apply eqb_true. apply H. Qed.

  Lemma built_wf cf base ac a : built cf base ac a -> artefact_wf a.
  Proof.
    intros (reqs & errs & _ & _ & _ & _ & HS & HG & _). split; [exact HS|].
    intros k r Hin. apply (In_oget _ _ _ HS) in Hin. rewrite HG in Hin. eapply first_with_id. exact Hin.
  Qed.

  Definition roots_for (cf : config) (m : omap artefact_id bool) : Prop :=
    roots_ok (map ac_id (cf_artefacts cf)) (lowered (cf_relations cf)) m.

  Lemma add_artefact_spec cf roots base arts ac :
    roots_for cf roots -> In ac (cf_artefacts cf) ->
    match add_artefact roots base arts ac with
    | Done arts' => exists a, arts' = oins (ac_id ac) a arts /\ built cf base ac a
    | Panic => exists f, opened base ac f /\ file_panics (ac_parser ac) f
    end.
  Proof.
    intros HR HI. unfold add_artefact. specialize (HR (ac_id ac)).
    destruct (oget (ac_id ac) roots) as [root|]; cbn [unwrap obind].
    2:{ elim HR. apply in_map. exact HI. }
    pose proof (parse_from_config_spec ac base) as H.
    destruct (parse_from_config ac base) as [[[files m] errs]|]; cbn [obind]; [|exact H].
    destruct H as (reqs & es & H1 & H2 & H3 & ->). eexists. split; [reflexivity|].
    exists reqs, es. cbn. split; [exact H1|]. split; [reflexivity|]. split.
    { destruct (ac_ignore_derived ac); cbn [opt_default]; [reflexivity|]. destruct HR as [_ HR]. rewrite HR.
      unfold is_root, lowered. reflexivity. }
    split; [reflexivity|]. split; [exact H2|]. split; [exact H3|].
    unfold untitled. destruct (opt_default (ac_reference_with_title ac) false).
    - rewrite app_assoc. reflexivity.
    - rewrite app_nil_r. reflexivity.
  Qed.

  (** The artefacts built from the configurations [acs] so far. *)
  Definition arts_ok (cf : config) (base : path) (acs : list artefact_config)
    (arts : omap artefact_id artefact) : Prop :=
    osorted arts /\
    forall id, match find (fun ac => eqb (ac_id ac) id) (rev acs) with
               | Some ac => exists a, oget id arts = Some a /\ built cf base ac a
               | None => oget id arts = None
               end.

  Lemma add_artefacts_spec cf roots base todo : roots_for cf roots -> forall acs arts,
    (forall ac, In ac todo -> In ac (cf_artefacts cf)) ->
    arts_ok cf base acs arts ->
    match for_each todo (add_artefact roots base) arts with
    | Done arts' => arts_ok cf base (acs ++ todo) arts' /\
        (forall ac, In ac todo -> exists f r e, sources base ac f r e)
    | Panic => exists ac f, In ac todo /\ opened base ac f /\ file_panics (ac_parser ac) f
    end.
  Proof.
    intros HR. induction todo as [|ac todo IH]; intros acs arts HI HA; cbn [for_each].
    - rewrite app_nil_r. split; [exact HA|]. intros ? [].
    - pose proof (add_artefact_spec cf roots base arts ac HR (HI ac (or_introl eq_refl))) as H.
      destruct (add_artefact roots base arts ac) as [arts1|]; cbn [obind].
      + destruct H as (a & -> & HB). specialize (IH (acs ++ [ac]) (oins (ac_id ac) a arts)).
        assert (HA1 : arts_ok cf base (acs ++ [ac]) (oins (ac_id ac) a arts)).
        { destruct HA as [HS HG]. split; [apply oins_sorted; exact HS|]. intros id.
          rewrite rev_app_distr. cbn [rev app find]. destruct (eqb_spec (ac_id ac) id) as [<-|Hne].
          - rewrite oget_oins_same. eauto.
          - rewrite oget_oins_other by congruence. apply HG. }
        specialize (IH (fun x Hx => HI x (or_intror Hx)) HA1). rewrite <- app_assoc in IH.
        destruct (for_each todo (add_artefact roots base) _) as [arts'|].
        * destruct IH as [I1 I2]. split; [exact I1|].
          intros x [<-|Hx]; [|apply I2; exact Hx].
          destruct HB as (r & e & HB & _). eauto.
        * destruct IH as (x & f & H1 & H2). exists x, f. split; [right; exact H1|exact H2].
      + destruct H as (f & H1 & H2). exists ac, f. split; [left; reflexivity|]. auto.
  Qed.

  (** ** The whole construction *)
  Definition graph_built (cf : config) (base : path) (g : graph) : Prop :=
    g_relations g = cf_relations cf /\ osorted (g_artefacts g) /\
    forall id, match last_config cf id with
               | Some ac => exists a, oget id (g_artefacts g) = Some a /\ built cf base ac a
               | None => oget id (g_artefacts g) = None
               end.

  Lemma last_config_in cf id ac : last_config cf id = Some ac -> In ac (cf_artefacts cf) /\ ac_id ac = id.
  Proof.
    intros H. apply find_some in H. destruct H as [H1 H2]. split; [apply in_rev; exact H1|apply eqb_true; exact H2].
  Qed.
  Lemma last_config_some cf id : In id (map ac_id (cf_artefacts cf)) <-> exists ac, last_config cf id = Some ac.
  Proof.
    split.
    - intros H. destruct (last_config cf id) as [ac|] eqn:E; [eauto|]. exfalso.
      apply in_map_iff in H. destruct H as (ac & E1 & H). apply in_rev in H.
      pose proof (find_none _ _ E ac H) as F. cbn in F. apply eqb_false in F. exact (F E1).
    - intros [ac H]. apply last_config_in in H. destruct H as [H <-]. apply in_map. exact H.
  Qed.

  Lemma graph_built_wf cf base g : graph_built cf base g -> graph_wf g.
  Proof.
    intros (_ & HS & HG). split; [exact HS|]. intros k a Hin. apply (In_oget _ _ _ HS) in Hin.
    specialize (HG k). destruct (last_config cf k) as [ac|] eqn:E; [|congruence].
    destruct HG as (a' & E1 & HB). assert (a' = a) by congruence. subst a'.
    split; [|eapply built_wf; exact HB]. destruct HB as (r & e & _ & HI & _). rewrite HI.
    apply last_config_in in E. apply E.
  Qed.

  Lemma graph_built_keys cf base g id :
    graph_built cf base g -> (In id (okeys (g_artefacts g)) <-> In id (map ac_id (cf_artefacts cf))).
  Proof.
    intros (_ & HS & HG). rewrite last_config_some. specialize (HG id). split.
    - intros H. apply oget_key_Some in H. destruct H as [a Ha].
      destruct (last_config cf id); [eauto|congruence].
    - intros [ac E]. rewrite E in HG. destruct HG as (a & Ha & _). eapply oget_Some_key. exact Ha.
  Qed.

  Lemma built_relations_ok cf base g :
    relations_known cf -> graph_built cf base g -> forall rel, In rel (g_relations g) -> relation_ok g rel.
  Proof.
    intros HK HB rel Hr. rewrite (proj1 HB) in Hr.
    pose proof (HK rel Hr) as HK'.
    assert (HU : In (rel_upper rel) (okeys (g_artefacts g))).
    { apply (graph_built_keys cf base g _ HB). apply HK'. left. reflexivity. }
    apply oget_key_Some in HU. destruct HU as [ua Hua]. exists ua. split; [exact Hua|]. right.
    intros la Hla. apply (graph_built_keys cf base g _ HB). apply HK'. right. exact Hla.
  Qed.

  Theorem controller_new_spec cf base :
    match controller_new cf base with
    | Done c =>
        relations_known cf /\ graph_built cf base (ctl_graph c) /\ trace (ctl_graph c) = Done (ctl_traced c) /\
        ctl_base c = base /\ ctl_jobs c = opt_default (cf_jobs cf) [] /\
        ctl_default_jobs c = opt_default (cf_default_jobs cf) [] /\
        (forall ac, In ac (cf_artefacts cf) -> exists f r e, sources base ac f r e)
    | Panic => ~ relations_known cf \/
        exists ac f, In ac (cf_artefacts cf) /\ opened base ac f /\ file_panics (ac_parser ac) f
    end.
  Proof.
    unfold controller_new.
    pose proof (roots_relations_ok (map ac_id (cf_artefacts cf)) (cf_relations cf) _ _ (roots_init_ok (cf_artefacts cf))) as HR.
    destruct (for_each (cf_relations cf) roots_relation _) as [roots|]; cbn [obind].
    - destruct HR as [HK HR].
      assert (HR' : roots_for cf roots).
      { eapply roots_ok_ext; [|exact HR]. intros id. cbn. tauto. }
      pose proof (add_artefacts_spec cf roots base (cf_artefacts cf) HR' [] [] (fun x H => H)) as HA.
      destruct (for_each (cf_artefacts cf) (add_artefact roots base) []) as [arts|]; cbn [obind].
      + assert (HA0 : arts_ok cf base [] []) by (split; [constructor|reflexivity]).
        destruct (HA HA0) as [[HS HG] HSrc].
        assert (HB : graph_built cf base (mkGraph arts (cf_relations cf))).
        { split; [reflexivity|]. split; [exact HS|exact HG]. }
        pose proof (graph_built_wf _ _ _ HB) as WF.
        destruct (proj2 (trace_total_iff _ WF) (built_relations_ok cf base _ HK HB)) as [tg HT].
        rewrite HT. cbn [obind ctl_graph ctl_traced ctl_base ctl_jobs ctl_default_jobs].
        split; [exact HK|]. split; [exact HB|]. split; [exact HT|]. repeat split; try reflexivity. exact HSrc.
      + right. apply HA. split; [constructor|reflexivity].
    - left. intros HK. destruct HR as (rel & id & H1 & H2 & H3). apply H3. apply (HK rel H1 id H2).
  Qed.

  Lemma controller_panics cf base :
    controller_new cf base = Panic <->
    ~ relations_known cf \/
    exists ac f, In ac (cf_artefacts cf) /\ opened base ac f /\ file_panics (ac_parser ac) f.
  Proof.
    pose proof (controller_new_spec cf base) as H. destruct (controller_new cf base) as [c|].
    - split; [discriminate|]. destruct H as (HK & _ & _ & _ & _ & _ & HS).
      intros [HN|(ac & f & H1 & H2 & H3)]; [elim (HN HK)|]. destruct (HS ac H1) as (fs & r & e & H4).
      elim (sources_not_panics _ _ _ _ _ _ H4 H2 H3).
    - split; [intros _; exact H|reflexivity].
  Qed.
End CtlFacts.
