(** Facts about Api.v. *)
From Coq Require Import Permutation.
From Verif Require Import Base OMap Models Unicode Location LocFacts LocRound Show Sort Serialize MdFmt Formatters RustParser Controller CtlSpec JobFacts
  SerdeJson JsonGrammar SerdeFacts JsonSpec JsonRound JsonCor Api ApiSpec.
Open Scope N_scope.

(** ** Jobs *)
Lemma combine_firsts {A B} (l : list A) : forall m : list B, map fst (combine l m) = firstn (length m) l.
Proof. induction l as [|a l IH]; intros [|b m]; cbn; [reflexivity..|]. rewrite IH. reflexivity. Qed.

Section Jobs.
  Context {D : Debug} {US : UnstableSort} {CT : CaseTables} {J : JsonText} {O : Outputs}.

  Lemma jobs_ok c jobs names h h' s :
    run_jobs_with_names c jobs names h = (h', ROkay s) <->
    exists ss, all_run c (firstn (length names) jobs) h ss h' /\
      (s = ErrorsDetected <-> some_detected (firstn (length names) jobs) ss).
  Proof.
    unfold run_jobs_with_names. rewrite combine_firsts. set (js := firstn (length names) jobs). split.
    - intros H. destruct (run_jobs_cases c js h) as [(ss & h1 & HA)|(pre & j & post & ss & h1 & h2 & r & E & HA & HR & HF')].
      + destruct (run_jobs_all c js h ss h1 Success HA) as (s' & E & Hs). rewrite E in H. inversion H; subst.
        exists ss. split; [exact HA|]. rewrite Hs. intuition discriminate.
      + rewrite E, (run_jobs_stops c pre h ss h1 j post h2 r Success HA HR HF') in H. inversion H; subst. destruct HF'.
    - intros (ss & HA & Hs). destruct (run_jobs_all c js h ss h' Success HA) as (s' & E & Hs'). rewrite E. f_equal. f_equal.
      destruct s, s'; try reflexivity.
      + assert (X : Success = ErrorsDetected) by (apply Hs; destruct Hs' as [Hs' _]; destruct (Hs' eq_refl); [assumption|discriminate]).
        discriminate.
      + assert (X : Success = ErrorsDetected) by (apply Hs'; left; apply Hs; reflexivity). discriminate.
  Qed.

  Lemma jobs_fail c jobs names h h' r : failed r ->
    (run_jobs_with_names c jobs names h = (h', r) <->
     exists pre j post ss h1, firstn (length names) jobs = pre ++ j :: post /\ all_run c pre h ss h1 /\ run c j h1 = (h', r)).
  Proof.
    intros HFr. unfold run_jobs_with_names. rewrite combine_firsts. set (js := firstn (length names) jobs). split.
    - intros H. destruct (run_jobs_cases c js h) as [(ss & h1 & HA)|(pre & j & post & ss & h1 & h2 & r' & E & HA & HR & HF')].
      + destruct (run_jobs_all c js h ss h1 Success HA) as (s' & E & _). rewrite E in H. inversion H; subst. destruct HFr.
      + rewrite E, (run_jobs_stops c pre h ss h1 j post h2 r' Success HA HR HF') in H. inversion H; subst.
        exists pre, j, post, ss, h1. auto.
    - intros (pre & j & post & ss & h1 & -> & HA & HR). eapply run_jobs_stops; eassumption.
  Qed.

  (** The program calls it with the jobs of the names. *)
  Lemma by_name_with_names c names h js : jobs_named c names js -> run_jobs_by_name c names h = run_jobs_with_names c js names h.
  Proof.
    intros H. unfold run_jobs_by_name, run_jobs_with_names. rewrite (jobs_named_find _ _ _ H), combine_firsts.
    rewrite firstn_all2; [reflexivity|]. apply PeanoNat.Nat.eq_le_incl. induction H as [|? ? ? ? ? ? IH]; [reflexivity|]. cbn [length]. rewrite IH. reflexivity.
  Qed.
End Jobs.

(** ** Errors *)
Lemma plain_errors {US : UnstableSort} errs : plain (json_errors errs).
Proof.
  apply plain_obj. constructor; [exact I|]. constructor; [|constructor]. apply plain_jlist. exact plain_error.
Qed.
Theorem errors_text {D : Debug} {US : UnstableSort} errs :
  exists sorted, (exists v, json_document (json_pretty (JsonText := serde_json) (json_errors errs)) v) /\
    (forall v, json_document (json_pretty (JsonText := serde_json) (json_errors errs)) v -> an_error_list v = Some (0, sorted)) /\
    Permutation errs sorted /\ sorted_by show_error sorted.
Proof.
  exists (sort_errors errs).
  assert (H : an_error_list (json_errors errs) = Some (0, sort_errors errs)).
  { unfold an_error_list. change (member "version" number (json_errors errs)) with (Some 0).
    change (member "errors" (JsonSpec.elements an_error) (json_errors errs)) with (JsonSpec.elements an_error (jlist json_error (sort_errors errs))).
    cbn [bind]. rewrite (elements_jlist an_error json_error _ error_back). reflexivity. }
  destruct (reads_written an_error_list _ _ (plain_errors errs) H) as [H1 H2].
  split; [exact H1|]. split; [exact H2|]. split; [apply sort_errors_perm|apply sort_errors_sorted].
Qed.

(** ** The builder *)
Section Builder.
  Context {U : UnicodeTables}.

  Lemma no_location : parse_location (L "no Location") = Done (inl (mkLocation (L "no Location") None)).
  Proof.
    change (L "no Location") with (show_location (mkLocation (L "no Location") None)) at 1.
    apply location_round_trip; [exact I|]. cbn [loc_file loc_in_file]. split; [discriminate|]. split.
    - intros X. vm_compute in X. repeat (destruct X as [X|X]; [discriminate|]). exact X.
    - intros (f & d & _ & E & _).
      assert (X : In COLON (L "no Location")) by (rewrite E; apply in_or_app; right; left; reflexivity).
      vm_compute in X. repeat (destruct X as [X|X]; [discriminate|]). exact X.
  Qed.

  Lemma location_cases s :
    (is_location s = true /\ parse_location s = Done (inl (the_location s))) \/
    (is_location s = false /\ exists e, parse_location s = Done (inr e)).
  Proof.
    unfold is_location, the_location. destruct (parse_location_total s) as [[l|e] E]; rewrite E; [left|right]; eauto.
  Qed.

  Definition built (r : requirement) (l : list call) : requirement :=
    mkRequirement (req_id r)
      (match last_of (titles l) with Some t => Some t | None => req_title r end)
      (match last_of (locations l) with Some x => x | None => req_location r end)
      (req_covers r ++ either_calls l) (req_depends r) (req_tags r ++ tag_calls l)
      (fold_left (fun m kv => oins (fst kv) (snd kv) m) (attribute_calls l) (req_attributes r)).

  Lemma last_of_cons {A} (a : A) l : last_of (a :: l) = Some (match last_of l with Some x => x | None => a end).
  Proof. unfold last_of. cbn [rev]. destruct (rev l) as [|x m]; reflexivity. Qed.

  Lemma builder_call_spec r x :
    (call_ok x = true /\ builder_call r x = Done (inl (built r [x]))) \/ (call_ok x = false /\ exists e, builder_call r x = Done (inr e)).
  Proof.
    destruct r as [i t p c d g a].
    destruct x as [s|s|id ti s|id ti s|tag|k v]; cbn [call_ok builder_call]; unfold builder_location, builder_covers, builder_depends;
      try (left; split; [reflexivity|]; unfold built; cbn; rewrite ?app_nil_r; reflexivity);
      (destruct (location_cases s) as [(-> & ->)|(-> & e & ->)]; cbn;
        [left; split; [reflexivity|]; unfold built; cbn; rewrite ?app_nil_r; reflexivity|right; eauto]).
  Qed.

  Lemma builder_calls_spec l : forall r,
    (forallb call_ok l = true /\ builder_calls r l = Done (inl (built r l))) \/
    (forallb call_ok l = false /\ exists e, builder_calls r l = Done (inr e)).
  Proof.
    induction l as [|x l IH]; intros r; cbn [forallb builder_calls].
    - left. split; [reflexivity|]. destruct r. unfold built. cbn. rewrite !app_nil_r. reflexivity.
    - destruct (builder_call_spec r x) as [(-> & ->)|(-> & e & ->)]; cbn; [|right; eauto].
      destruct (IH (built r [x])) as [(-> & ->)|(-> & e & ->)]; [|right; eauto]. left. split; [reflexivity|].
      f_equal. f_equal. unfold built. cbn [req_id req_title req_location req_covers req_depends req_tags req_attributes].
      unfold titles, locations, either_calls, tag_calls, attribute_calls.
      destruct x; cbn [flat_map app fold_left fst snd]; rewrite ?last_of_cons, ?app_nil_r, <- ?app_assoc; cbn [app last_of rev];
        repeat match goal with |- context [match last_of ?x with Some _ => _ | None => _ end] => destruct (last_of x) end; reflexivity.
  Qed.

  Theorem builder_spec id l :
    if forallb call_ok l then
      exists r, builder id l = Done (inl r) /\ req_id r = id /\ req_title r = last_of (titles l) /\
        req_location r = match last_of (locations l) with Some x => x | None => mkLocation (L "no Location") None end /\
        req_covers r = either_calls l /\ req_depends r = [] /\ req_tags r = tag_calls l /\
        osorted (req_attributes r) /\ forall k, oget k (req_attributes r) = oget k (rev (attribute_calls l))
    else exists e, builder id l = Done (inr e).
  Proof.
    unfold builder, builder_new. rewrite no_location. cbn [obind].
    set (r0 := mkRequirement id None (mkLocation (L "no Location") None) [] [] [] []).
    destruct (builder_calls_spec l r0) as [(-> & H)|(-> & e & H)]; [|exists e; exact H].
    eexists. split; [exact H|]. unfold built. cbn.
    repeat (split; [try reflexivity; destruct (last_of (titles l)); reflexivity|]).
    split; [apply (ocollect_sorted (attribute_calls l))|]. intros k. exact (oget_ocollect (attribute_calls l) k).
  Qed.
End Builder.
