(** Runs do not depend on how the unstable sort orders equal elements. *)
From Coq Require Import Permutation Sorted.
From Verif Require Import Base OMap Models Unicode Utf8 Paths Show Sort Tracer TraceSpec Aggregator Serialize Tags MdFmt Formatters
  Controller FmtSpec FmtFacts EntrySpec FmtCor CtlSpec.

(** Lists in which elements with the same key are the same have one sorted order. *)
Lemma sorted_unique {A} (key : A -> str) l1 l2 :
  Permutation l1 l2 -> sorted_by key l1 -> sorted_by key l2 ->
  (forall x y, In x l1 -> In y l1 -> key x = key y -> x = y) -> l1 = l2.
Proof.
  intros HP H1 H2 HK. revert l2 HP H2. induction l1 as [|x l1 IH]; intros l2 HP H2.
  - apply Permutation_nil in HP. auto.
  - destruct l2 as [|y l2]; [apply Permutation_sym, Permutation_nil in HP; discriminate|].
    inversion H1 as [|? ? S1 F1]; inversion H2 as [|? ? S2 F2]; subst.
    assert (E : x = y).
    { apply HK; [left; reflexivity|apply (Permutation_in _ (Permutation_sym HP)); left; reflexivity|].
      assert (Hx : In x (y :: l2)) by (apply (Permutation_in _ HP); left; reflexivity).
      assert (Hy : In y (x :: l1)) by (apply (Permutation_in _ (Permutation_sym HP)); left; reflexivity).
      destruct Hx as [->|Hx]; [reflexivity|]. destruct Hy as [->|Hy]; [reflexivity|].
      rewrite Forall_forall in F1, F2. specialize (F1 _ Hy). specialize (F2 _ Hx). cbn in F1, F2.
      unfold le in *. destruct (cmp (key x) (key y)) eqn:C.
      - apply cmp_eq. exact C.
      - elim F2. rewrite cmp_opp, C. reflexivity.
      - elim F1. reflexivity. }
    subst y. f_equal. apply IH; auto.
    + intros a b Ha Hb. apply HK; right; assumption.
    + exact (Permutation_cons_inv HP).
Qed.

(** Errors of the artefacts with the same text are the same. *)
Definition told_apart (g : graph) : Prop :=
  forall e e', In e (all_errors g) -> In e' (all_errors g) -> show_error e = show_error e' -> e = e'.

(** A job whose report lists the errors of the artefacts in the order of the sort. *)
Definition lists_errors (j : job) : Prop := job_query j = QParse /\ job_format j = Json.

Section SortFree.
  Context {U : UnicodeTables} {D : Debug} {CT : CaseTables} {J : JsonText} {I : Inputs} {O : Outputs}.
  Variables US1 US2 : UnstableSort.

  Lemma text_same c j : told_apart (ctl_graph c) \/ ~ lists_errors j -> @job_text D US1 CT J c j = @job_text D US2 CT J c j.
  Proof.
    intros H. unfold job_text. destruct (job_query j) eqn:EQ; [|reflexivity].
    unfold fmt_requirements. destruct (job_format j) eqn:EF; try reflexivity.
    destruct H as [H|H]; [|elim H; split; assumption].
    assert (E : @sort_errors US1 (flat_map art_errors (ovalues (g_artefacts (ctl_graph c)))) =
                @sort_errors US2 (flat_map art_errors (ovalues (g_artefacts (ctl_graph c)))));
      [|unfold json_requirements; rewrite E; reflexivity].
    apply sorted_unique with (key := show_error).
    - eapply perm_trans; [apply Permutation_sym, sort_errors_perm|apply sort_errors_perm].
    - apply sort_errors_sorted.
    - apply sort_errors_sorted.
    - intros x y Hx Hy. apply H; rewrite <- all_errors_flat.
      + apply (Permutation_in _ (Permutation_sym (@sort_errors_perm US1 _))) in Hx. exact Hx.
      + apply (Permutation_in _ (Permutation_sym (@sort_errors_perm US1 _))) in Hy. exact Hy.
  Qed.

  Lemma run_same c j h : told_apart (ctl_graph c) \/ ~ lists_errors j -> @run D US1 CT J O c j h = @run D US2 CT J O c j h.
  Proof. intros H. unfold run. rewrite (text_same c j H). reflexivity. Qed.
  Lemma runs_same c js : told_apart (ctl_graph c) \/ (forall j, In j js -> ~ lists_errors j) -> forall s h,
    @run_jobs D US1 CT J O c js s h = @run_jobs D US2 CT J O c js s h.
  Proof.
    intros H. induction js as [|j js IH]; intros s h; [reflexivity|]. cbn [run_jobs]. rewrite (run_same c j h).
    - assert (H' : told_apart (ctl_graph c) \/ (forall j, In j js -> ~ lists_errors j)).
      { destruct H as [H|H]; [left; exact H|right; intros i Hi; apply H; right; exact Hi]. }
      destruct (@run D US2 CT J O c j h) as [h1 [[]| |]]; try reflexivity; apply IH; exact H'.
    - destruct H as [H|H]; [left; exact H|right; apply H; left; reflexivity].
  Qed.

  Lemma found_jobs c names js : find_jobs c names = inl js -> forall j, In j js ->
    exists n, In n names /\ oget n (ctl_jobs c) = Some j.
  Proof.
    revert js. induction names as [|n names IH]; intros js; cbn [find_jobs].
    - intros H. inversion H; subst. intros j [].
    - destruct (oget n (ctl_jobs c)) as [i|] eqn:E; [|discriminate].
      destruct (find_jobs c names) as [is|] eqn:Ej; [|discriminate]. intros H. inversion H; subst.
      intros j [<-|Hj]; [exists n; split; [left; reflexivity|exact E]|].
      destruct (IH _ eq_refl j Hj) as (m & Hm & Em). exists m. split; [right; exact Hm|exact Em].
  Qed.

  Theorem main_same cf base jobs :
    (forall c ctl, usable cf c -> controller_new c base = Done ctl ->
       told_apart (ctl_graph ctl) \/
       forall n j, In n (chosen ctl jobs) -> oget n (ctl_jobs ctl) = Some j -> ~ lists_errors j) ->
    @main_rc U D US1 CT J I O cf base jobs = @main_rc U D US2 CT J I O cf base jobs.
  Proof.
    intros H. unfold main_rc. destruct (get_config cf) as [c|] eqn:EC; [|reflexivity].
    destruct (controller_new c base) as [ctl|] eqn:EN; [|reflexivity].
    assert (HU : usable cf c).
    { unfold get_config in EC. destruct cf as [c0|]; [|discriminate]. destruct (cf_version c0) as [v|] eqn:EV.
      - destruct (N.ltb_spec CONFIG_VERSION v) as [|Hv]; inversion EC; subst. split; [reflexivity|]. right.
        rewrite EV. f_equal. unfold CONFIG_VERSION in Hv. lia.
      - inversion EC; subst. split; [reflexivity|auto]. }
    specialize (H c ctl HU EN). unfold run_cli_jobs, run_default_jobs, run_jobs_by_name.
    assert (G : forall names js, names = chosen ctl jobs -> find_jobs ctl names = inl js ->
              told_apart (ctl_graph ctl) \/ (forall j, In j js -> ~ lists_errors j)).
    { intros names js -> Hj. destruct H as [H|H]; [left; exact H|right]. intros j Hin.
      destruct (found_jobs _ _ _ Hj j Hin) as (n & Hn & En). exact (H n j Hn En). }
    unfold chosen in G. destruct jobs as [|n0 ns]; cbn [is_nil].
    - destruct (is_nil (ctl_default_jobs ctl)); [reflexivity|].
      destruct (find_jobs ctl (ctl_default_jobs ctl)) as [js|] eqn:Ej; [|reflexivity].
      rewrite (runs_same ctl js (G _ _ eq_refl Ej)). reflexivity.
    - destruct (find_jobs ctl (n0 :: ns)) as [js|] eqn:Ej; [|reflexivity].
      rewrite (runs_same ctl js (G _ _ eq_refl Ej)). reflexivity.
  Qed.
End SortFree.
