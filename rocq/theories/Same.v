(** Graphs that say the same are traced in the same way: places, texts, files and errors of the input are forgotten by a relabelling
    (TraceRelabel.v). *)
From Verif Require Import Base OMap Models Tracer TraceSpec TraceFacts TraceCor RelabelSpec TraceRelabel SameSpec.

Definition NOWHERE : location := mkLocation [] None.
Definition bare : relabeling :=
  mkRelabeling (fun i => i) (fun t => t) (fun _ => NOWHERE) (fun _ => []) (fun _ => []) (fun _ => []) (fun _ => []).
Lemma bare_faithful : faithful bare.
Proof. split; [reflexivity|]. intros a b H. exact H. Qed.

Lemma map_Forall2 {A B} (f : A -> B) (R : A -> A -> Prop) :
  (forall a a', R a a' -> f a = f a') -> forall l l', Forall2 R l l' -> map f l = map f l'.
Proof. intros H l l' F. induction F as [|a a' l l' Ha _ IH]; [reflexivity|]. cbn [map]. rewrite IH, (H a a' Ha). reflexivity. Qed.
Lemma Forall2_map {A B} (f : A -> B) (R : A -> A -> Prop) :
  (forall a a', f a = f a' -> R a a') -> forall l l', map f l = map f l' -> Forall2 R l l'.
Proof.
  intros H l. induction l as [|a l IH]; intros [|a' l'] E; cbn [map] in E; try discriminate; constructor.
  - apply H. congruence.
  - apply IH. congruence.
Qed.
Lemma option_map_id {A} (o : option A) : option_map (fun t => t) o = o.
Proof. destruct o; reflexivity. Qed.

Lemma bare_reference x y : same_reference x y <-> on_reference bare x = on_reference bare y.
Proof.
  unfold same_reference, on_reference. cbn [rl_id rl_title rl_location bare]. rewrite !option_map_id. split.
  - intros [-> ->]. reflexivity.
  - intros E. injection E as E1 E2. split; assumption.
Qed.
Lemma bare_requirement r s : same_requirement r s <-> on_requirement bare r = on_requirement bare s.
Proof.
  unfold same_requirement, on_requirement. cbn [rl_id rl_title rl_location rl_tags rl_attributes bare]. rewrite !option_map_id. split.
  - intros (-> & -> & H1 & H2).
    rewrite (map_Forall2 _ _ (fun x y => proj1 (bare_reference x y)) _ _ H1), (map_Forall2 _ _ (fun x y => proj1 (bare_reference x y)) _ _ H2).
    reflexivity.
  - intros E. injection E as E1 E2 E3 E4. split; [exact E1|]. split; [exact E2|].
    split; (apply (Forall2_map (on_reference bare)); [intros x y; apply bare_reference|assumption]).
Qed.
Lemma bare_artefact a b : same_artefact a b -> on_artefact bare a = on_artefact bare b.
Proof.
  intros (H1 & H2 & H3 & H4). unfold on_artefact. cbn [rl_id rl_files rl_input_errors bare]. rewrite H1, H2, H3. f_equal.
  eapply map_Forall2; [|exact H4]. cbn. intros e e' [-> H]. apply bare_requirement in H. rewrite H. reflexivity.
Qed.
Lemma bare_graph g h : same_facts g h -> on_graph bare g = on_graph bare h.
Proof.
  intros [H1 H2]. unfold on_graph. rewrite H1. f_equal. unfold on_artefacts. eapply map_Forall2; [|exact H2]. cbn.
  intros e e' [-> H]. rewrite (bare_artefact _ _ H). reflexivity.
Qed.

Lemma bare_coverage c d : on_coverage bare c = on_coverage bare d -> same_coverage c d.
Proof. unfold on_coverage. cbn. intros E. injection E as E1 E2 E3. repeat split; assumption. Qed.
Lemma bare_relation s t : on_relation bare s = on_relation bare t -> same_traced s t.
Proof.
  unfold on_relation. cbn [rl_id bare]. rewrite !map_id. intros E. injection E as E1 E2 E3. split; [exact E1|]. split; [|exact E3].
  exact (Forall2_map _ _ bare_coverage _ _ E2).
Qed.

(** Errors of the tracer. *)
Definition tracing_error (e : error) : Prop :=
  match e with
  | EDuplicateRequirement _ _ | ECoveredWithWrongTitle _ _ _ _ | EDependWithWrongTitle _ _ _ _ | EReferencedWithoutTitle _ _
  | EDependOnUnknownRequirement _ _ _ | ECoversUnknownRequirement _ _ _ | EUnusedRelation _ => True
  | _ => False
  end.
Lemma bare_error e f : tracing_error e -> tracing_error f -> on_error bare e = on_error bare f -> same_error e f.
Proof.
  destruct e; cbn [tracing_error]; intros He; try destruct He; destruct f; cbn [tracing_error]; intros Hf; try destruct Hf;
    cbn [on_error same_error rl_id rl_title bare]; intros E; try discriminate;
    rewrite ?bare_requirement; repeat split; congruence.
Qed.

Lemma all_tracing g tg : graph_wf g -> trace g = Done tg -> Forall tracing_error (tg_errors tg).
Proof.
  intros WF TR. destruct (trace_done _ WF _ TR) as (pc & pd & _ & _ & _ & _ & _ & _ & _ & A10). rewrite A10. clear A10.
  apply Forall_forall. intros e H. apply in_app_iff in H. destruct H as [H|H]; [|apply in_app_iff in H; destruct H as [H|H];
      [|apply in_app_iff in H; destruct H as [H|H]]].
  - unfold dup_errors in H. apply in_flat_map in H. destruct H as ([k a] & _ & H). apply in_flat_map in H.
    destruct H as (r & _ & H). unfold dup_errors_of in H. destruct (defined_before _ _ _); [|destruct H].
    destruct (first_of g (req_id r)); [|destruct H]. destruct H as [<-|[]]. exact I.
  - apply in_flat_map in H. destruct H as (rel & _ & H). unfold relation_errors in H. apply in_app_iff in H. destruct H as [H|H].
    + apply in_flat_map in H. destruct H as (l & _ & H). unfold link_errors in H. apply in_app_iff in H. destruct H as [H|H].
      * unfold wrong_title_errors in H. destruct (ref_title (lk_ref l)); [|destruct H]. destruct (option_eqb _ _ _); [destruct H|].
        destruct H as [<-|[]]. destruct (lk_dir l); exact I.
      * unfold missing_title_errors in H. destruct (ref_title (lk_ref l)); [destruct H|]. destruct (wants_title _ _); [|destruct H].
        destruct H as [<-|[]]. exact I.
    + unfold unused_errors in H. destruct (is_nil _); [|destruct H]. destruct H as [<-|[]]. exact I.
  - apply in_flat_map in H. destruct H as (p & _ & H). unfold covers_error in H. destruct (first_of g (snd p)); [|destruct H].
    destruct (first_location _ _); [|destruct H]. destruct H as [<-|[]]. exact I.
  - apply in_flat_map in H. destruct H as (p & _ & H). unfold depends_error in H. destruct (first_of g (fst p)); [|destruct H].
    destruct (first_location _ _); [|destruct H]. destruct H as [<-|[]]. exact I.
Qed.

Theorem same_trace g h : graph_wf g -> graph_wf h -> same_facts g h ->
  match trace g, trace h with
  | Done s, Done t => same_findings s t
  | Panic, Panic => True
  | _, _ => False
  end.
Proof.
  intros WG WH HS. apply bare_graph in HS.
  pose proof (trace_rl bare bare_faithful g WG) as TG. pose proof (trace_rl bare bare_faithful h WH) as TH. rewrite HS, TH in TG.
  pose proof (all_tracing g) as AG. pose proof (all_tracing h) as AH.
  destruct (trace g) as [s|], (trace h) as [t|]; try discriminate; [|exact I].
  specialize (AG s WG eq_refl). specialize (AH t WH eq_refl).
  assert (TG' : on_traced bare s = on_traced bare t) by congruence. clear TG. unfold on_traced in TG'. injection TG' as _ E2 E3 E4.
  split; [exact (Forall2_map _ _ bare_relation _ _ E2)|]. split.
  - assert (X : forall d : list (artefact_id * list requirement_id), map (fun e => (fst e, map (rl_id bare) (snd e))) d = d).
    { induction d as [|[k l] d IH]; [reflexivity|]. cbn [map fst snd]. rewrite IH. cbn [rl_id bare]. rewrite map_id. reflexivity. }
    rewrite !X in E3. exact E3.
  - clear -E4 AG AH. revert AH E4. generalize (tg_errors t). revert AG. generalize (tg_errors s). clear.
    induction l as [|e l IH]; intros A [|f m] B E; cbn [map] in E; try discriminate; constructor.
    + inversion A; inversion B; subst. apply bare_error; [assumption|assumption|congruence].
    + inversion A; inversion B; subst. apply IH; [assumption|assumption|congruence].
Qed.
