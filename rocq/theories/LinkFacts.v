(** The links within the trace report have targets. *)
From Coq Require Import Lia.
From Verif Require Import Base OMap Models Unicode Location LocFacts LocRound Show Sort Tracer TraceSpec TraceFacts TraceCor
  Aggregator AggSpec AggFacts GnuErr Tags Serialize MdCor2 MdFmt Formatters FmtSpec FmtFacts EntrySpec FmtCor.
Open Scope N_scope.

Lemma no_bracket_app a b : no_bracket (a ++ b) <-> no_bracket a /\ no_bracket b.
Proof. unfold no_bracket. rewrite in_app_iff. tauto. Qed.

Lemma page_lines_ne s : exists l ls, page_lines s = l :: ls.
Proof. induction s as [|c s (l & ls & IH)]; cbn [page_lines]; [eauto|]. rewrite IH. destruct (c =? NL); eauto. Qed.
Lemma page_lines_nl s : page_lines (NL :: s) = [] :: page_lines s.
Proof. cbn [page_lines]. destruct (page_lines_ne s) as (l & ls & ->). reflexivity. Qed.
Lemma page_lines_last x : ~ In NL x -> forall b, exists rest, page_lines (x ++ NL :: b) = x :: rest.
Proof.
  induction x as [|c x IH]; intros H b.
  - cbn [app]. rewrite page_lines_nl. eauto.
  - cbn [app page_lines]. destruct (IH (fun X => H (or_intror X)) b) as (rest & ->).
    destruct (c =? NL) eqn:E; [apply N.eqb_eq in E; exfalso; apply H; left; exact E|]. eauto.
Qed.
Lemma page_line a x b : ~ In NL x -> In x (page_lines (a ++ NL :: x ++ NL :: b)).
Proof.
  intros H.
  assert (HL : exists y ys, page_lines (a ++ NL :: x ++ NL :: b) = y :: ys /\ In x ys).
  { induction a as [|d a (y & ys & E & Hy)].
    - cbn [app]. rewrite page_lines_nl. do 2 eexists. split; [reflexivity|].
      destruct (page_lines_last x H b) as (rest & ->). left. reflexivity.
    - cbn [app page_lines]. rewrite E. destruct (d =? NL); do 2 eexists; (split; [reflexivity|]); [right|]; exact Hy. }
  destruct HL as (y & ys & -> & Hy). right. exact Hy.
Qed.

(** The targets in [x ++ s] are [l] and those of [s]. *)
Definition adds (x : str) (l : list str) : Prop := forall s, targets (x ++ s) = l ++ targets s.

Lemma adds_nil : adds [] [].
Proof. intros s. reflexivity. Qed.
Lemma adds_app a b la lb : adds a la -> adds b lb -> adds (a ++ b) (la ++ lb).
Proof. intros Ha Hb s. rewrite <- !app_assoc, Ha, Hb. reflexivity. Qed.
Lemma targets_other c s : c <> 93 -> targets (c :: s) = targets s.
Proof.
  intros H. cbn [targets]. replace (drop_prefix (L "](#") (c :: s)) with (@None str); [reflexivity|].
  change (L "](#") with [93; 40; 35]. cbn [drop_prefix]. destruct (93 =? c) eqn:E; [|reflexivity].
  apply N.eqb_eq in E. congruence.
Qed.
Lemma adds_plain x : no_bracket x -> adds x [].
Proof.
  induction x as [|c x IH]; intros H s; [reflexivity|]. cbn [app]. rewrite targets_other.
  - apply IH. intros X. apply H. right. exact X.
  - intros ->. apply H. left. reflexivity.
Qed.
Lemma adds_cat x l : adds x [] -> forall y, adds y l -> adds (x ++ y) l.
Proof. intros H y Hy. apply (adds_app x y [] l H Hy). Qed.
Lemma adds_cat_r x l : adds x l -> forall y, adds y [] -> adds (x ++ y) l.
Proof. intros H y Hy. rewrite <- (app_nil_r l). apply (adds_app x y l [] H Hy). Qed.
(** A bracket that is not followed by "(#". *)
Lemma adds_bracket c x : c <> 40 -> no_bracket (c :: x) -> adds (93 :: c :: x) [].
Proof.
  intros Hc H s. cbn [app]. transitivity (targets (c :: x ++ s)).
  - cbn [targets]. change (L "](#") with [93; 40; 35]. cbn [drop_prefix]. rewrite N.eqb_refl.
    destruct (40 =? c) eqn:E; [apply N.eqb_eq in E; congruence|]. reflexivity.
  - apply (adds_plain (c :: x) H s).
Qed.
Lemma adds_bracket_dots x : no_bracket x -> adds (L "](../" ++ x) [].
Proof.
  intros H s. change (L "](../") with [93; 40; 46; 46; 47]. cbn [app].
  transitivity (targets (40 :: 46 :: 46 :: 47 :: x ++ s)); [reflexivity|].
  apply (adds_plain (40 :: 46 :: 46 :: 47 :: x)). intros X. cbn [In] in X.
  destruct X as [X|[X|[X|[X|X]]]]; try discriminate. exact (H X).
Qed.

Lemma adds_flat_map {A} (f : A -> str) (t : A -> list str) l :
  (forall a, In a l -> adds (f a) (t a)) -> adds (flat_map f l) (flat_map t l).
Proof.
  induction l as [|a l IH]; intros H; [apply adds_nil|]. cbn [flat_map]. apply adds_app.
  - apply H. left. reflexivity.
  - apply IH. intros b Hb. apply H. right. exact Hb.
Qed.
Lemma adds_concat l : forall t, Forall2 adds l t -> adds (concat l) (concat t).
Proof. intros t H. induction H; cbn [concat]; [apply adds_nil|]. apply adds_app; assumption. Qed.

Lemma show_no_bracket n : no_bracket (show_N n).
Proof. apply show_free. reflexivity. Qed.

Ltac lit := let H := fresh in intros H; vm_compute in H; repeat (destruct H as [H|H]; [discriminate|]); exact H.
Ltac plain :=
  lazymatch goal with
  | |- no_bracket (_ ++ _) => apply (proj2 (no_bracket_app _ _)); split; plain
  | |- no_bracket (L ?s) => first [is_var s; assumption | lit]
  | |- no_bracket [_] => lit
  | |- no_bracket [_; _] => lit
  | |- no_bracket (show_N _) => apply show_no_bracket
  | |- _ => assumption
  end.

(** All targets of [x] satisfy [P], whatever follows. *)
Definition within (P : str -> Prop) (x : str) : Prop := exists l, adds x l /\ Forall P l.
Section Within.
  Context (P : str -> Prop).
  Lemma within_plain x : no_bracket x -> within P x.
  Proof. intros H. exists []. split; [apply adds_plain; exact H|constructor]. Qed.
  Lemma within_nil : within P [].
  Proof. exists []. split; [apply adds_nil|constructor]. Qed.
  Lemma within_app a b : within P a -> within P b -> within P (a ++ b).
  Proof.
    intros (la & Ha & Fa) (lb & Hb & Fb). exists (la ++ lb). split; [apply adds_app; assumption|].
    apply Forall_app. split; assumption.
  Qed.
  Lemma within_flat_map {A} (f : A -> str) l : (forall a, In a l -> within P (f a)) -> within P (flat_map f l).
  Proof.
    induction l as [|a l IH]; intros H; [apply within_nil|]. cbn [flat_map]. apply within_app.
    - apply H. left. reflexivity.
    - apply IH. intros b Hb. apply H. right. exact Hb.
  Qed.
  Lemma within_concat l : (forall a, In a l -> within P a) -> within P (concat l).
  Proof. intros H. rewrite <- (map_id l), <- flat_map_concat_map. apply within_flat_map. exact H. Qed.
  Lemma within_targets x t : within P x -> In t (targets x) -> P t.
  Proof.
    intros (l & Ha & F) H. specialize (Ha []). rewrite !app_nil_r in Ha. rewrite Ha in H.
    rewrite Forall_forall in F. exact (F t H).
  Qed.

  Lemma within_dots x : no_bracket x -> within P (L "](../" ++ x).
  Proof. intros H. exists []. split; [apply adds_bracket_dots; exact H|constructor]. Qed.
  Lemma within_bracket c x : c <> 40 -> no_bracket (c :: x) -> within P (93 :: c :: x).
  Proof. intros H1 H2. exists []. split; [apply adds_bracket; assumption|constructor]. Qed.

  Lemma within_location l : plain_location l -> within P (location_link l).
  Proof.
    intros [H1 H2]. unfold location_link. destruct (loc_in_file l) as [[n|n c|s]|];
      repeat first [apply within_dots; solve [plain] | apply within_app; [solve [apply within_plain; plain]|]].
  Qed.
  Lemma plain_show l : plain_location l -> no_bracket (show_location l).
  Proof.
    intros [H1 H2]. unfold show_location, show_in_file. destruct (loc_in_file l) as [[n|n c|s]|]; plain.
  Qed.
  Lemma no_bracket_join sep l : no_bracket sep -> Forall no_bracket l -> no_bracket (join sep l).
  Proof.
    intros Hs H. induction H as [|x l Hx Hl IH]; [intros []|]. cbn [join]. destruct l; [exact Hx|]. plain.
  Qed.
  Lemma within_relation rel c x : plain_relation rel -> c <> 40 -> no_bracket (c :: x) -> within P (show_relation rel ++ c :: x).
  Proof.
    intros [H1 H2] Hc Hx. unfold show_relation.
    assert (HJ : no_bracket (join (L ", ") (rel_lower rel))) by (apply no_bracket_join; [lit|exact H2]).
    rewrite <- !app_assoc. apply within_app; [apply within_plain; exact H1|].
    apply within_app; [apply within_plain; lit|]. apply within_app; [apply within_plain; exact HJ|].
    apply (within_bracket c x Hc Hx).
  Qed.
End Within.

Section Links.
  Context {CT : CaseTables}.

  Lemma until_end_clean a c x : (forall y, In y a -> anchor_char y) -> c = 32 \/ c = 41 -> until_end (a ++ c :: x) = a.
  Proof.
    intros H Hc. induction a as [|y a IH]; cbn [app until_end].
    - destruct Hc as [-> | ->]; reflexivity.
    - assert (Hy : anchor_char y) by (apply H; left; reflexivity). unfold anchor_char in Hy.
      assert (E1 : (y =? 32) = false) by (apply N.eqb_neq; lia).
      assert (E2 : (y =? 41) = false) by (apply N.eqb_neq; lia). rewrite E1, E2. cbn [orb]. f_equal. apply IH.
      intros z Hz. apply H. right. exact Hz.
  Qed.

  (** The target of the link to [r]. *)
  Definition target_of (r : requirement) : str :=
    match req_title r with Some t => slug (req_id r ++ L "-" ++ t) | None => slug (req_id r) end.

  Lemma slug_no_bracket s : no_bracket (slug s).
  Proof. intros H. apply slug_clean in H. unfold anchor_char in H. lia. Qed.

  Lemma adds_target a c x : (forall y, In y a -> anchor_char y) -> c = 32 \/ c = 41 -> no_bracket x ->
    adds (L "](#" ++ a ++ c :: x) [a].
  Proof.
    intros Ha Hc Hx s. change (L "](#") with [93; 40; 35]. cbn [app targets].
    change (L "](#") with [93; 40; 35]. cbn [drop_prefix]. rewrite !N.eqb_refl.
    replace ((a ++ c :: x) ++ s) with (a ++ c :: (x ++ s)) by (rewrite <- app_assoc; reflexivity).
    rewrite (until_end_clean a c (x ++ s) Ha Hc). cbn [app]. f_equal.
    transitivity (targets (40 :: 35 :: (a ++ c :: x) ++ s)).
    - rewrite <- app_assoc. reflexivity.
    - apply (adds_plain (40 :: 35 :: a ++ c :: x)). intros H. cbn [In] in H.
      destruct H as [H|[H|H]]; [discriminate|discriminate|]. apply in_app_iff in H. destruct H as [H|[H|H]].
      + apply Ha in H. unfold anchor_char in H. lia.
      + destruct Hc; subst c; discriminate.
      + exact (Hx H).
  Qed.

  Lemma within_link (P : str -> Prop) r : plain_requirement r -> P (target_of r) -> within P (requirement_link r).
  Proof.
    intros (H1 & H2 & _) HP. unfold requirement_link, target_of in *. destruct (req_title r) as [t|].
    - apply within_app; [apply within_plain; lit|]. apply within_app; [apply within_plain; exact H1|].
      exists [slug (req_id r ++ L "-" ++ t)]. split; [|constructor; [exact HP|constructor]].
      apply (adds_target (slug (req_id r ++ L "-" ++ t)) 32 (DQUOTE :: t ++ [DQUOTE; 41])).
      + intros y. apply slug_clean.
      + left. reflexivity.
      + cbn [plain_title] in H2. change (DQUOTE :: t ++ [DQUOTE; 41]) with ([DQUOTE] ++ t ++ [DQUOTE; 41]). plain.
    - apply within_app; [apply within_plain; lit|]. apply within_app; [apply within_plain; exact H1|].
      exists [slug (req_id r)]. split; [|constructor; [exact HP|constructor]].
      apply (adds_target (slug (req_id r)) 41 []).
      + intros y. apply slug_clean.
      + right. reflexivity.
      + intros [].
  Qed.

  Lemma target_heading r : is_ascii (heading_of r) = true -> target_of r = heading_anchor (heading_of r).
  Proof.
    unfold heading_of, target_of. destruct (req_title r) as [t|]; intros H.
    - assert (E : heading_anchor (req_id r ++ L ": " ++ t) = heading_anchor (req_id r ++ L "-" ++ t)).
      { unfold heading_anchor. rewrite !map_app, !filter_app. reflexivity. }
      rewrite E. apply slug_ascii. rewrite !is_ascii_app in *. apply andb_true_iff in H. destruct H as [H1 H].
      apply andb_true_iff in H. destruct H as [_ H]. rewrite H1, H. reflexivity.
    - rewrite app_nil_r in *. apply slug_ascii. exact H.
  Qed.

  Context (g : graph) (PG : plain_graph g).
  (** The targets of the links to the requirements of the graph. *)
  Definition known_target (t : str) : Prop := exists r, In r (all_reqs g) /\ t = target_of r.

  Lemma known_link r : In r (all_reqs g) -> within known_target (requirement_link r).
  Proof. intros H. apply within_link; [apply PG; exact H|]. exists r. auto. Qed.

  Ltac pieces :=
    lazymatch goal with
    | |- within _ (_ ++ _) => apply within_app; pieces
    | |- within _ [] => apply within_nil
    | |- within _ (requirement_link _) => apply known_link; assumption
    | |- within _ (location_link _) => apply within_location; assumption
    | |- _ => apply within_plain; plain
    end.

  Lemma plain_opt t : plain_title t -> no_bracket (opt_default t []).
  Proof. destruct t; [exact (fun H => H)|intros _ []]. Qed.

  Lemma within_error e : plain_error g e -> within known_target (md_error e).
  Proof.
    assert (HR : forall r, In r (all_reqs g) -> no_bracket (req_id r) /\ no_bracket (opt_default (req_title r) [])).
    { intros r Hr. apply PG in Hr. destruct Hr as (H1 & H2 & _). split; [exact H1|apply plain_opt; exact H2]. }
    assert (HT : no_bracket TICKS) by lit.
    destruct e as [l m|r1 r2|l a r|p m|m|a|a|u l t loc|u l t loc|r loc|r|r id loc|r id loc| |rel]; cbn [plain_error md_error]; intros H.
    - destruct H. pieces.
    - destruct H as [(A1 & _ & A2 & _) (B1 & _ & B2 & _)]. pieces.
    - destruct H as (? & ? & ?). pieces.
    - destruct H. pieces.
    - pieces.
    - pieces.
    - pieces.
    - destruct H as (Hu & Hl & Ht & Hloc). apply plain_show in Hloc. destruct (HR u Hu). pieces.
    - destruct H as (Hu & Hl & Ht & Hloc). apply plain_show in Hloc. destruct (HR l Hl). pieces.
    - destruct H as (Hr & Hloc). apply plain_show in Hloc. pieces.
    - pieces.
    - destruct H as (Hr & Hid & Hloc). pieces.
    - destruct H as (Hr & Hid & Hloc). pieces.
    - pieces.
    - apply within_app; [apply within_plain; lit|].
      apply (within_relation known_target rel 46 (L " (Configuration error?)" ++ [NL]) H); [discriminate|lit].
  Qed.

  Context (WF : graph_wf g).
  Lemma all_reqs_of r : In r (all_reqs g) <-> exists k, In r (reqs_of g k).
  Proof.
    unfold all_reqs. rewrite in_flat_map. split.
    - intros ([k a] & Hin & Hr). exists k. unfold reqs_of. rewrite (In_oget _ _ _ (proj1 WF) Hin). exact Hr.
    - intros (k & Hr). unfold reqs_of in Hr. destruct (oget k (g_artefacts g)) as [a|] eqn:E; [|destruct Hr].
      exists (k, a). split; [apply oget_Some_In; exact E|exact Hr].
  Qed.
  Lemma first_defs_all k r : In r (first_defs g k) -> In r (all_reqs g).
  Proof. intros H. apply all_reqs_of. exists k. unfold first_defs in H. apply filter_In in H. tauto. Qed.
  Lemma first_of_all id r : first_of g id = Some r -> In r (all_reqs g).
  Proof. intros H. apply (first_of_spec g WF) in H. destruct H as (_ & k & a & _ & H). exact (first_defs_all k r H). Qed.

  Lemma link_all rel l : In l (links g rel) ->
    In (lk_upper l) (all_reqs g) /\ In (lk_lower l) (all_reqs g) /\ plain_reference (lk_ref l).
  Proof.
    intros H. apply in_links in H. destruct H as (Hu & _ & Hl & H).
    assert (Au : In (lk_upper l) (all_reqs g)) by (apply all_reqs_of; eauto).
    assert (Al : In (lk_lower l) (all_reqs g)) by exact (first_defs_all _ _ Hl).
    split; [exact Au|]. split; [exact Al|].
    destruct PG as (PR & _). apply PR in Au. apply PR in Al.
    destruct Au as (_ & _ & _ & _ & Du & _). destruct Al as (_ & _ & _ & Cl & _).
    rewrite Forall_forall in Du, Cl. destruct (lk_dir l); destruct H; auto.
  Qed.

  Lemma first_location_plain id l loc : Forall plain_reference l -> first_location id l = Some loc -> plain_location loc.
  Proof.
    intros F H. unfold first_location in H. destruct (find _ l) as [x|] eqn:E; [|discriminate]. apply find_some in E.
    rewrite Forall_forall in F. destruct E as [E _]. apply F in E. destruct E as (_ & _ & E). cbn in H. congruence.
  Qed.

  Context (tg : traced_graph) (TR : trace g = Done tg).
  Lemma tracing_plain e : In e (tg_errors tg) -> plain_error g e.
  Proof.
    destruct (trace_done _ WF _ TR) as (pc & pd & _ & _ & _ & _ & A7 & _ & A9 & A10). rewrite A10. clear A10.
    pose proof PG as (PR & PA & PE).
    intros H. apply in_app_iff in H. destruct H as [H|H]; [|apply in_app_iff in H; destruct H as [H|H];
      [|apply in_app_iff in H; destruct H as [H|H]]].
    - unfold dup_errors in H. apply in_flat_map in H. destruct H as ([k a] & Hka & H). apply in_flat_map in H.
      destruct H as (r & Hr & H). unfold dup_errors_of in H. destruct (defined_before _ _ _); [|destruct H].
      destruct (first_of g (req_id r)) as [r0|] eqn:E; [|destruct H]. destruct H as [<-|[]]. cbn [plain_error]. split; apply PR.
      + exact (first_of_all _ _ E).
      + unfold all_reqs. apply in_flat_map. exists (k, a). auto.
    - apply in_flat_map in H. destruct H as (rel & Hrel & H). unfold relation_errors in H. apply in_app_iff in H.
      destruct H as [H|H].
      + apply in_flat_map in H. destruct H as (l & Hl & H). apply link_all in Hl. destruct Hl as (Hu & Hlo & (_ & Ht & Hloc)).
        unfold link_errors in H. apply in_app_iff in H. destruct H as [H|H].
        * unfold wrong_title_errors in H. destruct (ref_title (lk_ref l)) as [t|]; [|destruct H].
          destruct (option_eqb _ _ _); [destruct H|]. destruct H as [<-|[]]. destruct (lk_dir l); cbn [plain_error]; auto.
        * unfold missing_title_errors in H. destruct (ref_title (lk_ref l)); [destruct H|].
          destruct (wants_title _ _); [|destruct H]. destruct H as [<-|[]]. cbn [plain_error]. split; [|exact Hloc].
          unfold referenced. destruct (lk_dir l); assumption.
      + unfold unused_errors in H. destruct (is_nil _); [|destruct H]. destruct H as [<-|[]]. cbn [plain_error].
        rewrite Forall_forall in PE. exact (PE rel Hrel).
    - apply in_flat_map in H. destruct H as ([u l] & Hp & H). apply A7 in Hp. unfold covers_error in H. cbn [fst snd] in H.
      destruct Hp as ((low & c & Hf & Hc & Hi) & _). rewrite Hf in H.
      destruct (first_location u (req_covers low)) as [loc|] eqn:E; [|destruct H]. destruct H as [<-|[]]. cbn [plain_error].
      pose proof (first_of_all _ _ Hf) as Ha. split; [exact Ha|]. apply PR in Ha. destruct Ha as (_ & _ & _ & Cl & _).
      split; [|exact (first_location_plain _ _ _ Cl E)]. rewrite Forall_forall in Cl. apply Cl in Hc. rewrite <- Hi. apply Hc.
    - apply in_flat_map in H. destruct H as ([u l] & Hp & H). apply A9 in Hp. unfold depends_error in H. cbn [fst snd] in H.
      destruct Hp as ((up & c & Hf & Hc & Hi) & _). rewrite Hf in H.
      destruct (first_location l (req_depends up)) as [loc|] eqn:E; [|destruct H]. destruct H as [<-|[]]. cbn [plain_error].
      pose proof (first_of_all _ _ Hf) as Ha. split; [exact Ha|]. apply PR in Ha. destruct Ha as (_ & _ & _ & _ & Cl & _).
      split; [|exact (first_location_plain _ _ _ Cl E)]. rewrite Forall_forall in Cl. apply Cl in Hc. rewrite <- Hi. apply Hc.
  Qed.

  Lemma within_sections {A} title (name : A -> str) entries l :
    no_bracket (L title) -> (forall a, In a l -> within known_target (md_subheading (name a))) ->
    (forall a x, In a l -> In x (entries a) -> within known_target x) ->
    within known_target (FmtSpec.sections title name entries l).
  Proof.
    intros Ht Hn He. unfold FmtSpec.sections.
    assert (HF : forall a, In a (filter (fun a => negb (is_nil (entries a))) l) -> In a l)
      by (intros a Ha; apply filter_In in Ha; tauto).
    destruct (filter _ l) as [|a0 l0]; [apply within_nil|].
    apply within_app; [apply within_plain; unfold md_headline; plain|]. apply within_flat_map. intros a Ha.
    apply within_app; [apply Hn; auto|]. apply within_concat. intros x Hx. eapply He; eauto.
  Qed.

  Context (UN : unique_ids g) (ag : aggregated_graph) (AG : aggregate tg = Done ag).

  Lemma within_link_item x : In (fst x) (all_reqs g) -> plain_location (snd x) -> within known_target (link_item x).
  Proof. intros H1 H2. unfold link_item. pieces. Qed.

  Lemma links_beside_all r R x : In x (links_above g r R) \/ In x (links_below g r R) ->
    In (fst x) (all_reqs g) /\ plain_location (snd x).
  Proof.
    assert (HL : forall f : link -> requirement, (forall l, f l = lk_upper l \/ f l = lk_lower l) -> forall (p : link -> bool),
       In x (flat_map (fun rel => if eqb rel R then map (fun l => (f l, ref_location (lk_ref l))) (filter p (links g rel)) else [])
               (g_relations g)) -> In (fst x) (all_reqs g) /\ plain_location (snd x)).
    { intros f Hf p H. apply in_flat_map in H. destruct H as (rel & _ & H). destruct (eqb rel R); [|destruct H].
      apply in_map_iff in H. destruct H as (l & <- & H). apply filter_In in H. destruct H as [H _].
      apply link_all in H. destruct H as (Hu & Hl & (_ & _ & Hloc)). cbn [fst snd]. split; [|exact Hloc].
      destruct (Hf l) as [-> | ->]; assumption. }
    intros [H|H]; (eapply HL; [|exact H]); intros l; auto.
  Qed.

  Lemma within_entry k r text : no_bracket k -> In r (all_reqs g) -> entry g k r text -> within known_target text.
  Proof.
    intros Hk Hr (ups & downs & SU & SD & HU & HD & ->). pose proof (proj1 PG r Hr) as (H1 & H2 & H3 & _ & _ & H6).
    rewrite Forall_forall in H6.
    assert (HT : no_bracket (match req_title r with Some t => L ": " ++ t | None => [] end)).
    { destruct (req_title r); [|intros []]. cbn [plain_title] in H2. plain. }
    assert (HF : within known_target (free_text r)).
    { unfold free_text. apply within_app.
      - destruct (oget (L "Description") (req_attributes r)) as [d|] eqn:E; [|apply within_nil].
        apply oget_Some_In in E. apply H6 in E. destruct E as [_ E]. cbn [snd] in E. pieces.
      - apply within_flat_map. intros [n v] Hnv. apply H6 in Hnv. cbn [fst snd] in *. destruct Hnv as [Hn Hv].
        destruct (_ || _); [apply within_nil|].
        assert (Hv' : no_bracket (trim v)) by (intros X; apply Hv; exact (trim_in _ _ X)). pieces. }
    assert (HRel : forall R l, oget R ups = Some l \/ oget R downs = Some l -> plain_relation R /\ within known_target (flat_map link_item l)).
    { intros R l HR. split.
      - pose proof (proj2 (proj2 PG)) as PE. rewrite Forall_forall in PE. apply PE.
        destruct HR as [HR|HR]; [apply HU in HR|apply HD in HR]; tauto.
      - apply within_flat_map. intros x Hx. destruct (links_beside_all r R x) as [A1 A2]; [|apply within_link_item; assumption].
        destruct HR as [HR|HR]; [apply HU in HR|apply HD in HR]; destruct HR as (_ & _ & ->); auto. }
    assert (HX : forall R x, plain_relation R -> within known_target x -> within known_target (L "*   " ++ show_relation R ++ [NL] ++ x)).
    { intros R x HR Hx. apply within_app; [apply within_plain; lit|]. rewrite app_assoc. apply within_app; [|exact Hx].
      apply (within_relation known_target R NL [] HR); [discriminate|lit]. }
    repeat (apply within_app; [solve [apply within_plain; plain | apply within_location; assumption | exact HF]|]).
    apply within_app.
    { apply within_flat_map. intros [R l] Hin. apply In_oget in Hin; [|exact SU]. cbn [fst snd].
      destruct (HRel R l (or_introl Hin)). apply HX; assumption. }
    apply within_app; [destruct (existsb _ ups); [apply within_nil|pieces]|].
    repeat (apply within_app; [solve [apply within_plain; plain]|]).
    apply within_flat_map. intros [R l] Hin. apply In_oget in Hin; [|exact SD]. cbn [fst snd].
    destruct (HRel R l (or_intror Hin)) as [HR1 HR2]. apply HX; [exact HR1|]. destruct l; [pieces|exact HR2].
  Qed.

  Lemma artefact_name k a : In (k, a) (g_artefacts g) -> no_bracket k /\ no_bracket (art_id a).
  Proof.
    intros H. pose proof (proj1 (proj1 (proj2 PG) k a H)) as Hk. split; [exact Hk|].
    rewrite (proj1 (proj2 WF k a H)). exact Hk.
  Qed.

  Lemma within_item r k : In r (reqs_of g k) -> within known_target (item tg r).
  Proof.
    intros H. unfold item. rewrite (unique_shown g tg k r WF TR UN H).
    assert (Hr : In r (all_reqs g)) by (apply all_reqs_of; eauto). pieces.
  Qed.

  Lemma within_subheading x : no_bracket x -> within known_target (md_subheading x).
  Proof. intros H. unfold md_subheading. pieces. Qed.

  Lemma report_targets : within known_target (md_report g tg ag).
  Proof.
    unfold md_report. apply within_app; [|apply within_app; [|apply within_app; [|apply within_app; [|apply within_app]]]].
    - apply within_sections; [lit| |].
      + intros a Ha. apply ovalues_In in Ha. destruct Ha as (k & Ha). apply within_subheading. apply (artefact_name k a Ha).
      + intros a x Ha Hx. apply ovalues_In in Ha. destruct Ha as (k & Ha). apply in_map_iff in Hx. destruct Hx as (e & <- & He).
        apply within_error. destruct (proj1 (proj2 PG) k a Ha) as [_ F]. rewrite Forall_forall in F. exact (F e He).
    - destruct (is_nil (tg_errors tg)); [apply within_nil|]. apply within_app; [apply within_plain; unfold md_headline; plain|].
      apply within_concat. intros x Hx. apply (proj1 (firsts_In x _)) in Hx. apply in_map_iff in Hx. destruct Hx as (e & <- & He).
      apply within_error. apply tracing_plain. exact He.
    - apply within_sections; [lit| |].
      + intros rel Hrel. unfold md_subheading. apply within_app; [apply within_plain; lit|]. apply within_app; [apply within_plain; lit|].
        apply (within_relation known_target rel NL [NL]); [|discriminate|lit].
        pose proof (proj2 (proj2 PG)) as PE. rewrite Forall_forall in PE. exact (PE rel Hrel).
      + intros rel x Hrel Hx. apply in_map_iff in Hx. destruct Hx as (r & <- & Hr).
        apply (within_item r (rel_upper rel)). apply (uncovered_reqs_in g rel r Hr).
    - apply within_sections; [lit| |].
      + intros [k a] Ha. apply within_subheading. apply (artefact_name k a Ha).
      + intros [k a] x Ha Hx. apply in_map_iff in Hx. destruct Hx as (r & <- & Hr). cbn [fst snd] in Hr.
        apply (within_item r k). apply (derived_reqs_in g k a r Hr).
    - apply within_plain. unfold md_headline. plain.
    - apply within_flat_map. intros a Ha. apply ovalues_In in Ha. destruct Ha as (k & Ha).
      destruct (artefact_name k a Ha) as [Hk Hn]. apply within_app; [apply within_plain; lit|].
      apply within_app; [apply within_plain; exact Hn|]. apply within_app; [apply within_plain; lit|].
      apply within_flat_map. intros r Hr.
      assert (Hrk : In r (reqs_of g k)) by (unfold reqs_of; rewrite (In_oget _ _ _ (proj1 WF) Ha); exact Hr).
      destruct (md_entry g tg ag WF TR AG UN k r Hrk) as (t & -> & HE).
      apply (within_entry k r _ Hk); [|exact HE]. apply all_reqs_of. eauto.
  Qed.

  Lemma report_heading r : In r (all_reqs g) -> infix ([NL] ++ L "### " ++ heading_of r ++ [NL]) (md_report g tg ag).
  Proof.
    intros Hr. unfold all_reqs in Hr. apply in_flat_map in Hr. destruct Hr as ([k a] & Ha & Hr). cbn [snd] in Hr.
    assert (Hrk : In r (reqs_of g k)) by (unfold reqs_of; rewrite (In_oget _ _ _ (proj1 WF) Ha); exact Hr).
    destruct (md_entry g tg ag WF TR AG UN k r Hrk) as (t & Et & HE).
    unfold md_report. do 5 apply infix_l.
    eapply infix_trans; [|apply (infix_flat_map _ a)].
    2:{ apply ovalues_In. exists k. exact Ha. }
    cbv beta. do 3 apply infix_l. eapply infix_trans; [|apply (infix_flat_map _ r); exact Hr]. cbv beta. rewrite Et.
    destruct HE as (ups & downs & _ & _ & _ & _ & ->). unfold heading_of. exists [].
    eexists. cbn [app]. rewrite <- !app_assoc. do 6 f_equal. destruct (req_title r); rewrite <- ?app_assoc; reflexivity.
  Qed.

  Lemma no_dead_link t :
    (forall r, In r (all_reqs g) -> is_ascii (heading_of r) = true /\ ~ In NL (heading_of r)) ->
    In t (targets (md_report g tg ag)) ->
    exists h, In h (page_headings (md_report g tg ag)) /\ t = heading_anchor h.
  Proof.
    intros HA H. destruct (within_targets _ _ _ report_targets H) as (r & Hr & ->). exists (heading_of r).
    destruct (HA r Hr) as [H1 H2]. split; [|apply target_heading; exact H1].
    destruct (report_heading r Hr) as (a & b & E). rewrite E. unfold page_headings. apply in_flat_map.
    exists (L "### " ++ heading_of r). split.
    - replace (a ++ ([NL] ++ L "### " ++ heading_of r ++ [NL]) ++ b) with (a ++ NL :: (L "### " ++ heading_of r) ++ NL :: b)
        by (cbn [app]; rewrite <- !app_assoc; reflexivity).
      apply page_line. intros X. apply in_app_iff in X. destruct X as [X|X]; [|exact (H2 X)].
      vm_compute in X. repeat (destruct X as [X|X]; [discriminate|]). exact X.
    - change (drop_prefix (L "### ") (L "### " ++ heading_of r)) with (Some (heading_of r)). left. reflexivity.
  Qed.
End Links.
