(** The outline of the Markdown trace report. *)
From Verif Require Import Base OMap Models Unicode Location LocFacts Show Sort Tracer TraceSpec TraceFacts TraceCor
  Aggregator AggSpec MdFmt FmtSpec FmtFacts EntrySpec FmtCor LinkFacts GnuReadSpec GnuRead OutlineSpec.
Open Scope N_scope.

(** Texts that consist of whole lines, with their headings. *)
Definition shows (s : str) (hs : list (nat * str)) : Prop :=
  exists lines, s = flat_map (fun l => l ++ [NL]) lines /\ (forall l, In l lines -> ~ In NL l) /\ flat_map heading_line lines = hs.

(** A text in lines of its own. *)
Lemma page_lines_text s : flat_map (fun l => l ++ [NL]) (page_lines s) = s ++ [NL] /\ (forall l, In l (page_lines s) -> ~ In NL l) /\
  page_lines s <> [].
Proof.
  induction s as [|c s (IH1 & IH2 & IH3)]; cbn [page_lines].
  - split; [reflexivity|]. split; [intros l [<-|[]] []|discriminate].
  - destruct (page_lines s) as [|l ls]; [congruence|]. destruct (N.eqb_spec c NL) as [->|Hc].
    + split; [cbn [flat_map app] in *; rewrite IH1; reflexivity|]. split; [|discriminate].
      intros x [<-|Hx]; [intros []|apply IH2; exact Hx].
    + split; [cbn [flat_map app] in *; rewrite IH1; reflexivity|]. split; [|discriminate].
      intros x [<-|Hx]; [|apply IH2; right; exact Hx]. intros [E|X]; [congruence|]. exact (IH2 l (or_introl eq_refl) X).
Qed.
Lemma page_lines_line l s : ~ In NL l -> page_lines (l ++ NL :: s) = l :: page_lines s.
Proof.
  induction l as [|c l IH]; intros H; cbn [app page_lines].
  - destruct (page_lines s) eqn:E; [destruct (proj2 (proj2 (page_lines_text s)) E)|rewrite N.eqb_refl; reflexivity].
  - rewrite IH by (intros X; apply H; right; exact X). destruct (N.eqb_spec c NL) as [->|_]; [elim H; left; reflexivity|reflexivity].
Qed.
Lemma page_lines_all lines : (forall l, In l lines -> ~ In NL l) -> page_lines (flat_map (fun l => l ++ [NL]) lines) = lines ++ [[]].
Proof.
  induction lines as [|l lines IH]; intros H; [reflexivity|]. cbn [flat_map app]. rewrite <- app_assoc. cbn [app].
  rewrite page_lines_line by (apply H; left; reflexivity). f_equal. apply IH. intros x Hx. apply H. right. exact Hx.
Qed.
Lemma shows_outline s hs : shows s hs -> outline s = hs.
Proof.
  intros (lines & -> & H1 & H2). unfold outline. rewrite page_lines_all by exact H1. rewrite flat_map_app. cbn [flat_map heading_line app]. rewrite app_nil_r. exact H2.
Qed.

Lemma shows_nil : shows [] [].
Proof. exists []. repeat split. intros l []. Qed.
Lemma shows_app s t hs ks : shows s hs -> shows t ks -> shows (s ++ t) (hs ++ ks).
Proof.
  intros (l1 & -> & A1 & <-) (l2 & -> & B1 & <-). exists (l1 ++ l2). rewrite !flat_map_app. split; [reflexivity|]. split; [|reflexivity].
  intros l H. apply in_app_iff in H. destruct H; auto.
Qed.
Lemma shows_plain s t ks : shows s [] -> shows t ks -> shows (s ++ t) ks.
Proof. apply shows_app. Qed.
Lemma shows_line l hs : one_line l -> heading_line l = hs -> shows (l ++ [NL]) hs.
Proof.
  intros H E. exists [l]. split; [cbn; rewrite app_nil_r; reflexivity|]. split; [intros x [<-|[]]; exact H|].
  cbn. rewrite app_nil_r. exact E.
Qed.
Lemma shows_next l s hs : one_line l -> heading_line l = [] -> shows s hs -> shows (l ++ [NL] ++ s) hs.
Proof. intros H E Hs. rewrite app_assoc. apply shows_plain; [apply shows_line; assumption|exact Hs]. Qed.
Lemma shows_blank s hs : shows s hs -> shows ([NL] ++ s) hs.
Proof. intros H. apply (shows_next [] s hs); [intros []|reflexivity|exact H]. Qed.
Lemma shows_head l s h hs : one_line l -> heading_line l = [h] -> shows s hs -> shows (l ++ [NL] ++ s) (h :: hs).
Proof. intros H E Hs. rewrite app_assoc. apply (shows_app _ _ [h]); [apply shows_line; assumption|exact Hs]. Qed.
Lemma shows_flat_map {A} (f : A -> str) (h : A -> list (nat * str)) l :
  (forall a, In a l -> shows (f a) (h a)) -> shows (flat_map f l) (flat_map h l).
Proof.
  induction l as [|a l IH]; intros H; [apply shows_nil|]. cbn [flat_map].
  apply shows_app; [apply H; left; reflexivity|]. apply IH. intros b Hb. apply H. right. exact Hb.
Qed.
Lemma shows_flat_nil {A} (f : A -> str) l : (forall a, In a l -> shows (f a) []) -> shows (flat_map f l) [].
Proof.
  intros H. replace (@nil (nat * str)) with (flat_map (fun _ : A => @nil (nat * str)) l); [apply shows_flat_map; exact H|].
  clear H. induction l; [reflexivity|exact IHl].
Qed.
Lemma shows_concat l : (forall x, In x l -> shows x []) -> shows (concat l) [].
Proof. intros H. rewrite <- (map_id l), <- flat_map_concat_map. apply shows_flat_nil. exact H. Qed.

Lemma shows_text s hs ks t : outline s = hs -> shows t ks -> shows (s ++ [NL] ++ t) (hs ++ ks).
Proof.
  intros H Ht. rewrite app_assoc. apply shows_app; [|exact Ht]. destruct (page_lines_text s) as (E1 & E2 & _).
  exists (page_lines s). split; [congruence|]. split; [exact E2|exact H].
Qed.

(** Line by line. *)
Ltac lines_in :=
  match goal with
  | |- shows [] _ => apply shows_nil
  | |- shows (?a ++ [NL]) _ => apply shows_line; [one|reflexivity]
  | |- shows (?a ++ [NL] ++ ?r) _ => apply shows_next; [one|reflexivity|]
  | |- shows (?a ++ ?x ++ ?y) _ => rewrite (app_assoc a x y)
  end.

Section OutlineReport.
  Context {CT : CaseTables}.

  Lemma slug_line s : one_line (slug s).
  Proof. intros H. apply slug_clean in H. unfold anchor_char, NL in H. lia. Qed.
  Lemma number_line n : one_line (show_N n).
  Proof. intros H. apply show_N_in in H. unfold NL in H. lia. Qed.
  Lemma link_line r : requirement_line r -> one_line (requirement_link r).
  Proof.
    intros (H1 & H2 & _). unfold requirement_link, DQUOTE. destruct (req_title r) as [t|]; cbn [title_line] in H2.
    - pose proof (slug_line (req_id r ++ L "-" ++ t)). one.
    - pose proof (slug_line (req_id r)). one.
  Qed.
  Lemma place_line l : location_line l -> one_line (location_link l).
  Proof.
    intros (H1 & H2). unfold location_link. destruct (loc_in_file l) as [[n|n c|s]|].
    - pose proof (number_line n). one.
    - pose proof (number_line n). pose proof (number_line c). one.
    - one.
    - one.
  Qed.
  Lemma place_text l : location_line l -> one_line (show_location l).
  Proof.
    intros (H1 & H2). unfold show_location. destruct (loc_in_file l) as [[n|n c|s]|]; cbn [show_in_file].
    - pose proof (number_line n). one.
    - pose proof (number_line n). pose proof (number_line c). one.
    - one.
    - one.
  Qed.
  Lemma relation_text rel : relation_line rel -> one_line (show_relation rel).
  Proof.
    intros (H1 & H2). unfold show_relation. assert (one_line (join (L ", ") (rel_lower rel))) by (apply join_one; [one|exact H2]). one.
  Qed.

  Lemma title_text_line t : title_line t -> one_line (opt_default t []).
  Proof. destruct t; [auto|intros _ []]. Qed.

  Lemma error_shows e : error_line e -> shows (md_error e) [].
  Proof.
    destruct e; cbn [error_line md_error]; intros H;
      repeat match goal with
             | H : _ /\ _ |- _ => destruct H
             | H : requirement_line ?r |- _ =>
                 pose proof (link_line r H); pose proof (proj1 H); pose proof (title_text_line _ (proj1 (proj2 H)));
                 pose proof (place_line _ (proj1 (proj2 (proj2 H)))); clear H
             | H : location_line ?l |- _ => pose proof (place_line l H); pose proof (place_text l H); clear H
             | H : relation_line ?l |- _ => pose proof (relation_text l H); clear H
             end; unfold TICKS; repeat lines_in.
    apply shows_line; [one|]. unfold heading_line. cbn. destruct p as [|c p]; [reflexivity|].
    cbn [starts_with_c] in *. cbn [hashes]. destruct (N.eqb_spec c HASH); [|reflexivity].
    subst c. discriminate.
  Qed.

  Context (g : graph) (WF : graph_wf g) (tg : traced_graph) (TR : trace g = Done tg) (PT : plain_texts g).

  Lemma reqs_lines k r : In r (reqs_of g k) -> requirement_line r /\ body_ok r.
  Proof. intros H. apply PT. exact (reqs_all g k r H). Qed.

  Lemma first_location_line id l loc : Forall reference_line l -> first_location id l = Some loc -> location_line loc.
  Proof.
    intros F H. unfold first_location in H. destruct (find _ l) as [x|] eqn:E; [|discriminate]. apply find_some in E.
    rewrite Forall_forall in F. destruct E as [E _]. apply F in E. destruct E as (_ & _ & E). cbn in H. congruence.
  Qed.

  Lemma link_lines rel l : In l (links g rel) ->
    requirement_line (lk_upper l) /\ requirement_line (lk_lower l) /\ reference_line (lk_ref l).
  Proof.
    intros H. apply in_links in H. destruct H as (Hu & _ & Hl & H).
    assert (Au : requirement_line (lk_upper l)) by exact (proj1 (reqs_lines _ _ Hu)).
    assert (Al : requirement_line (lk_lower l)) by (apply PT; exact (defs_all g _ _ Hl)).
    split; [exact Au|]. split; [exact Al|].
    destruct Au as (_ & _ & _ & _ & Du). destruct Al as (_ & _ & _ & Cl & _).
    rewrite Forall_forall in Du, Cl. destruct (lk_dir l); destruct H; auto.
  Qed.

  Lemma tracing_lines e : In e (tg_errors tg) -> error_line e.
  Proof.
    destruct (trace_done _ WF _ TR) as (pc & pd & _ & _ & _ & _ & A7 & _ & A9 & A10). rewrite A10. clear A10.
    pose proof PT as (PR & _ & PL & _).
    intros H. apply in_app_iff in H. destruct H as [H|H]; [|apply in_app_iff in H; destruct H as [H|H];
      [|apply in_app_iff in H; destruct H as [H|H]]].
    - unfold dup_errors in H. apply in_flat_map in H. destruct H as ([k a] & Hka & H). apply in_flat_map in H.
      destruct H as (r & Hr & H). unfold dup_errors_of in H. destruct (defined_before _ _ _); [|destruct H].
      destruct (first_of g (req_id r)) as [r0|] eqn:E; [|destruct H]. destruct H as [<-|[]]. cbn [error_line]. split; apply PR.
      + exact (first_all g _ _ E).
      + unfold all_reqs. apply in_flat_map. exists (k, a). auto.
    - apply in_flat_map in H. destruct H as (rel & Hrel & H). unfold relation_errors in H. apply in_app_iff in H.
      destruct H as [H|H].
      + apply in_flat_map in H. destruct H as (l & Hl & H). apply link_lines in Hl. destruct Hl as (Hu & Hlo & (_ & Ht & Hloc)).
        unfold link_errors in H. apply in_app_iff in H. destruct H as [H|H].
        * unfold wrong_title_errors in H. destruct (ref_title (lk_ref l)) as [t|]; [|destruct H].
          destruct (option_eqb _ _ _); [destruct H|]. destruct H as [<-|[]]. destruct (lk_dir l); cbn [error_line]; auto.
        * unfold missing_title_errors in H. destruct (ref_title (lk_ref l)); [destruct H|].
          destruct (wants_title _ _); [|destruct H]. destruct H as [<-|[]]. cbn [error_line]. split; [|exact Hloc].
          unfold referenced. destruct (lk_dir l); assumption.
      + unfold unused_errors in H. destruct (is_nil _); [|destruct H]. destruct H as [<-|[]]. cbn [error_line]. auto.
    - apply in_flat_map in H. destruct H as ([u l] & Hp & H). apply A7 in Hp. unfold covers_error in H. cbn [fst snd] in H.
      destruct Hp as ((low & c & Hf & Hc & Hi) & _). rewrite Hf in H.
      destruct (first_location u (req_covers low)) as [loc|] eqn:E; [|destruct H]. destruct H as [<-|[]]. cbn [error_line].
      pose proof (proj1 (PR _ (first_all g _ _ Hf))) as Ha. split; [exact Ha|]. destruct Ha as (_ & _ & _ & Cl & _).
      split; [|exact (first_location_line _ _ _ Cl E)]. rewrite Forall_forall in Cl. apply Cl in Hc. rewrite <- Hi. apply Hc.
    - apply in_flat_map in H. destruct H as ([u l] & Hp & H). apply A9 in Hp. unfold depends_error in H. cbn [fst snd] in H.
      destruct Hp as ((up & c & Hf & Hc & Hi) & _). rewrite Hf in H.
      destruct (first_location l (req_depends up)) as [loc|] eqn:E; [|destruct H]. destruct H as [<-|[]]. cbn [error_line].
      pose proof (proj1 (PR _ (first_all g _ _ Hf))) as Ha. split; [exact Ha|]. destruct Ha as (_ & _ & _ & _ & Cl).
      split; [|exact (first_location_line _ _ _ Cl E)]. rewrite Forall_forall in Cl. apply Cl in Hc. rewrite <- Hi. apply Hc.
  Qed.

  Lemma headline_shows title s hs : one_line (L title) -> shows s hs -> shows (md_headline title ++ s) ((1%nat, L title) :: hs).
  Proof.
    intros H Hs. unfold md_headline. change ([NL; NL] ++ L "# " ++ L title ++ [NL; NL]) with ([NL] ++ [NL] ++ L "# " ++ L title ++ [NL] ++ [NL]).
    rewrite <- !app_assoc. do 2 apply shows_blank. rewrite app_assoc. apply shows_head; [one|reflexivity|]. apply shows_blank. exact Hs.
  Qed.
  Lemma subheading_shows name s hs : one_line name -> shows s hs -> shows (md_subheading name ++ s) ((2%nat, name) :: hs).
  Proof.
    intros H Hs. unfold md_subheading. change ([NL] ++ L "## " ++ name ++ [NL; NL]) with ([NL] ++ L "## " ++ name ++ [NL] ++ [NL]).
    rewrite <- !app_assoc. apply shows_blank. rewrite app_assoc. apply shows_head; [one|reflexivity|]. apply shows_blank. exact Hs.
  Qed.

  Lemma sections_shows {A} title (name : A -> str) entries l :
    one_line (L title) -> (forall a, In a l -> one_line (name a)) -> (forall a x, In a l -> In x (entries a) -> shows x []) ->
    shows (FmtSpec.sections title name entries l) (group title name (filter (fun a => negb (is_nil (entries a))) l)).
  Proof.
    intros Ht Hn He. unfold FmtSpec.sections.
    assert (HF : forall a, In a (filter (fun a => negb (is_nil (entries a))) l) -> In a l)
      by (intros a Ha; apply filter_In in Ha; tauto).
    destruct (filter _ l) as [|a0 l0]; [apply shows_nil|]. unfold group. apply headline_shows; [exact Ht|].
    replace (map (fun a => (2%nat, name a)) (a0 :: l0)) with (flat_map (fun a => [(2%nat, name a)]) (a0 :: l0))
      by (generalize (a0 :: l0); intros q; induction q as [|x q IH]; [reflexivity|cbn; rewrite IH; reflexivity]).
    apply shows_flat_map. intros a Ha. apply subheading_shows; [apply Hn; auto|]. apply shows_concat. intros x Hx. eapply He; eauto.
  Qed.

  Context (UN : unique_ids g) (ag : aggregated_graph) (AG : aggregate tg = Done ag).

  Lemma link_item_shows x : requirement_line (fst x) -> location_line (snd x) -> shows (link_item x) [].
  Proof. intros H1 H2. pose proof (link_line _ H1). pose proof (place_line _ H2). unfold link_item. repeat lines_in. Qed.

  Lemma links_beside_lines r R x : In x (links_above g r R) \/ In x (links_below g r R) ->
    requirement_line (fst x) /\ location_line (snd x).
  Proof.
    assert (HL : forall f : link -> requirement, (forall l, f l = lk_upper l \/ f l = lk_lower l) -> forall (p : link -> bool),
       In x (flat_map (fun rel => if eqb rel R then map (fun l => (f l, ref_location (lk_ref l))) (filter p (links g rel)) else [])
               (g_relations g)) -> requirement_line (fst x) /\ location_line (snd x)).
    { intros f Hf p H. apply in_flat_map in H. destruct H as (rel & _ & H). destruct (eqb rel R); [|destruct H].
      apply in_map_iff in H. destruct H as (l & <- & H). apply filter_In in H. destruct H as [H _].
      apply link_lines in H. destruct H as (Hu & Hl & (_ & _ & Hloc)). cbn [fst snd]. split; [|exact Hloc].
      destruct (Hf l) as [-> | ->]; assumption. }
    intros [H|H]; (eapply HL; [|exact H]); intros l; auto.
  Qed.

  Lemma free_text_shows r : body_ok r -> shows (free_text r) [].
  Proof.
    intros HB. unfold free_text. apply shows_plain.
    - destruct (oget (L "Description") (req_attributes r)) as [d|] eqn:E; [|apply shows_nil].
      apply oget_Some_In in E. apply HB in E. rewrite eqb_refl in E.
      change ([NL; NL] ++ d ++ [NL]) with ([NL] ++ [NL] ++ d ++ [NL] ++ []). do 2 apply shows_blank.
      apply (shows_text d [] []); [exact E|apply shows_nil].
    - apply shows_flat_nil. intros [k v] Hkv. apply HB in Hkv. cbn [fst snd]. destruct (eqb k (L "Description")); [apply shows_nil|].
      cbn [orb]. destruct (is_nil (trim v)); [apply shows_nil|]. destruct Hkv as (H1 & H2 & H3).
      apply shows_blank. rewrite app_assoc. apply shows_next; [one|exact H2|].
      apply (shows_text (trim v) [] []); [exact H3|apply shows_nil].
  Qed.

  Lemma entry_shows k r text : one_line k -> In r (all_reqs g) -> EntrySpec.entry g k r text -> shows text [(3%nat, heading_of r)].
  Proof.
    intros Hk Hr (ups & downs & SU & SD & HU & HD & ->). destruct (proj1 PT r Hr) as (HL & HB).
    pose proof HL as (H1 & H2 & H3 & _).
    assert (HH : one_line (heading_of r)).
    { unfold heading_of. destruct (req_title r) as [t|]; cbn [title_line] in H2; one. }
    assert (HRel : forall R l, oget R ups = Some l \/ oget R downs = Some l -> one_line (show_relation R) /\ shows (flat_map link_item l) []).
    { intros R l HR. split.
      - apply relation_text. apply PT. destruct HR as [HR|HR]; [apply HU in HR|apply HD in HR]; tauto.
      - apply shows_flat_nil. intros x Hx. destruct (links_beside_lines r R x) as [A1 A2]; [|apply link_item_shows; assumption].
        destruct HR as [HR|HR]; [apply HU in HR|apply HD in HR]; destruct HR as (_ & _ & ->); auto. }
    assert (HX : forall R x, one_line (show_relation R) -> shows x [] -> shows (L "*   " ++ show_relation R ++ [NL] ++ x) []).
    { intros R x HR Hx. rewrite app_assoc. apply shows_next; [one|reflexivity|exact Hx]. }
    pose proof (place_line _ H3) as HP.
    apply shows_blank.
    match goal with |- shows (L "### " ++ req_id r ++ ?m ++ [NL; NL] ++ ?x) _ =>
      replace (L "### " ++ req_id r ++ m ++ [NL; NL] ++ x) with ((L "### " ++ heading_of r) ++ [NL] ++ [NL] ++ x)
    end.
    2:{ unfold heading_of. rewrite <- !app_assoc. reflexivity. }
    apply shows_head; [one|reflexivity|]. apply shows_blank.
    match goal with |- shows (?a ++ ?b ++ ?c ++ ?d ++ [NL] ++ ?x) _ =>
      replace (a ++ b ++ c ++ d ++ [NL] ++ x) with ((a ++ b ++ c ++ d) ++ [NL] ++ x) by (rewrite <- !app_assoc; reflexivity) end.
    apply shows_next; [one|reflexivity|].
    apply shows_plain; [apply free_text_shows; exact HB|].
    apply shows_blank. apply shows_next; [one|reflexivity|].
    apply shows_plain.
    { apply shows_flat_nil. intros [R l] Hin. apply In_oget in Hin; [|exact SU]. cbn [fst snd].
      destruct (HRel R l (or_introl Hin)). apply HX; assumption. }
    apply shows_plain; [destruct (existsb _ ups); [apply shows_nil|lines_in]|].
    apply shows_blank. apply shows_next; [one|reflexivity|].
    apply shows_flat_nil. intros [R l] Hin. apply In_oget in Hin; [|exact SD]. cbn [fst snd].
    destruct (HRel R l (or_intror Hin)) as [HR1 HR2]. apply HX; [exact HR1|]. destruct l; [lines_in|exact HR2].
  Qed.

  Lemma artefact_line k a : In (k, a) (g_artefacts g) -> one_line k /\ art_id a = k.
  Proof.
    intros H. split; [|apply (proj1 (proj2 WF k a H))]. apply PT. unfold okeys. apply (in_map fst) in H. exact H.
  Qed.

  Lemma item_shows r k : In r (reqs_of g k) -> shows (item tg r) [].
  Proof.
    intros H. unfold item. rewrite (unique_shown g tg k r WF TR UN H). destruct (reqs_lines k r H) as (HL & _).
    pose proof (link_line r HL). repeat lines_in.
  Qed.

  Lemma group_values {B} title (q : artefact -> list B) :
    group title art_id (filter (fun a => negb (is_nil (q a))) (ovalues (g_artefacts g))) =
    group title fst (filter (fun e => negb (is_nil (q (snd e)))) (g_artefacts g)).
  Proof.
    assert (H : forall l, (forall k a, In (k, a) l -> art_id a = k) ->
      map art_id (filter (fun a => negb (is_nil (q a))) (map snd l)) = map fst (filter (fun e => negb (is_nil (q (snd e)))) l)).
    { induction l as [|[k a] l IH]; intros H; [reflexivity|]. cbn [map filter snd].
      assert (IH' := IH (fun k' a' X => H k' a' (or_intror X))). destruct (is_nil (q a)); cbn [negb]; [exact IH'|].
      cbn [map fst]. rewrite IH', (H k a (or_introl eq_refl)). reflexivity. }
    specialize (H (g_artefacts g) (fun k a X => proj2 (artefact_line k a X))).
    unfold group, ovalues. fold (@snd artefact_id artefact).
    apply (f_equal (map (fun k : str => (2%nat, k)))) in H. rewrite !map_map in H.
    destruct (filter _ (map snd _)), (filter _ (g_artefacts g)); cbn [map] in *; try discriminate; [reflexivity|]. rewrite H. reflexivity.
  Qed.

  Lemma input_errors_shows :
    shows (FmtSpec.sections "Input Errors" art_id (fun a => map md_error (art_errors a)) (ovalues (g_artefacts g)))
      (group "Input Errors" fst (filter (fun e => negb (is_nil (art_errors (snd e)))) (g_artefacts g))).
  Proof.
    rewrite <- (group_values "Input Errors" art_errors).
    replace (filter (fun a => negb (is_nil (art_errors a))) (ovalues (g_artefacts g))) with
      (filter (fun a => negb (is_nil (map md_error (art_errors a)))) (ovalues (g_artefacts g)))
      by (apply filter_ext; intros a; destruct (art_errors a); reflexivity).
    apply sections_shows; [one| |].
    + intros a Ha. apply ovalues_In in Ha. destruct Ha as (k & Ha). destruct (artefact_line k a Ha) as [H ->]. exact H.
    + intros a x Ha Hx. apply ovalues_In in Ha. destruct Ha as (k & Ha). apply in_map_iff in Hx. destruct Hx as (e & <- & He).
      apply error_shows. apply PT. unfold all_errors. apply in_flat_map. exists (k, a). auto.
  Qed.

  Lemma references_shows name l : one_line (L name) -> heading_line (L name ++ L ":") = [] -> Forall reference_line l ->
    shows (md_references name l) [].
  Proof.
    intros Hn Hh F. unfold md_references. destruct l as [|x0 l0]; [apply shows_nil|]. apply shows_blank. rewrite app_assoc.
    apply shows_next; [one|exact Hh|]. apply shows_flat_nil. intros x Hx. rewrite Forall_forall in F. apply F in Hx.
    destruct Hx as (H1 & H2 & _). unfold md_reference. destruct (ref_title x) as [t|]; cbn [title_line] in H2; repeat lines_in.
  Qed.

  Lemma requirement_shows r : requirement_line r -> body_ok r ->
    shows (md_requirement r) [(3%nat, req_id r ++ L ": " ++ opt_default (req_title r) [])].
  Proof.
    intros HL HB. pose proof HL as (H1 & H2 & H3 & H4 & H5). pose proof (title_text_line _ H2) as HT. pose proof (place_line _ H3) as HP.
    unfold md_requirement. apply shows_blank.
    match goal with |- shows (?a ++ ?b ++ ?c ++ ?d ++ [NL; NL] ++ ?x) _ =>
      replace (a ++ b ++ c ++ d ++ [NL; NL] ++ x) with ((a ++ b ++ c ++ d) ++ [NL] ++ [NL] ++ x) by (rewrite <- !app_assoc; reflexivity) end.
    apply shows_head; [one|reflexivity|]. apply shows_blank. rewrite app_assoc. apply shows_next; [one|reflexivity|].
    apply shows_plain.
    { unfold md_description. destruct (oget (L "Description") (req_attributes r)) as [d|] eqn:E; [|apply shows_nil].
      apply oget_Some_In in E. apply HB in E. rewrite eqb_refl in E.
      change ([NL; NL] ++ d ++ [NL]) with ([NL] ++ [NL] ++ d ++ [NL] ++ []). do 2 apply shows_blank.
      apply (shows_text d [] []); [exact E|apply shows_nil]. }
    apply shows_plain; [apply references_shows; [one|reflexivity|exact H4]|].
    apply shows_plain; [apply references_shows; [one|reflexivity|exact H5]|].
    apply shows_flat_nil. intros [k v] Hkv. apply HB in Hkv. unfold md_attribute. destruct (eqb k (L "Description")); [apply shows_nil|].
    destruct Hkv as (A1 & A2 & A3). destruct (trim v) as [|c v'] eqn:E; [apply shows_nil|]. rewrite <- E in *.
    apply shows_blank. rewrite app_assoc. apply shows_next; [one|exact A2|].
    apply (shows_text (trim v) [] []); [exact A3|apply shows_nil].
  Qed.

  Theorem export_shows rs : (forall r, In r rs -> In r (all_reqs g)) -> shows (md_export g rs) (export_outline g rs).
  Proof.
    intros H. unfold md_export, export_outline. apply shows_app; [exact input_errors_shows|].
    change (map (fun r => (3%nat, req_id r ++ L ": " ++ opt_default (req_title r) [])) rs)
      with (flat_map (fun r => [(3%nat, req_id r ++ L ": " ++ opt_default (req_title r) [])]) rs).
    apply shows_flat_map. intros r Hr. apply H in Hr. apply PT in Hr. destruct Hr. apply requirement_shows; assumption.
  Qed.

  Theorem report_shows : shows (md_report g tg ag) (report_outline g (tg_errors tg)).
  Proof.
    unfold md_report, report_outline. apply shows_app; [|apply shows_app; [|apply shows_app; [|apply shows_app]]].
    - exact input_errors_shows.
    - destruct (tg_errors tg) as [|e0 es] eqn:E; cbn [is_nil]; [apply shows_nil|]. apply headline_shows; [one|].
      apply shows_concat. intros x Hx. rewrite <- E in Hx. apply (proj1 (firsts_In x _)) in Hx. apply in_map_iff in Hx.
      destruct Hx as (e & <- & He). apply error_shows. apply tracing_lines. exact He.
    - replace (filter (fun rel => negb (is_nil (uncovered_reqs g rel))) (g_relations g)) with
        (filter (fun rel => negb (is_nil (map (item tg) (uncovered_reqs g rel)))) (g_relations g))
        by (apply filter_ext; intros a; destruct (uncovered_reqs g a); reflexivity).
      apply sections_shows; [one| |].
      + intros rel Hrel. apply relation_text. apply PT. exact Hrel.
      + intros rel x Hrel Hx. apply in_map_iff in Hx. destruct Hx as (r & <- & Hr).
        apply (item_shows r (rel_upper rel)). apply (uncovered_reqs_in g rel r Hr).
    - replace (filter (fun e => negb (is_nil (derived_reqs g (fst e) (snd e)))) (g_artefacts g)) with
        (filter (fun e => negb (is_nil (map (item tg) (derived_reqs g (fst e) (snd e))))) (g_artefacts g))
        by (apply filter_ext; intros e; destruct (derived_reqs g (fst e) (snd e)); reflexivity).
      apply sections_shows; [one| |].
      + intros [k a] Ha. apply (artefact_line k a Ha).
      + intros [k a] x Ha Hx. apply in_map_iff in Hx. destruct Hx as (r & <- & Hr). cbn [fst snd] in Hr.
        apply (item_shows r k). apply (derived_reqs_in g k a r Hr).
    - apply headline_shows; [one|].
      replace (flat_map (fun e => (2%nat, fst e) :: map (fun r => (3%nat, heading_of r)) (ovalues (art_requirements (snd e)))) (g_artefacts g))
        with (flat_map (fun a => (2%nat, art_id a) :: flat_map (fun r => [(3%nat, heading_of r)]) (ovalues (art_requirements a))) (ovalues (g_artefacts g))).
      2:{ unfold ovalues at 2. rewrite !flat_map_concat_map, map_map. f_equal. apply map_ext_in. intros [k a] Ha. cbn [fst snd].
          rewrite (proj2 (artefact_line k a Ha)). reflexivity. }
      apply shows_flat_map. intros a Ha. apply ovalues_In in Ha. destruct Ha as (k & Ha).
      destruct (artefact_line k a Ha) as [Hk ->]. rewrite app_assoc. apply shows_head; [one|reflexivity|].
      apply shows_flat_map. intros r Hr.
      assert (Hrk : In r (reqs_of g k)) by (unfold reqs_of; rewrite (In_oget _ _ _ (proj1 WF) Ha); exact Hr).
      destruct (md_entry g tg ag WF TR AG UN k r Hrk) as (t & -> & HE).
      apply (entry_shows k r _ Hk); [|exact HE]. exact (reqs_all g k r Hrk).
  Qed.
End OutlineReport.

(** The headlines of the outline. *)
Section Headlines.
  Context (g : graph) (errs : list error).

  Lemma group_one {A} title (name : A -> str) l t : In (1%nat, t) (group title name l) <-> l <> [] /\ t = L title.
  Proof.
    unfold group. destruct l as [|a l]; [split; [intros []|intros [H _]; congruence]|]. split.
    - intros [E|H]; [split; congruence|]. apply in_map_iff in H. destruct H as (x & E & _). discriminate.
    - intros [_ ->]. left. reflexivity.
  Qed.
  Lemma group_three {A} title (name : A -> str) l t : ~ In (3%nat, t) (group title name l).
  Proof.
    unfold group. destruct l as [|a l]; [intros []|]. intros [E|H]; [discriminate|].
    apply in_map_iff in H. destruct H as (x & E & _). discriminate.
  Qed.
  Lemma filter_some {A B} (q : A -> list B) l : filter (fun a => negb (is_nil (q a))) l <> [] <-> exists a b, In a l /\ In b (q a).
  Proof.
    split.
    - intros H. destruct (filter _ l) as [|a l'] eqn:E; [congruence|].
      assert (Ha : In a (filter (fun a => negb (is_nil (q a))) l)) by (rewrite E; left; reflexivity).
      apply filter_In in Ha. destruct Ha as [Ha Hq]. destruct (q a) as [|b bs] eqn:Eq; [discriminate|].
      exists a, b. split; [exact Ha|]. rewrite Eq. left. reflexivity.
    - intros (a & b & Ha & Hb) E. assert (X : In a (filter (fun a => negb (is_nil (q a))) l)).
      { apply filter_In. split; [exact Ha|]. destruct (q a); [destruct Hb|reflexivity]. }
      rewrite E in X. destruct X.
  Qed.

  Lemma rest_levels n t :
    In (n, t) (flat_map (fun e => (2%nat, fst e) :: map (fun r => (3%nat, heading_of r)) (ovalues (art_requirements (snd e)))) (g_artefacts g)) ->
    (n = 2%nat \/ n = 3%nat).
  Proof.
    intros H. apply in_flat_map in H. destruct H as (e & _ & [H|H]); [left; congruence|].
    apply in_map_iff in H. destruct H as (r & H & _). right. congruence.
  Qed.
  Lemma rest_three t :
    In (3%nat, t) (flat_map (fun e => (2%nat, fst e) :: map (fun r => (3%nat, heading_of r)) (ovalues (art_requirements (snd e)))) (g_artefacts g)) <->
    exists r, In r (all_reqs g) /\ t = heading_of r.
  Proof.
    unfold all_reqs. rewrite in_flat_map. split.
    - intros (e & He & [H|H]); [discriminate|]. apply in_map_iff in H. destruct H as (r & H & Hr). exists r. split; [|congruence].
      apply in_flat_map. eauto.
    - intros (r & Hr & ->). apply in_flat_map in Hr. destruct Hr as (e & He & Hr). exists e. split; [exact He|]. right.
      apply in_map_iff. eauto.
  Qed.

  Lemma outline_one t : In (1%nat, t) (report_outline g errs) <->
    (t = L "Input Errors" /\ all_errors g <> []) \/ (t = L "Tracing Errors" /\ errs <> []) \/
    (t = L "Uncovered Requirements" /\ exists rel r, In rel (g_relations g) /\ In r (uncovered_reqs g rel)) \/
    (t = L "Derived Requirements" /\ exists k a r, In (k, a) (g_artefacts g) /\ In r (derived_reqs g k a)) \/ t = L "Requirements".
  Proof.
    unfold report_outline. rewrite !in_app_iff, !group_one, !filter_some.
    assert (HE : (exists (a : artefact_id * artefact) b, In a (g_artefacts g) /\ In b (art_errors (snd a))) <-> all_errors g <> []).
    { unfold all_errors. split.
      - intros (a & b & Ha & Hb) E. assert (X : In b (flat_map (fun e => art_errors (snd e)) (g_artefacts g))) by (apply in_flat_map; eauto).
        rewrite E in X. destruct X.
      - intros H. destruct (flat_map _ _) as [|b l] eqn:E; [congruence|].
        assert (X : In b (flat_map (fun e => art_errors (snd e)) (g_artefacts g))) by (rewrite E; left; reflexivity).
        apply in_flat_map in X. destruct X as (a & Ha & Hb). eauto. }
    rewrite HE.
    assert (HD : (exists (a : artefact_id * artefact) b, In a (g_artefacts g) /\ In b (derived_reqs g (fst a) (snd a))) <->
                 exists k a r, In (k, a) (g_artefacts g) /\ In r (derived_reqs g k a)).
    { split; [intros ([k a] & b & H); eauto|intros (k & a & r & H); exists (k, a), r; exact H]. }
    rewrite HD.
    assert (HT : In (1%nat, t) match errs with [] => [] | _ => [(1%nat, L "Tracing Errors")] end <-> t = L "Tracing Errors" /\ errs <> []).
    { destruct errs; [split; [intros []|intros [_ H]; congruence]|]. split; [intros [E|[]]; split; congruence|intros [-> _]; left; reflexivity]. }
    rewrite HT. cbn [In].
    assert (HR : ((1%nat, L "Requirements") = (1%nat, t) \/
      In (1%nat, t) (flat_map (fun e => (2%nat, fst e) :: map (fun r => (3%nat, heading_of r)) (ovalues (art_requirements (snd e)))) (g_artefacts g)))
      <-> t = L "Requirements").
    { split; [intros [E|H]; [congruence|apply rest_levels in H; destruct H; discriminate]|intros ->; left; reflexivity]. }
    rewrite HR. tauto.
  Qed.

  Theorem outline_headlines :
    (In (1%nat, L "Input Errors") (report_outline g errs) <-> all_errors g <> []) /\
    (In (1%nat, L "Tracing Errors") (report_outline g errs) <-> errs <> []) /\
    (In (1%nat, L "Uncovered Requirements") (report_outline g errs) <-> exists rel r, In rel (g_relations g) /\ In r (uncovered_reqs g rel)) /\
    (In (1%nat, L "Derived Requirements") (report_outline g errs) <-> exists k a r, In (k, a) (g_artefacts g) /\ In r (derived_reqs g k a)) /\
    (forall h, In (3%nat, h) (report_outline g errs) <-> exists r, In r (all_reqs g) /\ h = heading_of r).
  Proof.
    rewrite !outline_one.
    assert (N1 : L "Input Errors" <> L "Tracing Errors") by discriminate.
    assert (N2 : L "Input Errors" <> L "Uncovered Requirements") by discriminate.
    assert (N3 : L "Input Errors" <> L "Derived Requirements") by discriminate.
    assert (N4 : L "Input Errors" <> L "Requirements") by discriminate.
    assert (N5 : L "Tracing Errors" <> L "Uncovered Requirements") by discriminate.
    assert (N6 : L "Tracing Errors" <> L "Derived Requirements") by discriminate.
    assert (N7 : L "Tracing Errors" <> L "Requirements") by discriminate.
    assert (N8 : L "Uncovered Requirements" <> L "Derived Requirements") by discriminate.
    assert (N9 : L "Uncovered Requirements" <> L "Requirements") by discriminate.
    assert (N10 : L "Derived Requirements" <> L "Requirements") by discriminate.
    split; [intuition congruence|]. split; [intuition congruence|]. split; [intuition congruence|]. split; [intuition congruence|].
    intros h. rewrite <- rest_three. unfold report_outline. rewrite !in_app_iff. cbn [In]. split.
    - intros [H|[H|[H|[H|[H|H]]]]]; try (apply group_three in H; destruct H); [|discriminate|exact H].
      destruct errs; [destruct H|destruct H as [H|[]]; discriminate].
    - tauto.
  Qed.
End Headlines.
