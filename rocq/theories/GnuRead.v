(** The GNU report can be read back. *)
From Verif Require Import Base OMap Models Unicode Location LocFacts LocRound Show Tracer TraceSpec TraceFacts TraceCor GnuErr FmtSpec
  FmtFacts FmtCor LinkFacts GnuReadSpec.
Open Scope N_scope.

Lemma cut_cons (c d : chr) (m : str) : cut (c :: d :: m) =
  if (c =? COLON) && (d =? 32) then Some ([], m)
  else match cut (d :: m) with Some (p, x) => Some (c :: p, x) | None => None end.
Proof. reflexivity. Qed.

Lemma cut_tail c p : cut (c :: p) = None -> cut p = None.
Proof.
  destruct p as [|d p]; [reflexivity|]. rewrite cut_cons. destruct (_ && _); [discriminate|].
  destruct (cut (d :: p)) as [[q x]|]; [discriminate|reflexivity].
Qed.

Lemma cut_app p m : cut p = None -> cut (p ++ L ": " ++ m) = Some (p, m).
Proof.
  change (L ": " ++ m) with (COLON :: 32 :: m).
  induction p as [|c p IH]; intros H; [reflexivity|]. specialize (IH (cut_tail _ _ H)).
  destruct p as [|d p].
  - cbn [app] in IH |- *. rewrite cut_cons, IH. change (COLON =? 32) with false. rewrite andb_false_r. reflexivity.
  - cbn [app] in IH |- *. rewrite cut_cons, IH. rewrite cut_cons in H. destruct (_ && _); [discriminate|reflexivity].
Qed.

Lemma cut_join p c q : cut p = None -> cut (c :: q) = None -> c <> 32 -> cut (p ++ c :: q) = None.
Proof.
  intros Hp Hq Hc. apply N.eqb_neq in Hc. induction p as [|a p IH]; [exact Hq|].
  specialize (IH (cut_tail _ _ Hp)). destruct p as [|b p]; cbn [app] in IH |- *; rewrite cut_cons, IH.
  - rewrite Hc, andb_false_r. reflexivity.
  - rewrite cut_cons in Hp. destruct (_ && _); [discriminate|reflexivity].
Qed.

Lemma cut_none_no_blank (s : str) : ~ In 32 s -> cut s = None.
Proof.
  induction s as [|c s IH]; intros H; [reflexivity|]. destruct s as [|d s]; [reflexivity|].
  assert (Hs : cut (d :: s) = None) by (apply IH; intros X; apply H; right; exact X).
  rewrite cut_cons. replace (d =? 32) with false.
  - rewrite andb_false_r. change (match cut (d :: s) with Some (p, x) => Some (c :: p, x) | None => None end = None).
    destruct (cut (d :: s)) as [[q x]|]; [discriminate|reflexivity].
  - symmetry. apply N.eqb_neq. intros ->. apply H. right. left. reflexivity.
Qed.

Lemma digits_in d n c : decimal d n -> In c d -> 48 <= c <= 57.
Proof.
  intros [H _] Hc. rewrite forallb_forall in H. specialize (H c Hc). unfold is_digit_ascii in H.
  apply andb_prop in H. destruct H as [H1 H2]. apply N.leb_le in H1, H2. lia.
Qed.

Lemma show_N_in n c : In c (show_N n) -> 48 <= c <= 57.
Proof. apply (digits_in _ n). apply show_N_spec. Qed.

Lemma place_readable l : location_ok l ->
  one_line (show_location l) /\ starts_with_c HASH (show_location l) = false /\ cut (show_location l) = None.
Proof.
  intros ((H1 & H2 & H3) & Hn & H4). unfold show_location.
  assert (HS : forall x, starts_with_c HASH (loc_file l ++ x) = false).
  { intros x. destruct (loc_file l) as [|c f]; [congruence|]. exact H2. }
  destruct (loc_in_file l) as [[n|n m|s]|]; [| |destruct H4|auto].
  - split; [|split].
    + intros X. apply in_app_iff in X. destruct X as [X|X]; [exact (H1 X)|]. cbn [app] in X. destruct X as [X|X]; [discriminate|].
      apply show_N_in in X. vm_compute in X. destruct X as [X _]. exact (X eq_refl).
    + apply HS.
    + apply cut_join; [exact H3| |discriminate]. apply cut_none_no_blank. intros [X|X]; [discriminate|].
      apply show_N_in in X. lia.
  - split; [|split].
    + intros X. apply in_app_iff in X. destruct X as [X|X]; [exact (H1 X)|]. cbn [app] in X. destruct X as [X|X]; [discriminate|].
      cbn [show_in_file] in X. apply in_app_iff in X. destruct X as [X|X]; [apply show_N_in in X; unfold NL in X; lia|].
      destruct X as [X|X]; [discriminate|]. apply show_N_in in X. unfold NL in X; lia.
    + apply HS.
    + apply cut_join; [exact H3| |discriminate]. apply cut_none_no_blank. intros [X|X]; [discriminate|].
      cbn [show_in_file] in X. apply in_app_iff in X. destruct X as [X|X]; [apply show_N_in in X; lia|].
      destruct X as [X|X]; [discriminate|]. apply show_N_in in X. lia.
Qed.

Lemma read_at p m : starts_with_c HASH p = false -> cut p = None -> p <> [] -> read_line (p ++ L ": " ++ m) = At p m.
Proof.
  intros H1 H2 Hn. unfold read_line. rewrite cut_app by exact H2.
  destruct p as [|c p]; [congruence|]. change (starts_with_c HASH ((c :: p) ++ L ": " ++ m)) with (starts_with_c HASH (c :: p)).
  rewrite H1. reflexivity.
Qed.

(** ** Texts made of lines *)
Lemma reads_nil : reads [] [].
Proof. exists []. split; [reflexivity|]. split; [intros l []|reflexivity]. Qed.
Lemma reads_app s t es fs : reads s es -> reads t fs -> reads (s ++ t) (es ++ fs).
Proof.
  intros (l1 & -> & H1 & <-) (l2 & -> & H2 & <-). exists (l1 ++ l2). rewrite flat_map_app, map_app.
  split; [reflexivity|]. split; [|reflexivity]. intros l H. apply in_app_iff in H. destruct H; auto.
Qed.
Lemma reads_one l e : one_line l -> read_line l = e -> reads (l ++ [NL]) [e].
Proof. intros H <-. exists [l]. split; [cbn; rewrite app_nil_r; reflexivity|]. split; [intros x [<-|[]]; exact H|reflexivity]. Qed.
Lemma reads_cons l e t fs : one_line l -> read_line l = e -> reads t fs -> reads (l ++ [NL] ++ t) (e :: fs).
Proof. intros H1 H2 H3. rewrite app_assoc. apply (reads_app _ _ [e]); [apply reads_one; assumption|exact H3]. Qed.
Lemma reads_flat_map {A} (f : A -> str) (h : A -> list entry) l :
  (forall a, In a l -> reads (f a) (h a)) -> reads (flat_map f l) (flat_map h l).
Proof.
  induction l as [|a l IH]; intros H; [apply reads_nil|]. cbn [flat_map].
  apply reads_app; [apply H; left; reflexivity|]. apply IH. intros b Hb. apply H. right. exact Hb.
Qed.
Lemma reads_map {A} (f : A -> str) (h : A -> entry) l :
  (forall a, In a l -> reads (f a) [h a]) -> reads (flat_map f l) (map h l).
Proof.
  induction l as [|a l IH]; intros H; [apply reads_nil|]. cbn [flat_map map].
  apply (reads_app _ _ [h a]); [apply H; left; reflexivity|]. apply IH. intros b Hb. apply H. right. exact Hb.
Qed.

Lemma one_app s t : one_line s -> one_line t -> one_line (s ++ t).
Proof. intros H1 H2 X. apply in_app_iff in X. destruct X; auto. Qed.
Ltac one := repeat first [assumption | apply one_app | (intros X; vm_compute in X; repeat (destruct X as [X|X]; [discriminate|]); exact X)].

Lemma reads_place l m : location_ok l -> one_line m -> reads (show_location l ++ L ": " ++ m ++ [NL]) [at_place l m].
Proof.
  intros Hl Hm. destruct (place_readable l Hl) as (H1 & H2 & H3). destruct Hl as (_ & Hn & _).
  replace (show_location l ++ L ": " ++ m ++ [NL]) with ((show_location l ++ L ": " ++ m) ++ [NL]) by (rewrite <- !app_assoc; reflexivity).
  apply reads_one; [one|]. apply read_at; [exact H2|exact H3|].
  unfold show_location. destruct (loc_in_file l); [|exact Hn]. destruct (loc_file l); [congruence|discriminate].
Qed.

Section Read.
  Context {D : Debug} (DL : debug_one_line).

  Lemma reads_config e : reads (L "Error in config file: " ++ debug_error e ++ [NL]) [At (L "Error in config file") (debug_error e)].
  Proof.
    change (L "Error in config file: ") with (L "Error in config file" ++ L ": "). rewrite <- app_assoc.
    replace (L "Error in config file" ++ L ": " ++ debug_error e ++ [NL]) with
      ((L "Error in config file" ++ L ": " ++ debug_error e) ++ [NL]) by (rewrite <- !app_assoc; reflexivity).
    apply reads_one; [|apply read_at; [reflexivity|vm_compute; reflexivity|discriminate]].
    pose proof (proj2 DL e). one.
  Qed.


  Ltac line :=
    match goal with
    | |- reads _ [_] => first [apply reads_place | (rewrite <- ?app_assoc; apply reads_place)]
    end.

  Lemma reads_two l m l' m' : location_ok l -> one_line m -> location_ok l' -> one_line m' ->
    reads (show_location l ++ L ": " ++ m ++ [NL] ++ show_location l' ++ L ": " ++ m' ++ [NL]) [at_place l m; at_place l' m'].
  Proof.
    intros H1 H2 H3 H4.
    replace (show_location l ++ L ": " ++ m ++ [NL] ++ show_location l' ++ L ": " ++ m' ++ [NL]) with
      ((show_location l ++ L ": " ++ m ++ [NL]) ++ (show_location l' ++ L ": " ++ m' ++ [NL])) by (rewrite <- !app_assoc; reflexivity).
    apply (reads_app _ _ [_] [_]); apply reads_place; assumption.
  Qed.

  (** The pieces of a message joined. *)
  Lemma reads_eq s s' es : s = s' -> reads s' es -> reads s es.
  Proof. intros ->. exact (fun H => H). Qed.

  Lemma title_same r : opt_default (req_title r) NO_TITLE = title_text r.
  Proof. unfold title_text. destruct (req_title r); reflexivity. Qed.

  Lemma reads_error e : error_ok e -> reads (gnu_error e) (error_entries e).
  Proof.
    destruct DL as [DS _].
    destruct e as [l m|r1 r2|l a r|p m|m|a|a|u l t loc|u l t loc|r loc|r|r id loc|r id loc| |rel];
      cbn [error_ok gnu_error error_entries]; intros H; try apply reads_config; rewrite ?title_same.
    - destruct H. apply reads_place; assumption.
    - destruct H as [(H1 & H2 & _) (_ & H3 & _)].
      eapply reads_eq; [|apply reads_two; [exact H3| |exact H2|]]; [repeat (progress rewrite <- ?app_assoc); reflexivity|one|one].
    - destruct H as (H1 & H2 & H3).
      eapply reads_eq; [|apply reads_place; [exact H1|]]; [repeat (progress rewrite <- ?app_assoc); reflexivity|one].
    - destruct H as ((H1 & H2 & H3) & Hm). destruct p as [|c p].
      + change (L ": IO Error: ") with (L ": " ++ L "IO Error: "). rewrite <- app_assoc. cbn [app].
        replace (L ": " ++ L "IO Error: " ++ m ++ [NL]) with ((L ": " ++ L "IO Error: " ++ m) ++ [NL]) by (rewrite <- !app_assoc; reflexivity).
        apply reads_one; [one|reflexivity].
      + change (L ": IO Error: ") with (L ": " ++ L "IO Error: "). rewrite <- app_assoc.
        replace ((c :: p) ++ L ": " ++ L "IO Error: " ++ m ++ [NL]) with (((c :: p) ++ L ": " ++ L "IO Error: " ++ m) ++ [NL])
          by (rewrite <- !app_assoc; reflexivity).
        apply reads_one; [one|]. apply read_at; [exact H2|exact H3|discriminate].
    - destruct H as ((Hi & Hu & _) & _ & Hl). pose proof (DS (title_text u)). pose proof (DS t).
      eapply reads_eq; [|apply reads_two; [exact Hl| |exact Hu|]]; [repeat (progress rewrite <- ?app_assoc); reflexivity|one|one].
    - destruct H as (_ & (Hi & Hu & _) & Hl). pose proof (DS (title_text l)). pose proof (DS t).
      eapply reads_eq; [|apply reads_two; [exact Hl| |exact Hu|]]; [repeat (progress rewrite <- ?app_assoc); reflexivity|one|one].
    - destruct H as ((Hi & _) & Hl). pose proof (DS (title_text r)).
      eapply reads_eq; [|apply reads_place; [exact Hl|]]; [repeat (progress rewrite <- ?app_assoc); reflexivity|one].
    - destruct H as (Hi & Hl & _).
      eapply reads_eq; [|apply reads_place; [exact Hl|]]; [repeat (progress rewrite <- ?app_assoc); reflexivity|one].
    - destruct H as ((Hi & _) & Hd & Hl).
      eapply reads_eq; [|apply reads_place; [exact Hl|]]; [repeat (progress rewrite <- ?app_assoc); reflexivity|one].
    - destruct H as ((Hi & _) & Hd & Hl).
      eapply reads_eq; [|apply reads_place; [exact Hl|]]; [repeat (progress rewrite <- ?app_assoc); reflexivity|one].
  Qed.
End Read.

Section Report.
  Context {D : Debug} (DL : debug_one_line) (g : graph) (WF : graph_wf g) (tg : traced_graph) (TR : trace g = Done tg) (RG : readable g).

  Lemma reqs_all k r : In r (reqs_of g k) -> In r (all_reqs g).
  Proof.
    intros Hr. unfold reqs_of in Hr. destruct (oget k (g_artefacts g)) as [a|] eqn:E; [|destruct Hr].
    unfold all_reqs. apply in_flat_map. exists (k, a). split; [apply oget_Some_In; exact E|exact Hr].
  Qed.
  Lemma defs_all k r : In r (first_defs g k) -> In r (all_reqs g).
  Proof. intros H. apply (reqs_all k). unfold first_defs in H. apply filter_In in H. tauto. Qed.
  Lemma first_all id r : first_of g id = Some r -> In r (all_reqs g).
  Proof. unfold first_of. intros H. apply find_some in H. tauto. Qed.

  Lemma first_location_ok id l loc : Forall reference_ok l -> first_location id l = Some loc -> location_ok loc.
  Proof.
    intros F H. unfold first_location in H. destruct (find _ l) as [x|] eqn:E; [|discriminate]. apply find_some in E.
    rewrite Forall_forall in F. destruct E as [E _]. apply F in E. destruct E as (_ & E). cbn in H. congruence.
  Qed.

  Lemma link_ok rel l : In l (links g rel) ->
    requirement_ok (lk_upper l) /\ requirement_ok (lk_lower l) /\ reference_ok (lk_ref l).
  Proof.
    intros H. apply in_links in H. destruct H as (Hu & _ & Hl & H).
    assert (Au : requirement_ok (lk_upper l)) by (apply RG; exact (reqs_all _ _ Hu)).
    assert (Al : requirement_ok (lk_lower l)) by (apply RG; exact (defs_all _ _ Hl)).
    split; [exact Au|]. split; [exact Al|].
    destruct Au as (_ & _ & _ & Du). destruct Al as (_ & _ & Cl & _).
    rewrite Forall_forall in Du, Cl. destruct (lk_dir l); destruct H; auto.
  Qed.

  Lemma tracing_ok e : In e (tg_errors tg) -> error_ok e.
  Proof.
    destruct (trace_done _ WF _ TR) as (pc & pd & _ & _ & _ & _ & A7 & _ & A9 & A10). rewrite A10. clear A10.
    pose proof RG as (PR & _).
    intros H. apply in_app_iff in H. destruct H as [H|H]; [|apply in_app_iff in H; destruct H as [H|H];
      [|apply in_app_iff in H; destruct H as [H|H]]].
    - unfold dup_errors in H. apply in_flat_map in H. destruct H as ([k a] & Hka & H). apply in_flat_map in H.
      destruct H as (r & Hr & H). unfold dup_errors_of in H. destruct (defined_before _ _ _); [|destruct H].
      destruct (first_of g (req_id r)) as [r0|] eqn:E; [|destruct H]. destruct H as [<-|[]]. cbn [error_ok]. split; apply PR.
      + exact (first_all _ _ E).
      + unfold all_reqs. apply in_flat_map. exists (k, a). auto.
    - apply in_flat_map in H. destruct H as (rel & Hrel & H). unfold relation_errors in H. apply in_app_iff in H.
      destruct H as [H|H].
      + apply in_flat_map in H. destruct H as (l & Hl & H). apply link_ok in Hl. destruct Hl as (Hu & Hlo & (Ht & Hloc)).
        unfold link_errors in H. apply in_app_iff in H. destruct H as [H|H].
        * unfold wrong_title_errors in H. destruct (ref_title (lk_ref l)) as [t|]; [|destruct H].
          destruct (option_eqb _ _ _); [destruct H|]. destruct H as [<-|[]]. destruct (lk_dir l); cbn [error_ok]; auto.
        * unfold missing_title_errors in H. destruct (ref_title (lk_ref l)); [destruct H|].
          destruct (wants_title _ _); [|destruct H]. destruct H as [<-|[]]. cbn [error_ok]. split; [|exact Hloc].
          unfold referenced. destruct (lk_dir l); assumption.
      + unfold unused_errors in H. destruct (is_nil _); [|destruct H]. destruct H as [<-|[]]. exact I.
    - apply in_flat_map in H. destruct H as ([u l] & Hp & H). apply A7 in Hp. unfold covers_error in H. cbn [fst snd] in H.
      destruct Hp as ((low & c & Hf & Hc & Hi) & _). rewrite Hf in H.
      destruct (first_location u (req_covers low)) as [loc|] eqn:E; [|destruct H]. destruct H as [<-|[]]. cbn [error_ok].
      pose proof (PR _ (first_all _ _ Hf)) as Ha. split; [exact Ha|]. destruct Ha as (_ & _ & Cl & _).
      split; [|exact (first_location_ok _ _ _ Cl E)]. rewrite Forall_forall in Cl. apply Cl in Hc. rewrite <- Hi. apply Hc.
    - apply in_flat_map in H. destruct H as ([u l] & Hp & H). apply A9 in Hp. unfold depends_error in H. cbn [fst snd] in H.
      destruct Hp as ((up & c & Hf & Hc & Hi) & _). rewrite Hf in H.
      destruct (first_location l (req_depends up)) as [loc|] eqn:E; [|destruct H]. destruct H as [<-|[]]. cbn [error_ok].
      pose proof (PR _ (first_all _ _ Hf)) as Ha. split; [exact Ha|]. destruct Ha as (_ & _ & _ & Cl).
      split; [|exact (first_location_ok _ _ _ Cl E)]. rewrite Forall_forall in Cl. apply Cl in Hc. rewrite <- Hi. apply Hc.
  Qed.

  Lemma join_one sep l : one_line sep -> Forall one_line l -> one_line (join sep l).
  Proof.
    intros Hs HF. induction HF as [|x l Hx _ IH]; [intros []|]. cbn [join]. destruct l as [|y l]; [exact Hx|].
    apply one_app; [exact Hx|]. apply one_app; [exact Hs|exact IH].
  Qed.

  Lemma says_ok (what : string) r : requirement_ok r -> one_line (L what) ->
    reads (show_location (req_location r) ++ L ": " ++ req_id r ++ L what ++ [NL]) [says what r].
  Proof.
    intros (H1 & H2 & _) Hw. rewrite (app_assoc (req_id r)). apply reads_place; [exact H2|one].
  Qed.

  Theorem report_reads : reads (gnu_report g (tg_errors tg)) (report_entries g (tg_errors tg)).
  Proof.
    pose proof RG as (PR & PE & PL & PK). unfold gnu_report, report_entries.
    apply reads_cons; [one|reflexivity|].
    apply reads_app; [apply reads_flat_map; intros e He; apply reads_error; [exact DL|auto]|].
    apply reads_cons; [one|reflexivity|].
    apply reads_app; [apply reads_flat_map; intros e He; apply reads_error; [exact DL|apply tracing_ok; exact He]|].
    apply reads_cons; [one|reflexivity|].
    apply reads_app.
    - apply reads_flat_map. intros rel Hrel. destruct (PL rel Hrel) as [Hu Hl].
      rewrite (app_assoc (L "## ")). apply reads_cons.
      + unfold show_relation. assert (HJ : one_line (join (L ", ") (rel_lower rel))) by (apply join_one; [one|exact Hl]). one.
      + reflexivity.
      + apply reads_map. intros r Hr. unfold finding.
        apply (says_ok " Uncovered"); [|one]. apply PR. unfold uncovered_reqs in Hr. apply filter_In in Hr.
        exact (reqs_all _ _ (proj1 Hr)).
    - apply reads_cons; [one|reflexivity|]. apply reads_flat_map. intros [k a] Hk. cbn [fst snd].
      rewrite (app_assoc (L "## ")). apply reads_cons.
      + assert (one_line k) by (apply PK; unfold okeys; apply in_map_iff; exists (k, a); auto). one.
      + reflexivity.
      + apply reads_map. intros r Hr. unfold finding.
        apply (says_ok " Derived"); [|one]. apply PR. unfold derived_reqs in Hr. destruct (art_ignore_derived a); [destruct Hr|].
        apply filter_In in Hr. exact (defs_all _ _ (proj1 Hr)).
  Qed.
End Report.

(** The lines of a text are unique, and so is what they say. *)
Lemma lines_unique (ls ms : list str) :
  flat_map (fun l => l ++ [NL]) ls = flat_map (fun l => l ++ [NL]) ms ->
  (forall l, In l ls -> ~ In NL l) -> (forall l, In l ms -> ~ In NL l) -> ls = ms.
Proof.
  revert ms. induction ls as [|l ls IH]; intros [|m ms] E Hl Hm; [reflexivity| | |].
  - cbn in E. destruct m; discriminate.
  - cbn in E. destruct l; discriminate.
  - cbn [flat_map] in E. rewrite <- !app_assoc in E.
    assert (H : forall (a b x y : str), a ++ NL :: x = b ++ NL :: y -> ~ In NL a -> ~ In NL b -> a = b /\ x = y).
    { clear. induction a as [|c a IH]; intros [|d b] x y E Ha Hb.
      - inversion E. auto.
      - inversion E; subst. elim Hb. left. reflexivity.
      - inversion E; subst. elim Ha. left. reflexivity.
      - inversion E; subst. destruct (IH b x y) as [-> ->]; auto.
        + intros X. apply Ha. right. exact X.
        + intros X. apply Hb. right. exact X. }
    destruct (H l m _ _ E) as [-> E']; [apply Hl; left; reflexivity|apply Hm; left; reflexivity|].
    f_equal. apply IH; [exact E'| |]; intros x Hx; [apply Hl|apply Hm]; right; exact Hx.
Qed.

Lemma reads_unique text es fs : reads text es -> reads text fs -> es = fs.
Proof.
  intros (l1 & -> & H1 & <-) (l2 & E & H2 & <-). rewrite (lines_unique _ _ E H1 H2). reflexivity.
Qed.
