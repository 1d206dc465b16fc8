(** The model of the Rust parser computes its specification. *)
From Verif Require Import Base OMap Models Unicode Utf8 RustParser RustSpec.
Open Scope N_scope.

Section NodeInd.
  Context (P : node -> Prop)
    (HS : forall k name a kids, Forall P kids -> P (NScope k name a kids))
    (HI : forall ty tr a kids, Forall P kids -> P (NImpl ty tr a kids))
    (HM : forall sg ts, P (NExprMacro sg ts))
    (HIM : forall sg ts, P (NItemMacro sg ts))
    (HO : forall kids, Forall P kids -> P (NOther kids)).

  Fixpoint node_ind' (n : node) : P n :=
    let all := fix all (l : list node) : Forall P l :=
      match l with
      | [] => Forall_nil P
      | n' :: l' => Forall_cons n' (node_ind' n') (all l')
      end in
    match n with
    | NScope k name a kids => HS k name a kids (all kids)
    | NImpl ty tr a kids => HI ty tr a kids (all kids)
    | NExprMacro sg ts => HM sg ts
    | NItemMacro sg ts => HIM sg ts
    | NOther kids => HO kids (all kids)
    end.
End NodeInd.

Lemma slice_last_snoc {A} (l : list A) a : slice_last (l ++ [a]) = Some a.
Proof. unfold slice_last. rewrite rev_app_distr. reflexivity. Qed.

Lemma slice_last_none {A} (l : list A) : slice_last l = None -> l = [].
Proof.
  unfold slice_last. destruct (rev l) eqn:E; [|discriminate]. intros _.
  apply (f_equal (@rev A)) in E. rewrite rev_involutive in E. exact E.
Qed.

Lemma slice_last_some {A} (l : list A) a : slice_last l = Some a -> l = removelast l ++ [a].
Proof.
  intros H. destruct l as [|x l]; [discriminate|].
  destruct (exists_last (l := x :: l)) as (l' & y & E); [discriminate|].
  rewrite E in *. rewrite slice_last_snoc in H. inversion H; subst. rewrite removelast_last. reflexivity.
Qed.

Lemma impl_symbol_name ty tr : impl_symbol ty tr = impl_name ty tr.
Proof. destruct tr as [[[|] t]|]; reflexivity. Qed.

(** ** Reading a call *)
Lemma unquote_quoted t : quoted t -> unquote t = Some (unquoted t).
Proof.
  intros (b & E & c & E'). unfold unquote, starts_with_c, ends_with_c.
  rewrite E' at 2. rewrite rev_app_distr. rewrite E at 1. reflexivity.
Qed.

Lemma unquote_some t x : unquote t = Some x -> quoted t /\ x = unquoted t.
Proof.
  unfold unquote, starts_with_c, ends_with_c. destruct t as [|c b]; [discriminate|].
  destruct (N.eqb_spec c QUOTE) as [->|]; [|discriminate]. cbn [andb].
  destruct (rev (QUOTE :: b)) as [|d r] eqn:E; [discriminate|]. cbn [starts_with_c].
  destruct (N.eqb_spec d QUOTE) as [->|]; [|discriminate]. intros H. inversion H; subst.
  split; [|reflexivity]. exists b. split; [reflexivity|]. exists (rev r).
  apply (f_equal (@rev N)) in E. rewrite rev_involutive in E. exact E.
Qed.

Lemma unquote_none t : unquote t = None -> ~ quoted t.
Proof. intros H Hq. apply unquote_quoted in Hq. congruence. Qed.

Section RustFacts.
  Context (debug_tokens : list token -> str) (p : path).

  Lemma read_mark_ok a ts id t : read_mark debug_tokens p a ts = inl (id, t) <-> refers ts id t.
  Proof.
    split.
    - unfold read_mark. destruct ts as [|t0 [|t1 [|t2 [|t3 ts]]]]; try discriminate.
      + destruct t0 as [x b|x b].
        * intros H; inversion H; subst. constructor.
        * destruct (unquote x) as [y|] eqn:E; [|discriminate]. apply unquote_some in E.
          destruct E as [E ->]. intros H; inversion H; subst. constructor. exact E.
      + destruct t0 as [x b|x b]; [|discriminate].
        destruct (unquote (tok_text t2)) as [y|] eqn:E; [|discriminate]. apply unquote_some in E.
        destruct E as [E ->]. intros H; inversion H; subst. constructor. exact E.
    - intros H. destruct H; cbn [read_mark]; rewrite ?unquote_quoted by assumption; reflexivity.
  Qed.

  Lemma read_mark_err a ts e : read_mark debug_tokens p a ts = inr e <-> malformed debug_tokens p a ts e.
  Proof.
    split.
    - unfold read_mark. destruct ts as [|t0 [|t1 [|t2 [|t3 ts]]]].
      + intros H; inversion H; subst. constructor.
      + destruct t0 as [x b|x b]; [discriminate|]. destruct (unquote x) as [y|] eqn:E; [discriminate|].
        intros H; inversion H; subst. constructor. apply unquote_none. exact E.
      + intros H. assert (He : e = EFormat (location_from_span p a) (L "requirement_covered!() called with more than 2 argument/token " ++ debug_tokens [t0; t1]))
          by (destruct t0; inversion H; reflexivity). subst e. apply mal_many; discriminate.
      + destruct t0 as [x b|x b].
        * destruct (unquote (tok_text t2)) as [y|] eqn:E; [discriminate|].
          intros H; inversion H; subst. constructor. apply unquote_none. exact E.
        * intros H; inversion H; subst. constructor.
      + intros H. assert (He : e = EFormat (location_from_span p a) (L "requirement_covered!() called with more than 2 argument/token " ++ debug_tokens (t0 :: t1 :: t2 :: t3 :: ts)))
          by (destruct t0; inversion H; reflexivity). subst e. apply mal_many; discriminate.
    - intros H. destruct H as [|t b Hq|id b sep t Hq|x b sep t|ts H0 H1 H3]; cbn [read_mark].
      + reflexivity.
      + destruct (unquote t) as [y|] eqn:E; [|reflexivity]. apply unquote_some in E. destruct E; contradiction.
      + destruct (unquote (tok_text t)) as [y|] eqn:E; [|reflexivity]. apply unquote_some in E. destruct E; contradiction.
      + reflexivity.
      + destruct ts as [|t0 [|t1 [|t2 [|t3 ts]]]]; cbn [length] in *; try lia; try congruence;
          destruct t0; reflexivity.
  Qed.

  (** ** The traversal is a loop over the calls *)
  Definition sc_state (sc : list (str * span_pos)) (x : list requirement * list error) : rs_state :=
    mkRs (fst x) (snd x) (map fst sc) (map (fun b => location_from_span p (snd b)) sc).

  Definition step (x : list requirement * list error) (m : mark) : outcome (list requirement * list error) :=
    match read_mark debug_tokens p (mk_pos m) (mk_tokens m) with
    | inr e => Done (fst x, snd x ++ [e])
    | inl (id, t) =>
        let* s := add_reference (sc_state (mk_scopes m) x) (mkReference id t (location_from_span p (mk_pos m))) in
        Done (rs_requirements s, snd x)
    end.

  Lemma add_reference_frame sc x y s :
    add_reference (sc_state sc x) y = Done s -> s = sc_state sc (rs_requirements s, snd x).
  Proof.
    unfold add_reference. cbn [sc_state rs_requirements rs_errors rs_scope rs_locations].
    destruct (slice_last (fst x)) as [r|].
    - destruct (eqb (req_id r) (join (L "::") (map fst sc))).
      + intros H; inversion H; subst. reflexivity.
      + destruct (slice_last (map _ sc)); [|discriminate]. intros H; inversion H; subst. reflexivity.
    - destruct (slice_last (map _ sc)); [|discriminate]. intros H; inversion H; subst. reflexivity.
  Qed.

  Lemma parse_macro_step sc x a ts :
    parse_macro debug_tokens p (sc_state sc x) [(L "requirement_covered", a)] ts =
    omap_out (sc_state sc) (step x (mkMark sc a ts)).
  Proof.
    unfold parse_macro, step. rewrite eqb_refl. cbn [mk_pos mk_tokens mk_scopes].
    destruct (read_mark debug_tokens p a ts) as [[id t]|e]; [|reflexivity].
    destruct (add_reference (sc_state sc x) _) as [s|] eqn:E; [|reflexivity]. cbn [obind omap_out].
    rewrite <- (add_reference_frame _ _ _ _ E). reflexivity.
  Qed.

  Lemma rs_enter_state sc x name a :
    rs_enter p (sc_state sc x) name a = sc_state (sc ++ [(name, a)]) x.
  Proof. unfold rs_enter, sc_state. cbn [rs_requirements rs_errors rs_scope rs_locations]. rewrite !map_app. reflexivity. Qed.

  Lemma rs_leave_state sc x b : rs_leave (sc_state (sc ++ [b]) x) = Done (sc_state sc x).
  Proof.
    unfold rs_leave, sc_state. cbn [rs_requirements rs_errors rs_scope rs_locations].
    rewrite !map_app. cbn [map]. rewrite !slice_last_snoc, !removelast_last. reflexivity.
  Qed.

  Definition visit_all := fix visit_all (l : list node) (s : rs_state) : outcome rs_state :=
    match l with
    | [] => Done s
    | n' :: l' => let* s' := visit debug_tokens p n' s in visit_all l' s'
    end.

  Lemma for_each_flat {S A B} (f : S -> B -> outcome S) (g : A -> list B) l s :
    for_each (flat_map g l) f s = for_each l (fun s a => for_each (g a) f s) s.
  Proof.
    revert s. induction l as [|a l IH]; intros s; [reflexivity|]. cbn [flat_map for_each].
    rewrite for_each_app. destruct (for_each (g a) f s); [apply IH|reflexivity].
  Qed.

  Lemma visit_all_marks sc kids :
    Forall (fun n => forall sc x, visit debug_tokens p n (sc_state sc x) =
                                  omap_out (sc_state sc) (for_each (marks sc n) step x)) kids ->
    forall x, visit_all kids (sc_state sc x) =
              omap_out (sc_state sc) (for_each (flat_map (marks sc) kids) step x).
  Proof.
    induction 1 as [|n kids Hn _ IH]; intros x; [reflexivity|]. cbn [visit_all flat_map].
    rewrite Hn, for_each_app. destruct (for_each (marks sc n) step x) as [y|]; [apply IH|reflexivity].
  Qed.

  Lemma leave_out sc b o :
    obind (omap_out (sc_state (sc ++ [b])) o) rs_leave = omap_out (sc_state sc) o.
  Proof. destruct o; [apply rs_leave_state|reflexivity]. Qed.

  Theorem visit_marks n : forall sc x,
    visit debug_tokens p n (sc_state sc x) = omap_out (sc_state sc) (for_each (marks sc n) step x).
  Proof.
    induction n as [k name a kids H|ty tr a kids H|sg ts|sg ts|kids H] using node_ind'; intros sc x.
    - cbn [visit marks]. rewrite rs_enter_state. fold visit_all.
      rewrite (visit_all_marks _ _ H). apply leave_out.
    - cbn [visit marks]. rewrite impl_symbol_name, rs_enter_state. fold visit_all.
      rewrite (visit_all_marks _ _ H). apply leave_out.
    - cbn [visit marks]. destruct sg as [|[name a] [|y sg]]; try reflexivity.
      destruct (eqb_spec name (L "requirement_covered")) as [->|Hn].
      + rewrite parse_macro_step. cbn [for_each]. destruct (step x _); reflexivity.
      + cbn [parse_macro]. rewrite (proj2 (eqb_false _ _) Hn). reflexivity.
    - reflexivity.
    - cbn [visit marks]. fold visit_all. apply visit_all_marks. exact H.
  Qed.

  (** ** The loop builds groups *)
  Definition inv (done : list mark) (x : list requirement * list error) : Prop :=
    exists gs, Forall2 (group_of p) gs (fst x) /\ neighbours_differ (fst x) /\
      sorted_out debug_tokens p done (concat gs) (snd x).

  Lemma sorted_out_app ms xs es ms' xs' es' :
    sorted_out debug_tokens p ms xs es -> sorted_out debug_tokens p ms' xs' es' ->
    sorted_out debug_tokens p (ms ++ ms') (xs ++ xs') (es ++ es').
  Proof. intros H H'. induction H; cbn [app]; [exact H'|constructor; assumption|constructor; assumption]. Qed.

  Lemma neighbours_snoc l r : neighbours_differ (l ++ [r]) <->
    neighbours_differ l /\ (forall r', slice_last l = Some r' -> req_id r' <> req_id r).
  Proof.
    induction l as [|a l IH].
    - cbn. split; [intros _; split; [exact I|discriminate]|auto].
    - destruct l as [|b l].
      + cbn. split.
        * intros [H _]. split; [exact I|]. intros r' E; inversion E; subst. exact H.
        * intros [_ H]. split; [apply H; reflexivity|exact I].
      + cbn [app] in *. 
        change (neighbours_differ (a :: b :: l ++ [r])) with (req_id a <> req_id b /\ neighbours_differ (b :: l ++ [r])).
        change (neighbours_differ (a :: b :: l)) with (req_id a <> req_id b /\ neighbours_differ (b :: l)).
        rewrite IH. replace (slice_last (a :: b :: l)) with (slice_last (b :: l)); [tauto|].
        destruct (exists_last (l := b :: l)) as (l' & z & E); [discriminate|].
        rewrite E. change (a :: l' ++ [z]) with ((a :: l') ++ [z]). rewrite !slice_last_snoc. reflexivity.
  Qed.

  Lemma neighbours_replace l r r' : req_id r = req_id r' ->
    neighbours_differ (l ++ [r]) -> neighbours_differ (l ++ [r']).
  Proof. intros E. rewrite !neighbours_snoc, E. auto. Qed.

  Lemma Forall2_snoc {A B} (R : A -> B -> Prop) l1 l2 b :
    Forall2 R l1 (l2 ++ [b]) -> exists l1' a, l1 = l1' ++ [a] /\ Forall2 R l1' l2 /\ R a b.
  Proof.
    revert l1. induction l2 as [|c l2 IH]; intros l1 H; cbn [app] in H.
    - inversion H as [|x y ? ? H1 H2]; subst. inversion H2; subst. exists [], x. auto.
    - inversion H as [|x y ? ? H1 H2]; subst. destruct (IH _ H2) as (l1' & a & -> & H3 & H4).
      exists (x :: l1'), a. split; [reflexivity|]. split; [constructor; assumption|assumption].
  Qed.

  (** A call starts a new requirement. *)
  Definition fresh (x : list requirement * list error) (m : mark) : Prop :=
    forall r, slice_last (fst x) = Some r -> req_id r <> mark_id m.

  Lemma step_inv done x m y : inv done x -> step x m = Done y -> inv (done ++ [m]) y.
  Proof.
    intros (gs & HG & HN & HS) H. unfold step in H.
    destruct (read_mark debug_tokens p (mk_pos m) (mk_tokens m)) as [[id t]|e] eqn:ER.
    - set (rf := mkReference id t (location_from_span p (mk_pos m))) in *.
      assert (HR : reference_of p m rf) by (split; [apply read_mark_ok in ER; exact ER|reflexivity]).
      assert (HS' : sorted_out debug_tokens p (done ++ [m]) (concat gs ++ [(m, rf)]) (snd x)).
      { rewrite <- (app_nil_r (snd x)). apply sorted_out_app; [exact HS|]. constructor; [exact HR|constructor]. }
      unfold add_reference in H. cbn [sc_state rs_requirements rs_errors rs_scope rs_locations] in H.
      fold (mark_id m) in H.
      set (F := (let* loc := unwrap (slice_last (map (fun b => location_from_span p (snd b)) (mk_scopes m))) in
                 Done (rs_set_requirements (sc_state (mk_scopes m) x)
                   (fst x ++ [mkRequirement (mark_id m) None loc [rf] [] [] []]))) : outcome rs_state) in H.
      assert (HF : fresh x m -> obind F (fun s => Done (rs_requirements s, snd x)) = Done y -> inv (done ++ [m]) y).
      { intros Hfr. unfold F. destruct (slice_last (map _ (mk_scopes m))) as [loc|] eqn:EL; [|discriminate].
        cbn [unwrap obind rs_set_requirements rs_requirements]. intros E; inversion E; subst y.
        apply slice_last_some in EL.
        destruct (mk_scopes m) as [|b0 sc0] eqn:Esc; [discriminate|].
        destruct (exists_last (l := b0 :: sc0)) as (sc & a & Ea); [discriminate|].
        assert (Eloc : loc = at_pos p (snd a)).
        { rewrite Ea, map_app in EL. cbn [map] in EL. rewrite removelast_last in EL.
          apply app_inj_tail in EL. destruct EL as [_ EL]. symmetry. exact EL. }
        exists (gs ++ [[(m, rf)]]). cbn [fst snd]. split; [|split].
        - apply Forall2_app; [exact HG|]. constructor; [|constructor].
          exists m, rf, [], a, sc. rewrite Esc, Eloc. split; [reflexivity|]. split; [exact Ea|].
          split; [|reflexivity]. intros z [<-|[]]. reflexivity.
        - apply neighbours_snoc. split; [exact HN|]. intros r' E'. cbn [req_id]. apply Hfr. exact E'.
        - rewrite concat_app. cbn [concat app]. exact HS'. }
      destruct (slice_last (fst x)) as [r|] eqn:EL.
      + destruct (eqb_spec (req_id r) (mark_id m)) as [Eid|Eid].
        * cbn [obind rs_set_requirements rs_requirements] in H. inversion H; subst y.
          apply slice_last_some in EL. rewrite EL in HG, HN.
          destruct (Forall2_snoc _ _ _ _ HG) as (gs' & g & -> & HG' & Hg).
          exists (gs' ++ [g ++ [(m, rf)]]). cbn [fst snd]. split; [|split].
          -- apply Forall2_app; [exact HG'|]. constructor; [|constructor].
             destruct Hg as (m0 & x0 & ms' & a & sc & -> & Hsc & Hall & Hr).
             exists m0, x0, (ms' ++ [(m, rf)]), a, sc. split; [reflexivity|]. split; [exact Hsc|].
             split.
             ++ intros z Hz. cbn [add_cover req_id]. apply in_app_or in Hz. destruct Hz as [Hz|[<-|[]]].
                ** apply Hall. exact Hz.
                ** symmetry. exact Eid.
             ++ unfold add_cover. rewrite Hr at 1. rewrite Hr. cbn [req_id req_title req_location req_covers req_depends req_tags req_attributes].
                rewrite map_app. reflexivity.
          -- eapply neighbours_replace; [|exact HN]. reflexivity.
          -- rewrite concat_app in *. cbn [concat] in *. rewrite !app_nil_r in *. rewrite app_assoc. exact HS'.
        * apply HF; [|exact H]. intros r' E'. rewrite EL in E'. inversion E'; subst. exact Eid.
      + apply HF; [|exact H]. intros r' E'. rewrite EL in E'. discriminate.
    - inversion H; subst y. exists gs. cbn [fst snd]. split; [exact HG|]. split; [exact HN|].
      rewrite <- (app_nil_r (concat gs)). apply sorted_out_app; [exact HS|].
      apply so_err; [|constructor]. apply read_mark_err. exact ER.
  Qed.

  Lemma loop_inv ms : forall done x y, inv done x -> for_each ms step x = Done y -> inv (done ++ ms) y.
  Proof.
    induction ms as [|m ms IH]; intros done x y HI H; cbn [for_each] in H.
    - inversion H; subst. rewrite app_nil_r. exact HI.
    - destruct (step x m) as [x'|] eqn:E; [|discriminate]. cbn [obind] in H.
      change (m :: ms) with ([m] ++ ms). rewrite app_assoc. eapply IH; [|exact H]. eapply step_inv; eassumption.
  Qed.

  Lemma step_panic x m : step x m = Panic <->
    (exists id t, refers (mk_tokens m) id t) /\ fresh x m /\ mk_scopes m = [].
  Proof.
    unfold step. destruct (read_mark debug_tokens p (mk_pos m) (mk_tokens m)) as [[id t]|e] eqn:ER.
    - assert (HR : exists id t, refers (mk_tokens m) id t) by (apply read_mark_ok in ER; eauto).
      unfold add_reference, fresh. cbn [sc_state rs_requirements rs_errors rs_scope rs_locations]. fold (mark_id m).
      assert (HP : forall o, (let* s := (let* loc := unwrap (slice_last (map (fun b => location_from_span p (snd b)) (mk_scopes m))) in
                       Done (rs_set_requirements (sc_state (mk_scopes m) x) (o loc))) in Done (rs_requirements s, snd x)) = Panic
                    <-> mk_scopes m = []).
      { intros o. destruct (slice_last (map _ (mk_scopes m))) as [loc|] eqn:EL.
        - split; [discriminate|]. intros E. rewrite E in EL. discriminate.
        - split; [|reflexivity]. intros _. apply slice_last_none, map_eq_nil in EL. exact EL. }
      destruct (slice_last (fst x)) as [r|] eqn:EL.
      + destruct (eqb_spec (req_id r) (mark_id m)) as [Eid|Eid].
        * split; [discriminate|]. intros (_ & Hf & _). elim (Hf r eq_refl Eid).
        * rewrite HP. split; [|tauto]. intros E. split; [exact HR|]. split; [|exact E].
          intros r' E'; inversion E'; subst. exact Eid.
      + rewrite HP. split; [|tauto]. intros E. split; [exact HR|]. split; [discriminate|exact E].
    - split; [discriminate|]. intros ((id & t & H) & _). apply read_mark_ok with (a := mk_pos m) in H. congruence.
  Qed.

  (** Scope names are not empty (identifiers, types). *)
  Definition names_ok (ms : list mark) : Prop :=
    forall m, In m ms -> forall b, In b (mk_scopes m) -> fst b <> [].
  Definition outside (m : mark) : Prop :=
    mk_scopes m = [] /\ exists id t, refers (mk_tokens m) id t.

  Lemma mark_id_nil m : (forall b, In b (mk_scopes m) -> fst b <> []) -> mark_id m = [] -> mk_scopes m = [].
  Proof.
    unfold mark_id. destruct (mk_scopes m) as [|b sc]; [reflexivity|]. intros H E. exfalso.
    apply (H b); [left; reflexivity|]. cbn [map join] in E.
    destruct (map fst sc); [exact E|]. apply app_eq_nil in E. apply E.
  Qed.

  Lemma loop_panic ms : forall done x,
    inv done x -> names_ok (done ++ ms) -> (forall m, In m done -> ~ outside m) ->
    for_each ms step x = Panic <-> exists m, In m ms /\ outside m.
  Proof.
    induction ms as [|m ms IH]; intros done x HI HN HO; cbn [for_each].
    - split; [discriminate|]. intros (m & [] & _).
    - destruct (step x m) as [x'|] eqn:E; cbn [obind].
      + assert (Hm : ~ outside m).
        { intros [Hs Hr]. assert (F : ~ fresh x m).
          { intros F. assert (step x m = Panic) by (apply step_panic; auto). congruence. }
          apply F. intros r Hr' Eid. clear F.
          (* the last requirement would have an empty id, hence come from a mark outside *)
          destruct HI as (gs & HG & _ & HS). apply slice_last_some in Hr'. rewrite Hr' in HG.
          destruct (Forall2_snoc _ _ _ _ HG) as (gs' & g & -> & _ & Hg).
          destruct Hg as (m0 & x0 & ms' & a & sc & -> & Hsc & Hall & _).
          assert (Hin : In m0 done /\ exists id t, refers (mk_tokens m0) id t).
          { assert (K : forall ds xs es, sorted_out debug_tokens p ds xs es -> forall z, In z xs ->
                        In (fst z) ds /\ exists id t, refers (mk_tokens (fst z)) id t).
            { clear. induction 1 as [|m x ms xs es HR H IH|m e ms xs es HM H IH]; intros z Hz; [destruct Hz| |].
              - destruct Hz as [<-|Hz]; [split; [left; reflexivity|]; destruct HR as [HR _]; cbn [fst]; eauto|].
                destruct (IH z Hz). split; [right; assumption|assumption].
              - destruct (IH z Hz). split; [right; assumption|assumption]. }
            apply (K _ _ _ HS (m0, x0)). rewrite concat_app. apply in_or_app. right. left. reflexivity. }
          destruct Hin as [Hin Href].
          assert (Hid : mark_id m0 = []).
          { etransitivity; [exact (Hall (m0, x0) (or_introl eq_refl))|]. rewrite Eid. unfold mark_id. rewrite Hs. reflexivity. }
          apply mark_id_nil in Hid; [|apply HN, in_or_app; left; exact Hin].
          apply (HO m0 Hin). split; assumption. }
        rewrite (IH (done ++ [m]) x').
        * split; intros (m' & H1 & H2).
          -- exists m'. split; [right; exact H1|exact H2].
          -- destruct H1 as [<-|H1]; [contradiction|]. eauto.
        * eapply step_inv; eassumption.
        * rewrite <- app_assoc. exact HN.
        * intros m' Hi. apply in_app_or in Hi. destruct Hi as [Hi|[<-|[]]]; [apply HO; exact Hi|exact Hm].
      + split; [|reflexivity]. intros _. apply step_panic in E. destruct E as (H1 & _ & H2).
        exists m. split; [left; reflexivity|]. split; assumption.
  Qed.

  Lemma inv_nil : inv [] ([], []).
  Proof. exists []. split; [constructor|]. split; [exact I|constructor]. Qed.

  (** ** Results *)
  Context (syn_parse : str -> node + (span_pos * str)).

  Theorem rust_exact r source file reqs errs :
    read_to_string r = ROk source -> syn_parse source = inl file ->
    rust_parse syn_parse debug_tokens p r = Done (reqs, errs) ->
    exists gs, Forall2 (group_of p) gs reqs /\ neighbours_differ reqs /\
      sorted_out debug_tokens p (marks [] file) (concat gs) errs.
  Proof.
    intros H1 H2 H. unfold rust_parse in H. rewrite H1, H2 in H.
    change (mkRs [] [] [] []) with (sc_state [] ([], [])) in H. rewrite visit_marks in H.
    destruct (for_each (marks [] file) step ([], [])) as [y|] eqn:E; [|discriminate].
    cbn [omap_out obind sc_state rs_requirements rs_errors] in H. inversion H; subst.
    apply (loop_inv _ [] _ _ inv_nil) in E. exact E.
  Qed.

  Theorem rust_panics r :
    (forall source file, read_to_string r = ROk source -> syn_parse source = inl file -> names_ok (marks [] file)) ->
    rust_parse syn_parse debug_tokens p r = Panic <->
    exists source file, read_to_string r = ROk source /\ syn_parse source = inl file /\
      exists m, In m (marks [] file) /\ outside m.
  Proof.
    intros HN. unfold rust_parse. destruct (read_to_string r) as [source|e]; [|split; [discriminate|]].
    2:{ intros (s & f & H & _). discriminate. }
    destruct (syn_parse source) as [file|[a msg]] eqn:E2.
    2:{ split; [discriminate|]. intros (s & f & H & H' & _). inversion H; subst. congruence. }
    change (mkRs [] [] [] []) with (sc_state [] ([], [])). rewrite visit_marks.
    specialize (HN source file eq_refl E2).
    pose proof (loop_panic (marks [] file) [] _ inv_nil HN (fun m (H : In m []) => match H with end)) as HP.
    split.
    - intros H. exists source, file. split; [reflexivity|]. split; [exact E2|]. apply HP.
      destruct (for_each (marks [] file) step ([], [])); [discriminate|reflexivity].
    - intros (s & f & H & H' & HM). inversion H; subst s. rewrite E2 in H'. inversion H'; subst f.
      apply HP in HM. rewrite HM. reflexivity.
  Qed.

  Theorem rust_unreadable r :
    (forall e, read_to_string r = RErr e -> rust_parse syn_parse debug_tokens p r = Done ([], [EIo p e])) /\
    (forall source a msg, read_to_string r = ROk source -> syn_parse source = inr (a, msg) ->
       rust_parse syn_parse debug_tokens p r = Done ([], [EFormat (at_pos p a) msg])).
  Proof.
    unfold rust_parse. split.
    - intros e ->. reflexivity.
    - intros source a msg -> ->. reflexivity.
  Qed.
End RustFacts.
