(** The machine of MdMachine.v computes the block grammar of MdSpec.v. *)
From Verif Require Import Base OMap Models Unicode Regex Utf8 MdSyntax MdParser MdSpec MdMachine.
Open Scope N_scope.

Section Exact.
  Context {U : UnicodeTables} (p : path).

  Fixpoint mrunN (c : cfg) (ls : list nline) : cfg * list requirement * list error :=
    match ls with
    | [] => (c, [], [])
    | (n, l) :: ls' =>
        let '(c1, rs, es) := mstep p c n l in
        let '(c2, rs', es') := mrunN c1 ls' in
        (c2, rs ++ rs', es ++ es')
    end.

  Lemma mrun_number c n ls : mrun p c n ls = mrunN c (number n ls).
  Proof.
    revert c n. induction ls as [|l ls IH]; intros c n; cbn; [reflexivity|].
    destruct (mstep p c (n + 1) l) as [[c1 rs] es]. rewrite IH. reflexivity.
  Qed.

  Lemma mrunN_app c a b :
    mrunN c (a ++ b) =
    let '(c1, rs, es) := mrunN c a in
    let '(c2, rs', es') := mrunN c1 b in (c2, rs ++ rs', es ++ es').
  Proof.
    revert c. induction a as [|[n l] a IH]; intros c; cbn.
    - destruct (mrunN c b) as [[c2 rs'] es']. reflexivity.
    - destruct (mstep p c n l) as [[c1 rs] es]. rewrite IH.
      destruct (mrunN c1 a) as [[c2 rs2] es2]. destruct (mrunN c2 b) as [[c3 rs3] es3].
      rewrite !app_assoc. reflexivity.
  Qed.

  (** ** Kinds of lines *)
  Lemma req_starts_hash l x : scan_requirement l = Some x -> starts_with_c HASH l = true.
  Proof.
    unfold scan_requirement. destruct l as [|c l]; [discriminate|]. cbn [span starts_with_c].
    rewrite (N.eqb_sym c). destruct (HASH =? c); [reflexivity|discriminate].
  Qed.

  Lemma classify_content l : content l -> classify l = KLine.
  Proof.
    intros [H1 H2]. unfold classify. destruct (eqb_spec l [NL]); [contradiction|].
    destruct (scan_requirement l) as [x|] eqn:E; [apply req_starts_hash in E; congruence|].
    rewrite H1. reflexivity.
  Qed.
  Lemma classify_blank : classify [NL] = KEmpty.
  Proof. unfold classify. change (eqb [NL] [NL]) with true. reflexivity. Qed.
  Lemma classify_heading l : plain_heading l -> classify l = KHead.
  Proof.
    intros [H1 H2]. unfold classify. destruct (eqb_spec l [NL]) as [->|]; [discriminate|].
    unfold heading_of in H1. destruct (scan_requirement l) as [[[? ?] ?]|]; [discriminate|].
    rewrite H2. reflexivity.
  Qed.
  Lemma classify_req l id t : heading_of l = Some (id, t) -> classify l = KReq id t.
  Proof.
    unfold heading_of, classify. intros H. destruct (eqb_spec l [NL]) as [->|]; [discriminate|].
    destruct (scan_requirement l) as [[[? ?] ?]|]; [|discriminate]. inversion H. reflexivity.
  Qed.

  Lemma line_cases l : heading_of l = None ->
    blank l \/ plain_heading l \/ is_attr l \/ no_attr l.
  Proof.
    intros H. destruct (eqb_spec l [NL]) as [->|Hn]; [left; reflexivity|right].
    destruct (starts_with_c HASH l) eqn:E; [left; split; assumption|right].
    destruct (scan_attribute l) eqn:Ea; [left|right]; repeat split; auto; congruence.
  Qed.

  (** ** Steps *)
  Lemma step_content r ph n l :
    content l -> mstep p (Active r ph) n l = let '(c', es) := line_step p r ph n l in (c', [], es).
  Proof. intros H. unfold mstep. rewrite classify_content by exact H. reflexivity. Qed.
  Lemma step_blank r ph n : mstep p (Active r ph) n [NL] = (empty_step r ph, [], []).
  Proof. unfold mstep. rewrite classify_blank. reflexivity. Qed.
  Lemma step_heading c n l : plain_heading l -> mstep p c n l = (Idle (pending c), [], []).
  Proof. intros H. unfold mstep. rewrite classify_heading by exact H. reflexivity. Qed.

  Lemma step_idle x n l : heading_of l = None -> mstep p (Idle x) n l = (Idle x, [], []).
  Proof.
    intros H. unfold mstep. destruct (line_cases l H) as [Hb|[Hh|[Ha|Ha]]].
    - rewrite Hb, classify_blank. reflexivity.
    - rewrite classify_heading by exact Hh. reflexivity.
    - rewrite classify_content by apply Ha. reflexivity.
    - rewrite classify_content by apply Ha. reflexivity.
  Qed.

  Definition no_reqs (ls : list nline) : Prop := forall x, In x ls -> heading_of (snd x) = None.

  Lemma no_reqs_cons x ls : no_reqs (x :: ls) -> heading_of (snd x) = None /\ no_reqs ls.
  Proof. intros H. split; [apply H; left; reflexivity|intros y Hy; apply H; right; exact Hy]. Qed.
  Lemma no_reqs_app a b : no_reqs (a ++ b) -> no_reqs b.
  Proof. intros H x Hx. apply H, in_or_app. auto. Qed.

  Lemma run_idle x ls : no_reqs ls -> mrunN (Idle x) ls = (Idle x, [], []).
  Proof.
    induction ls as [|[n l] ls IH]; intros H; [reflexivity|].
    apply no_reqs_cons in H. destruct H as [H1 H2]. cbn [mrunN]. rewrite step_idle by exact H1.
    rewrite IH by exact H2. reflexivity.
  Qed.

  Lemma run_cons_quiet c n l ls c1 :
    mstep p c n l = (c1, [], []) -> mrunN c ((n, l) :: ls) = mrunN c1 ls.
  Proof. intros H. cbn [mrunN]. rewrite H. destruct (mrunN c1 ls) as [[? ?] ?]. reflexivity. Qed.

  Lemma run_blanks r ph blanks rest :
    ph = PStart \/ ph = PAttr -> all_blank blanks ->
    mrunN (Active r ph) (blanks ++ rest) = mrunN (Active r ph) rest.
  Proof.
    intros Hph. induction blanks as [|[n l] blanks IH]; intros H; [reflexivity|].
    cbn [app]. assert (Hl : blank l) by (apply (H (n, l)); left; reflexivity). red in Hl. subst l.
    rewrite (run_cons_quiet _ _ _ _ (Active r ph)).
    - apply IH. intros x Hx. apply H. right. exact Hx.
    - rewrite step_blank. destruct Hph as [->| ->]; reflexivity.
  Qed.

  Definition starts_attr (ls : list nline) : Prop :=
    match ls with (_, l) :: _ => is_attr l | [] => False end.

  Definition dph (b : bool) (d : str) : phase := if b then PDescNl d else PDesc d.

  Lemma run_desc b ls ts rest : desc_block b ls ts rest -> forall r d,
    exists b', mrunN (Active r (dph b d)) ls = mrunN (Active r (dph b' (d ++ concat ts))) rest /\
               (starts_attr rest -> b' = true).
  Proof.
    induction 1 as [b|b n l ls H|n l ls H|b n l ls ts rest H HD IH|n l ls ts rest H HD IH|n l ls ts rest H HD IH];
      intros r d.
    - exists b. cbn [concat]. rewrite app_nil_r. split; [reflexivity|intros []].
    - exists b. cbn [concat]. rewrite app_nil_r. split; [reflexivity|].
      cbn. intros [[Hc _] _]. destruct H as [_ H]. congruence.
    - exists true. cbn [concat]. rewrite app_nil_r. split; reflexivity.
    - red in H. subst l. destruct (IH r (d ++ [NL])) as (b' & E & Hb). exists b'. split; [|exact Hb].
      rewrite (run_cons_quiet _ _ _ _ (Active r (dph true (d ++ [NL])))).
      + rewrite E. cbn [concat]. rewrite app_assoc. reflexivity.
      + rewrite step_blank. destruct b; reflexivity.
    - destruct (IH r (d ++ l)) as (b' & E & Hb). exists b'. split; [|exact Hb].
      rewrite (run_cons_quiet _ _ _ _ (Active r (dph false (d ++ l)))).
      + rewrite E. cbn [concat]. rewrite app_assoc. reflexivity.
      + rewrite step_content by exact H. reflexivity.
    - destruct (IH r d) as (b' & E & Hb). exists b'. split; [|exact Hb].
      rewrite (run_cons_quiet _ _ _ _ (Active r (dph false d))); [exact E|].
      destruct H as [Hc Ha]. rewrite step_content by exact Hc. cbn [dph line_step]. rewrite Ha. reflexivity.
  Qed.

  Lemma run_text ls ts rest : text_block ls ts rest -> forall r a v,
    mrunN (Active r (PText a v)) ls = mrunN (Active r (PText a (v ++ concat ts))) rest.
  Proof.
    induction 1 as [|n l ls H|n l ls H|n l ls ts rest H HD IH]; intros r a v.
    - cbn [concat]. rewrite app_nil_r. reflexivity.
    - cbn [concat]. rewrite app_nil_r. reflexivity.
    - cbn [concat]. rewrite app_nil_r. reflexivity.
    - rewrite (run_cons_quiet _ _ _ _ (Active r (PText a (v ++ l)))).
      + rewrite IH. cbn [concat]. rewrite app_assoc. reflexivity.
      + destruct H as [H|H].
        * red in H. subst l. rewrite step_blank. reflexivity.
        * destruct H as [Hc Ha]. rewrite step_content by exact Hc. cbn [line_step]. rewrite Ha. reflexivity.
  Qed.

  Lemma run_refs ls rs rest : ref_block ls rs rest -> forall r cov v,
    mrunN (Active r (PLinks cov v)) ls = mrunN (Active r (PLinks cov (v ++ bullet_refs p rs))) rest.
  Proof.
    induction 1 as [|n l ls H|n l ls rs rest H HD IH]; intros r cov v.
    - cbn. rewrite app_nil_r. reflexivity.
    - cbn [bullet_refs flat_map]. rewrite app_nil_r. reflexivity.
    - destruct H as [Hc Hr]. unfold bullet_refs. cbn [flat_map snd fst]. fold (bullet_refs p rs).
      destruct (scan_ref l) as [[id t]|] eqn:E; [|congruence].
      rewrite (run_cons_quiet _ _ _ _ (Active r (PLinks cov (v ++ [mkReference id t (at_line p n)])))).
      + rewrite IH, <- app_assoc. reflexivity.
      + rewrite step_content by exact Hc. cbn [line_step]. rewrite E. reflexivity.
  Qed.

  (** ** Attributes *)
  Definition accepts (ph : phase) : Prop :=
    match ph with PStart | PAttr | PDescNl _ | PText _ _ => True | _ => False end.

  (** Outcome of a run for a requirement [r0] and its blocks. *)
  Definition outcome_of (x : cfg * list requirement * list error) (r0 : requirement)
    (bs : list block) (e : ending) : Prop :=
    exists c, x = (c, [], blocks_err p r0 bs ++ ending_err p e) /\
              pending c = Some (blocks_req p r0 bs) /\
              match c with Idle _ => is_open e = false | Active _ _ => is_open e = true end.

  Lemma outcome_heading r ph n l ls :
    plain_heading l -> no_reqs ls -> outcome_of (mrunN (Active r ph) ((n, l) :: ls)) (commit r ph) [] Closed.
  Proof.
    intros H HN. rewrite (run_cons_quiet _ _ _ _ (Idle (Some (commit r ph)))) by (apply step_heading; exact H).
    rewrite run_idle by exact HN. exists (Idle (Some (commit r ph))). repeat split.
  Qed.

  Lemma step_attr r ph n l a v :
    accepts ph -> content l -> scan_attribute l = Some (a, v) ->
    mstep p (Active r ph) n l =
    let '(ph', es) := start_attr p n (commit r ph) a v in (Active (commit r ph) ph', [], es).
  Proof.
    intros Ha Hc Hs. rewrite step_content by exact Hc.
    destruct ph; try contradiction; cbn [line_step]; rewrite Hs;
      destruct (start_attr p n _ a v) as [ph' es]; reflexivity.
  Qed.

  Scheme attrs_ind' := Minimality for attrs Sort Prop
  with after_links_ind' := Minimality for after_links Sort Prop
  with next_attr_ind' := Minimality for next_attr Sort Prop.
  Combined Scheme attrs_mutind from attrs_ind', after_links_ind', next_attr_ind'.

  Lemma outcome_cons c n l ls r r0 b bs e c1 :
    mstep p c n l = (c1, [], block_err p r b) ->
    r0 = block_req p r b ->
    outcome_of (mrunN c1 ls) r0 bs e -> outcome_of (mrunN c ((n, l) :: ls)) r (b :: bs) e.
  Proof.
    intros H -> (c2 & E & Hp & Hi). exists c2. cbn [mrunN]. rewrite H, E.
    cbn [blocks_err]. rewrite <- app_assoc. split; [reflexivity|]. split; [exact Hp|exact Hi].
  Qed.

  Lemma set_fold (r : requirement) : 
    mkRequirement (req_id r) (req_title r) (req_location r) (req_covers r) (req_depends r) (req_tags r)
      (req_attributes r) = r.
  Proof. destruct r; reflexivity. Qed.

  Lemma short_list_spec n v : short_list p n v = inline_refs p n v.
  Proof.
    unfold short_list, inline_refs. apply flat_map_ext. intros x. cbn zeta. destruct (trim x); reflexivity.
  Qed.

  Lemma run_attrs_all :
    (forall ls bs e, attrs ls bs e -> no_reqs ls -> forall r ph,
       (starts_attr ls -> accepts ph) -> outcome_of (mrunN (Active r ph) ls) (commit r ph) bs e) /\
    (forall ls bs e, after_links ls bs e -> no_reqs ls -> forall r cov v,
       outcome_of (mrunN (Active r (PLinks cov v)) ls) (commit r (PLinks cov v)) bs e) /\
    (forall ls bs e, next_attr ls bs e -> no_reqs ls -> forall r,
       outcome_of (mrunN (Active r PAttr) ls) r bs e).
  Proof.
    apply attrs_mutind.
    - (* at_end *) intros _ r ph _. exists (Active r ph). repeat split.
    - (* at_heading *) intros n l ls H HN r ph _. apply no_reqs_cons in HN. apply outcome_heading; tauto.
    - (* at_text *)
      intros n l ls name first ts rest bs e Hc Hs H1 H2 HT _ IH HN r ph Hacc.
      apply no_reqs_cons in HN. destruct HN as [_ HN].
      assert (Ha : accepts ph) by (apply Hacc; split; [exact Hc|congruence]).
      assert (HNr : no_reqs rest).
      { clear - HT HN. induction HT; auto. apply IHHT. apply no_reqs_cons in HN. apply HN. }
      eapply outcome_cons.
      + rewrite (step_attr r ph n l name first) by assumption.
        unfold start_attr. apply eqb_false in H1. apply eqb_false in H2.
        change ATTR_COVERS with COVERS. change ATTR_DEPENDS with DEPENDS. rewrite H1, H2.
        cbn [block_err]. unfold dup_error, at_line.
        destruct (oget name (req_attributes (commit r ph))); reflexivity.
      + reflexivity.
      + rewrite (run_text _ _ _ HT).
        exact (IH HNr (commit r ph) (PText name (first ++ concat ts)) (fun _ => I)).
    - (* at_links *)
      intros n l ls cov first refs rest bs e Hc Hs HR _ IH HN r ph Hacc.
      apply no_reqs_cons in HN. destruct HN as [_ HN].
      assert (Ha : accepts ph) by (apply Hacc; split; [exact Hc|congruence]).
      assert (HNr : no_reqs rest).
      { clear - HR HN. induction HR; auto. apply IHHR. apply no_reqs_cons in HN. apply HN. }
      eapply (outcome_cons _ _ _ _ _ (commit (commit r ph) (PLinks cov (block_refs p n first refs)))).
      + rewrite (step_attr r ph n l _ _ Ha Hc Hs). unfold start_attr.
        change ATTR_COVERS with COVERS. change ATTR_DEPENDS with DEPENDS.
        destruct cov.
        * change (eqb COVERS COVERS) with true. cbn iota. cbn [block_err]. unfold dup_error, at_line.
          destruct (req_covers (commit r ph)); reflexivity.
        * change (eqb DEPENDS COVERS) with false. change (eqb DEPENDS DEPENDS) with true.
          cbn iota. cbn [block_err]. unfold dup_error, at_line.
          destruct (req_depends (commit r ph)); reflexivity.
      + destruct cov; reflexivity.
      + replace (Active (commit r ph) (if cov then _ else _)) with (Active (commit r ph) (PLinks cov (short_list p n first))) by (destruct cov; reflexivity).
        rewrite (run_refs _ _ _ HR), short_list_spec. exact (IH HNr (commit r ph) cov (block_refs p n first refs)).
    - (* al_end *) intros _ r cov v. exists (Active r (PLinks cov v)). repeat split.
    - (* al_heading *) intros n l ls H HN r cov v. apply no_reqs_cons in HN. apply outcome_heading; tauto.
    - (* al_broken *)
      intros n l ls [Hc Hr] Ht HN r cov v. apply no_reqs_cons in HN. destruct HN as [_ HN].
      exists (Idle (Some (commit r (PLinks cov v)))). cbn [mrunN]. rewrite step_content by exact Hc.
      cbn [line_step]. rewrite Hr. destruct (trim l); [congruence|]. rewrite run_idle by exact HN. repeat split.
    - (* al_blank *)
      intros n l ls blanks rest bs e Hb -> HB _ IH HN r cov v.
      apply no_reqs_cons in HN. destruct HN as [_ HN].
      rewrite (run_cons_quiet _ _ _ _ (Active (commit r (PLinks cov v)) PAttr)).
      + rewrite run_blanks; [|auto|exact HB]. apply IH. eapply no_reqs_app; exact HN.
      + destruct Hb as [Hb|[[Hc Hr] Ht]].
        * red in Hb. subst l. rewrite step_blank. reflexivity.
        * rewrite step_content by exact Hc. cbn [line_step]. rewrite Hr, Ht. reflexivity.
    - (* na_broken *)
      intros n l ls [Hc Ha] HN r. apply no_reqs_cons in HN. destruct HN as [_ HN].
      exists (Idle (Some r)). cbn [mrunN]. rewrite step_content by exact Hc. cbn [line_step]. rewrite Ha.
      rewrite run_idle by exact HN. repeat split.
    - (* na_attrs *) intros ls bs e _ IH HN r. exact (IH HN r PAttr (fun _ => I)).
  Qed.

  Theorem run_body ls bs e r :
    body ls bs e -> no_reqs ls -> outcome_of (mrunN (Active r PStart) ls) r bs e.
  Proof.
    intros H HN. destruct H as [blanks rest bs e HB HA|blanks n l ls ts rest bs e HB [Hc Ha] HD HA].
    - rewrite run_blanks; [|auto|exact HB].
      apply (proj1 run_attrs_all _ _ _ HA) with (ph := PStart); [eapply no_reqs_app; exact HN|exact (fun _ => I)].
    - rewrite run_blanks; [|auto|exact HB]. apply no_reqs_app, no_reqs_cons in HN. destruct HN as [_ HN].
      destruct (run_desc _ _ _ _ HD r l) as (b' & E & Hb).
      assert (HNr : no_reqs rest).
      { clear - HD HN. induction HD; auto; apply no_reqs_cons in HN; apply IHHD; apply HN. }
      eapply outcome_cons.
      + rewrite step_content by exact Hc. cbn [line_step]. rewrite Ha. reflexivity.
      + reflexivity.
      + change (PDesc l) with (dph false l). rewrite E.
        assert (Hacc : starts_attr rest -> accepts (dph b' (l ++ concat ts)))
          by (intros Hs; rewrite (Hb Hs); exact I).
        pose proof (proj1 run_attrs_all _ _ _ HA HNr r (dph b' (l ++ concat ts)) Hacc) as Hout.
        destruct b'; exact Hout.
  Qed.

  (** ** Every body has blocks *)
  Definition stops (ls : list nline) : Prop :=
    match ls with [] => True | (_, l) :: _ => plain_heading l \/ is_attr l end.

  Lemma desc_total ls : no_reqs ls -> forall b, exists ts rest,
    desc_block b ls ts rest /\ stops rest /\ no_reqs rest /\ (length rest <= length ls)%nat.
  Proof.
    induction ls as [|[n l] ls IH]; intros HN b.
    - exists [], []. refine (conj _ (conj _ (conj _ _))); [constructor|exact I|exact HN|lia].
    - pose proof HN as HN0. apply no_reqs_cons in HN. destruct HN as [H1 HN]. cbn [snd] in H1.
      destruct (line_cases l H1) as [H|[H|[H|H]]].
      + destruct (IH HN true) as (ts & rest & HD & HS & Hr & Hl).
        exists (l :: ts), rest. refine (conj _ (conj _ (conj _ _))); [apply db_blank; assumption|exact HS|exact Hr|cbn; lia].
      + exists [], ((n, l) :: ls). refine (conj _ (conj _ (conj _ _))); [apply db_heading; exact H|left; exact H|exact HN0|apply Nat.le_refl].
      + destruct b.
        * exists [], ((n, l) :: ls). refine (conj _ (conj _ (conj _ _))); [apply db_attr; exact H|right; exact H|exact HN0|apply Nat.le_refl].
        * destruct (IH HN false) as (ts & rest & HD & HS & Hr & Hl).
          exists (l :: ts), rest. refine (conj _ (conj _ (conj _ _))); [apply db_text; [apply H|exact HD]|exact HS|exact Hr|cbn; lia].
      + destruct (IH HN false) as (ts & rest & HD & HS & Hr & Hl). destruct b.
        * exists ts, rest. refine (conj _ (conj _ (conj _ _))); [apply db_lost; assumption|exact HS|exact Hr|cbn; lia].
        * exists (l :: ts), rest. refine (conj _ (conj _ (conj _ _))); [apply db_text; [apply H|exact HD]|exact HS|exact Hr|cbn; lia].
  Qed.

  Lemma text_total ls : no_reqs ls -> exists ts rest,
    text_block ls ts rest /\ stops rest /\ no_reqs rest /\ (length rest <= length ls)%nat.
  Proof.
    induction ls as [|[n l] ls IH]; intros HN.
    - exists [], []. refine (conj _ (conj _ (conj _ _))); [constructor|exact I|exact HN|lia].
    - pose proof HN as HN0. apply no_reqs_cons in HN. destruct HN as [H1 HN]. cbn [snd] in H1.
      destruct (line_cases l H1) as [H|[H|[H|H]]].
      + destruct (IH HN) as (ts & rest & HD & HS & Hr & Hl).
        exists (l :: ts), rest. refine (conj _ (conj _ (conj _ _))); [apply tb_line; auto|exact HS|exact Hr|cbn; lia].
      + exists [], ((n, l) :: ls). refine (conj _ (conj _ (conj _ _))); [apply tb_heading; exact H|left; exact H|exact HN0|apply Nat.le_refl].
      + exists [], ((n, l) :: ls). refine (conj _ (conj _ (conj _ _))); [apply tb_attr; exact H|right; exact H|exact HN0|apply Nat.le_refl].
      + destruct (IH HN) as (ts & rest & HD & HS & Hr & Hl).
        exists (l :: ts), rest. refine (conj _ (conj _ (conj _ _))); [apply tb_line; auto|exact HS|exact Hr|cbn; lia].
  Qed.

  Lemma ref_dec l : is_ref l \/ ~ is_ref l.
  Proof.
    unfold is_ref, content. destruct (starts_with_c HASH l) eqn:E1; [right; intros [[? _] _]; discriminate|].
    destruct (eqb_spec l [NL]) as [E2|E2]; [right; intros [[_ ?] _]; contradiction|].
    destruct (scan_ref l) eqn:E3; [left; repeat split; auto; discriminate|right; intros [_ ?]; congruence].
  Qed.

  Lemma ref_total ls : no_reqs ls -> exists rs rest,
    ref_block ls rs rest /\ match rest with [] => True | (_, l) :: _ => ~ is_ref l end /\
    no_reqs rest /\ (length rest <= length ls)%nat.
  Proof.
    induction ls as [|[n l] ls IH]; intros HN.
    - exists [], []. refine (conj _ (conj _ (conj _ _))); [constructor|exact I|exact HN|lia].
    - destruct (ref_dec l) as [H|H].
      + destruct (IH (proj2 (no_reqs_cons _ _ HN))) as (rs & rest & HD & HS & Hr & Hl).
        exists ((n, l) :: rs), rest. refine (conj _ (conj _ (conj _ _))); [apply rb_ref; assumption|exact HS|exact Hr|cbn; lia].
      + exists [], ((n, l) :: ls). refine (conj _ (conj _ (conj _ _))); [apply rb_stop; exact H|exact H|exact HN|apply Nat.le_refl].
  Qed.

  Lemma blanks_total ls : exists blanks rest, ls = blanks ++ rest /\ all_blank blanks /\
    match rest with [] => True | (_, l) :: _ => ~ blank l end.
  Proof.
    induction ls as [|[n l] ls IH].
    - exists [], []. repeat split. intros x [].
    - destruct (eqb_spec l [NL]) as [E|E].
      + destruct IH as (blanks & rest & -> & HB & HR). exists ((n, l) :: blanks), rest.
        repeat split; [|exact HR]. intros x [<-|Hx]; [exact E|apply HB; exact Hx].
      + exists [], ((n, l) :: ls). repeat split; [intros x []|exact E].
  Qed.

  Lemma attrs_total k : forall ls, (length ls <= k)%nat -> no_reqs ls -> stops ls ->
    exists bs e, attrs ls bs e.
  Proof.
    induction k as [|k IH]; intros ls Hlen HN HS.
    { destruct ls; [|cbn in Hlen; lia]. exists [], Open. constructor. }
    destruct ls as [|[n l] ls]; [exists [], Open; constructor|].
    cbn [length] in Hlen. apply no_reqs_cons in HN. destruct HN as [H1 HN]. cbn [snd] in H1.
    destruct HS as [H|[Hc Ha]]; [exists [], Closed; constructor; exact H|].
    destruct (scan_attribute l) as [[name first]|] eqn:Es; [|congruence].
    assert (HL : forall cov : bool, scan_attribute l = Some (if cov then COVERS else DEPENDS, first) ->
                 exists bs e, attrs ((n, l) :: ls) bs e).
    { intros cov Hcov. destruct (ref_total ls HN) as (refs & rest & HR & Hstop & HNr & Hl).
      assert (HA : exists bs e, after_links rest bs e).
      { destruct rest as [|[n' l'] rest]; [exists [], Open; constructor|].
        cbn [length] in Hl. apply no_reqs_cons in HNr. destruct HNr as [H1' HNr]. cbn [snd] in H1'.
        assert (Hbl : blank l' \/ (no_ref l' /\ trim l' = []) -> exists bs e, after_links ((n', l') :: rest) bs e).
        { intros Hb. destruct (blanks_total rest) as (blanks & rest2 & -> & HB & Hnb).
          assert (HNr2 := no_reqs_app _ _ HNr).
          assert (HX : exists bs e, next_attr rest2 bs e).
          { destruct rest2 as [|[n2 l2] rest2].
            - exists [], Open. apply na_attrs. constructor.
            - pose proof HNr2 as HNr3. apply no_reqs_cons in HNr3. destruct HNr3 as [H2 HNr3]. cbn [snd] in H2.
              rewrite app_length in Hl. cbn [length] in Hl.
              destruct (line_cases l2 H2) as [H|[H|[H|H]]].
              + contradiction.
              + destruct (IH ((n2, l2) :: rest2)) as (bs & e & HA);
                  [cbn; lia|exact HNr2|left; exact H|].
                exists bs, e. apply na_attrs, HA.
              + destruct (IH ((n2, l2) :: rest2)) as (bs & e & HA);
                  [cbn; lia|exact HNr2|right; exact H|].
                exists bs, e. apply na_attrs, HA.
              + eexists. eexists. apply na_broken, H. }
          destruct HX as (bs & e & HX). exists bs, e. eapply al_blank; eauto. }
        assert (Hcont : content l' -> scan_ref l' = None).
        { intros Hcl. destruct (scan_ref l') eqn:Er; [|reflexivity]. exfalso. apply Hstop. split; congruence. }
        destruct (line_cases l' H1') as [H|[H|[H|H]]].
        - apply Hbl. left. exact H.
        - exists [], Closed. apply al_heading, H.
        - destruct (trim l') eqn:Et; [apply Hbl; right; split; [split; [apply H|apply Hcont, H]|reflexivity]|].
          eexists. eexists. apply al_broken; [split; [apply H|apply Hcont, H]|congruence].
        - destruct (trim l') eqn:Et; [apply Hbl; right; split; [split; [apply H|apply Hcont, H]|reflexivity]|].
          eexists. eexists. apply al_broken; [split; [apply H|apply Hcont, H]|congruence]. }
      destruct HA as (bs & e & HA). eexists. exists e. eapply at_links; eauto. }
    destruct (eqb_spec name COVERS) as [->|E1]; [apply (HL true); exact Es|].
    destruct (eqb_spec name DEPENDS) as [->|E2]; [apply (HL false); exact Es|].
    destruct (text_total ls HN) as (ts & rest & HT & HSr & HNr & Hl).
    destruct (IH rest) as (bs & e & HA); [lia|exact HNr|exact HSr|].
    eexists. exists e. eapply at_text; eauto.
  Qed.

  Theorem body_total ls : no_reqs ls -> exists bs e, body ls bs e.
  Proof.
    intros HN. destruct (blanks_total ls) as (blanks & rest & -> & HB & Hnb).
    assert (HNr := no_reqs_app _ _ HN).
    assert (HA : stops rest -> exists bs e, body (blanks ++ rest) bs e).
    { intros HS. destruct (attrs_total (length rest) rest (Nat.le_refl _) HNr HS) as (bs & e & H).
      exists bs, e. apply bo_attrs; assumption. }
    destruct rest as [|[n l] rest]; [apply HA; exact I|].
    pose proof HNr as HNr'. apply no_reqs_cons in HNr'. destruct HNr' as [H1 HNr']. cbn [snd] in H1.
    destruct (line_cases l H1) as [H|[H|[H|H]]].
    - contradiction.
    - apply HA. left. exact H.
    - apply HA. right. exact H.
    - destruct (desc_total rest HNr' false) as (ts & rest2 & HD & HS & HN2 & Hl).
      destruct (attrs_total (length rest2) rest2 (Nat.le_refl _) HN2 HS) as (bs & e & HA2).
      eexists. exists e. eapply bo_desc; eauto.
  Qed.

  (** ** Documents *)
  Definition idle (c : cfg) : bool := match c with Idle _ => true | Active _ _ => false end.

  Lemma step_no_emit c n l : heading_of l = None -> snd (fst (mstep p c n l)) = [].
  Proof.
    intros H. unfold mstep. destruct (line_cases l H) as [Hb|[Hh|[Ha|Ha]]].
    - rewrite Hb, classify_blank. reflexivity.
    - rewrite classify_heading by exact Hh. reflexivity.
    - rewrite classify_content by apply Ha. destruct c; [reflexivity|]. destruct (line_step p r ph n l). reflexivity.
    - rewrite classify_content by apply Ha. destruct c; [reflexivity|]. destruct (line_step p r ph n l). reflexivity.
  Qed.

  Lemma run_no_emit ls : forall c, no_reqs ls -> snd (fst (mrunN c ls)) = [].
  Proof.
    induction ls as [|[n l] ls IH]; intros c H; [reflexivity|].
    apply no_reqs_cons in H. destruct H as [H1 H2]. cbn [mrunN].
    pose proof (step_no_emit c n l H1) as E. destruct (mstep p c n l) as [[c1 rs] es]. cbn in E. subst rs.
    specialize (IH c1 H2). destruct (mrunN c1 ls) as [[c2 rs2] es2]. cbn in *. exact IH.
  Qed.

  Definition closed (be : list block * ending) : bool := negb (is_open (snd be)).

  Fixpoint zip_reqs (ss : list section) (bes : list (list block * ending)) : list requirement :=
    match ss, bes with s :: ss', be :: bes' => section_req p s (fst be) :: zip_reqs ss' bes' | _, _ => [] end.
  Fixpoint zip_errs (ss : list section) (bes : list (list block * ending)) : list error :=
    match ss, bes with s :: ss', be :: bes' => section_err p s be ++ zip_errs ss' bes' | _, _ => [] end.

  Lemma sections_no_reqs ls : no_reqs (fst (sections ls)) /\
    (forall s, In s (snd (sections ls)) -> no_reqs (snd s)).
  Proof.
    induction ls as [|[n l] ls IH]; cbn [sections]; [split; intros x []|].
    destruct (sections ls) as [pre ss]. cbn [fst snd] in IH. destruct IH as [IH1 IH2].
    destruct (heading_of l) as [[id t]|] eqn:E; cbn [fst snd].
    - split; [intros x []|]. intros s [<-|Hs]; [exact IH1|apply IH2; exact Hs].
    - split; [|exact IH2]. intros x [<-|Hx]; [exact E|apply IH1; exact Hx].
  Qed.

  Theorem run_sections ls : forall bes,
    Forall2 section_ok (snd (sections ls)) bes ->
    forall c, exists c2 rs,
      mrunN c ls = (c2, rs, snd (mrunN c (fst (sections ls))) ++ zip_errs (snd (sections ls)) bes) /\
      let c1 := fst (fst (mrunN c (fst (sections ls)))) in
      rs ++ olist (pending c2) = olist (pending c1) ++ zip_reqs (snd (sections ls)) bes /\
      idle c2 = last (map closed bes) (idle c1) /\
      (pending c1 <> None \/ bes <> [] -> pending c2 <> None).
  Proof.
    induction ls as [|[n l] ls IH]; intros bes HF c.
    - cbn in *. inversion HF; subst. exists c, []. cbn. repeat split; [rewrite app_nil_r; reflexivity|].
      intros [H|H]; congruence.
    - pose proof (sections_no_reqs ls) as [HNp _].
      cbn [sections] in *. destruct (sections ls) as [pre ss] eqn:Es. cbn [fst snd] in HNp, IH.
      destruct (heading_of l) as [[id t]|] eqn:E; cbn [fst snd] in *.
      + inversion HF as [|s be ss' bes' Hok HF' E1 E2]; subst. cbn [mrunN fst snd app].
        unfold mstep at 1. rewrite (classify_req l id t E).
        set (r0 := mkRequirement id (Some t) (new_with_line_no p n) [] [] [] []).
        destruct (IH bes' HF' (Active r0 PStart)) as (c2 & rs & E1 & E2 & E3 & E4).
        unfold section_ok in Hok. cbn [snd] in Hok.
        destruct (run_body pre (fst be) (snd be) r0 Hok HNp) as (c1 & Hrun & Hp & Hi).
        rewrite Hrun in E1, E2, E3, E4. cbn [fst snd] in E1, E2, E3, E4. rewrite E1.
        exists c2, (olist (pending c) ++ rs). split; [|split; [|split]].
        * cbn [zip_errs section_err app]. reflexivity.
        * rewrite <- app_assoc, E2, Hp. cbn [zip_reqs section_req]. reflexivity.
        * rewrite E3. cbn [map]. rewrite (MdLexFacts.last_shift (map closed bes')).
          assert (Hid : idle c1 = closed be) by (unfold closed; destruct c1; cbn; rewrite Hi; reflexivity).
          rewrite Hid. reflexivity.
        * intros _. apply E4. left. rewrite Hp. discriminate.
      + cbn [mrunN]. pose proof (step_no_emit c n l E) as Hem.
        destruct (mstep p c n l) as [[c0 rs0] es0]. cbn in Hem. subst rs0.
        destruct (IH bes HF c0) as (c2 & rs & E1 & E2 & E3 & E4). rewrite E1.
        destruct (mrunN c0 pre) as [[c1 rs1] es1] eqn:Hpre. cbn [fst snd] in *.
        exists c2, rs. rewrite app_assoc. repeat split; try assumption.
  Qed.
End Exact.
