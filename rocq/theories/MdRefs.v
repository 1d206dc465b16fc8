(** Lists of references of Markdown requirements: where they start, what belongs to them, and the lines of
    white space after them. *)
From Verif Require Import Base OMap Models Unicode Regex Utf8 MdLex MdSyntax MdLexFacts ReadFacts
  MdParser MdSpec MdMachine MdRefine MdExact MdFacts MdLines MdCor MdCor2 MdShift MdAttr DocFacts LineEnds.
From Verif Require RoundFacts.
Open Scope N_scope.

Section MdRefs.
  Context {U : UnicodeTables} (p : path).

  (** All lines up to the first that does not end in a reference, is empty or a heading. *)
  Fixpoint ref_run (ls : list nline) : list nline :=
    match ls with
    | [] => []
    | (n, l) :: ls' =>
        if starts_with_c HASH l then []
        else if eqb l [NL] then []
        else match scan_ref l with Some _ => (n, l) :: ref_run ls' | None => [] end
    end.

  Lemma ref_run_block ls rs left : ref_block ls rs left -> rs = ref_run ls.
  Proof.
    induction 1 as [|n l ls H|n l ls rs left H _ IH]; cbn [ref_run].
    - reflexivity.
    - destruct (starts_with_c HASH l) eqn:E1; [reflexivity|]. destruct (eqb_spec l [NL]) as [|E2]; [reflexivity|].
      destruct (scan_ref l) eqn:E3; [|reflexivity]. elim H. split; [split; assumption|congruence].
    - destruct H as [[H1 H2] H3]. rewrite H1. destruct (eqb_spec l [NL]); [contradiction|].
      destruct (scan_ref l); [|contradiction]. rewrite IH. reflexivity.
  Qed.

  Definition link_name (cov : bool) : str := if cov then COVERS else DEPENDS.
  Definition links_in (cov : bool) (r : requirement) : list reference := if cov then req_covers r else req_depends r.

  Lemma link_name_inj c c' : link_name c = link_name c' -> c = c'.
  Proof. destruct c, c'; cbn; congruence. Qed.

  Lemma link_blocks_all :
    (forall ls bs e, attrs ls bs e -> forall n c f refs, In (BLinks n c f refs) bs ->
       exists x, In x ls /\ scan_attribute (snd x) = Some (link_name c, f)) /\
    (forall ls bs e, after_links ls bs e -> forall n c f refs, In (BLinks n c f refs) bs ->
       exists x, In x ls /\ scan_attribute (snd x) = Some (link_name c, f)) /\
    (forall ls bs e, next_attr ls bs e -> forall n c f refs, In (BLinks n c f refs) bs ->
       exists x, In x ls /\ scan_attribute (snd x) = Some (link_name c, f)).
  Proof.
    apply attrs_mutind; try (intros; contradiction).
    - intros n l ls name first ts rest bs e Hc Ha H1 H2 HT _ IH n0 c f refs [Hb|Hb]; [discriminate|].
      destruct (IH _ _ _ _ Hb) as (x & Hx & E). exists x. split; [|exact E].
      right. eapply sublist_in; [eapply text_rest; exact HT|exact Hx].
    - intros n l ls cov first refs rest bs e Hc Ha HR _ IH n0 c f refs0 [Hb|Hb].
      + injection Hb as -> -> -> ->. exists (n0, l). split; [left; reflexivity|exact Ha].
      + destruct (IH _ _ _ _ Hb) as (x & Hx & E). exists x. split; [|exact E].
        right. rewrite (ref_rest _ _ _ HR). apply in_or_app. auto.
    - intros n l ls blanks rest bs e _ -> _ _ IH n0 c f refs Hb.
      destruct (IH _ _ _ _ Hb) as (x & Hx & E). exists x. split; [|exact E].
      right. apply in_or_app. auto.
    - intros ls bs e _ IH n0 c f refs Hb. exact (IH _ _ _ _ Hb).
  Qed.

  Lemma current_block cov bs d : In d (current p cov bs) -> exists n f refs, In (BLinks n cov f refs) bs.
  Proof.
    unfold current. induction bs as [|b bs IH] using rev_ind; intros H; [destruct H|].
    rewrite fold_left_app in H. cbn [fold_left] in H.
    destruct b as [ls|k a f ls|k c f rs]; [| |destruct (Bool.eqb c cov) eqn:E].
    3: { apply Bool.eqb_prop in E. subst c. exists k, f, rs. apply in_or_app. right. left. reflexivity. }
    all: destruct (IH H) as (n' & f' & rs' & Hb); exists n', f', rs'; apply in_or_app; left; exact Hb.
  Qed.

  (** References come from an attribute line of their kind. *)
  Lemma no_links s be cov d : section_ok s be -> In d (current p cov (fst be)) ->
    exists x v, In x (snd s) /\ scan_attribute (snd x) = Some (link_name cov, v).
  Proof.
    intros Hok Hd. destruct (current_block _ _ _ Hd) as (n & f & refs & Hb).
    unfold section_ok in Hok. destruct be as [bs e]. cbn [fst snd] in *.
    destruct Hok as [blanks rest bs e HB HA|blanks n' l ls ts rest bs e HB Hn HD HA].
    - destruct (proj1 link_blocks_all _ _ _ HA _ _ _ _ Hb) as (x & Hx & E). exists x, f. split; [|exact E].
      apply in_or_app. right. exact Hx.
    - destruct Hb as [Hb|Hb]; [discriminate|].
      destruct (proj1 link_blocks_all _ _ _ HA _ _ _ _ Hb) as (x & Hx & E). exists x, f. split; [|exact E].
      apply in_or_app. right. right. eapply sublist_in; [eapply desc_rest; exact HD|exact Hx].
  Qed.

  Lemma current_last cov bs n first refs bs2 :
    (forall k f rs, ~ In (BLinks k cov f rs) bs2) ->
    current p cov (bs ++ BLinks n cov first refs :: bs2) = block_refs p n first refs.
  Proof.
    unfold current. rewrite fold_left_app. cbn [fold_left]. rewrite Bool.eqb_reflx.
    generalize (block_refs p n first refs). intros o. revert o.
    induction bs2 as [|b bs2 IH]; intros o H; [reflexivity|]. cbn [fold_left].
    assert (H' : forall k f rs, ~ In (BLinks k cov f rs) bs2) by (intros k f rs X; apply (H k f rs); right; exact X).
    destruct b as [ls|k a' f ls|k c f rs]; [apply IH, H'|apply IH, H'|].
    destruct (Bool.eqb c cov) eqn:E; [|apply IH, H'].
    apply Bool.eqb_prop in E. subst c. elim (H k f rs). left. reflexivity.
  Qed.

  (** The references of a requirement whose list follows the heading or an empty line. *)
  Theorem md_links_exact r reqs errs s req pre n l rest cov first :
    md_parse p r = Done (reqs, errs) -> In s (doc_sections r) -> snd s = pre ++ (n, l) :: rest ->
    content l -> scan_attribute l = Some (link_name cov, first) ->
    sep pre -> quiet pre ->
    (forall k m, In k (map fst pre) -> ~ In (EFormat (at_line p k) m) errs) ->
    (forall x v, In x rest -> scan_attribute (snd x) <> Some (link_name cov, v)) ->
    In req reqs -> req_location req = at_line p (fst (fst (section_head s))) ->
    links_in cov req = inline_refs p n first ++ bullet_refs p (ref_run rest).
  Proof.
    intros HD Hs E Hc Ha HS HQ HB Hl Hin Hloc.
    destruct (md_blocks_exist r) as (bes & HF).
    assert (Hbe : exists be, In (s, be) (combine (doc_sections r) bes) /\ section_ok s be).
    { clear - HF Hs. induction HF as [|s0 be0 ss bs H0 _ IH]; [destruct Hs|]. destruct Hs as [->|Hs].
      - exists be0. split; [left; reflexivity|exact H0].
      - destruct (IH Hs) as (be & Hb & Hok). exists be. split; [right; exact Hb|exact Hok]. }
    destruct Hbe as (be & Hcomb & Hok).
    assert (HP : md_parse p r <> Panic) by congruence.
    pose proof (md_exact p r bes HF HP) as HE. rewrite HD in HE. injection HE as _ He.
    destruct (md_last_wins p r reqs errs s be req HD Hs Hok Hin Hloc) as (_ & Hcv & Hdp & _).
    assert (Hk : links_in cov req = current p cov (fst be)) by (destruct cov; assumption). rewrite Hk.
    assert (HA : is_attr l) by (split; [exact Hc|rewrite Ha; discriminate]).
    assert (HN : not_broken (snd be) pre).
    { intros k m Ee Hkn. apply (HB k m Hkn). rewrite He. apply in_or_app. left. rewrite zip_errs_map.
      apply in_flat_map. exists (s, be). split; [exact Hcomb|]. destruct s as [[[n0 id] t] ls]. cbn [fst snd section_err].
      apply in_or_app. right. rewrite Ee. left. reflexivity. }
    destruct (recognised _ _ _ _ _ _ _ Hok E HA HS HQ HN) as (bs1 & bs2 & -> & HT).
    inversion HT as [|n0 l0 ls0 Hh|n0 l0 ls0 nm f ts left bs e Hc' Ha' H1' H2' HX HY|n0 l0 ls0 c f refs left bs e Hc' Ha' HX HY]; subst.
    - exfalso. exact (attr_not_heading _ HA Hh).
    - rewrite Ha in Ha'. injection Ha' as E1 E2. exfalso. destruct cov; [apply H1'|apply H2']; symmetry; exact E1.
    - rewrite Ha in Ha'. change (if c then COVERS else DEPENDS) with (link_name c) in Ha'.
      injection Ha' as E1 E2. apply link_name_inj in E1. subst c f. rewrite current_last.
      + unfold block_refs. rewrite (ref_run_block _ _ _ HX). reflexivity.
      + intros k f rs Hb. destruct (proj1 (proj2 link_blocks_all) _ _ _ HY _ _ _ _ Hb) as (x & Hx & Ex).
        apply (Hl x f); [|exact Ex]. rewrite (ref_rest _ _ _ HX). apply in_or_app. auto.
  Qed.

  (** ** Lines of white space after a list *)
  (** The text ends within a list of references. *)
  Definition in_list (pre : list N) : Prop :=
    exists hd n l refs cov first, lines_of pre = hd ++ (n, l) :: refs /\
      (exists m x, last hd (0, []) = (m, x) /\ (blank x \/ heading_of x <> None)) /\
      content l /\ scan_attribute l = Some (link_name cov, first) /\ (forall x, In x refs -> is_ref (snd x)).

  Lemma scan_ref_ws w : forallb is_ws w = true -> scan_ref w = None.
  Proof.
    induction w as [|c w IH]; intros H; [reflexivity|]. cbn [forallb] in H. apply andb_prop in H. destruct H as [H1 H2].
    cbn [scan_ref]. unfold scan_ref_here. rewrite H1, (trim_start_all w H2). cbn. exact (IH H2).
  Qed.
  Lemma trim_ws w : forallb is_ws w = true -> trim w = [].
  Proof. intros H. unfold trim. rewrite (trim_start_all w H). reflexivity. Qed.

  Definition after_separator (c : cfg) : Prop :=
    match c with
    | Idle _ => True
    | Active _ ph => match ph with PDesc _ | PLinks _ _ => False | _ => True end
    end.

  Lemma step_separator c n x : blank x \/ heading_of x <> None -> after_separator (fst (fst (mstep p c n x))).
  Proof.
    intros [->|H].
    - destruct c as [o|r ph].
      + unfold mstep. rewrite classify_blank. exact I.
      + rewrite step_blank. destruct ph; exact I.
    - unfold mstep, classify. unfold heading_of in H. destruct (eqb_spec x [NL]) as [->|].
      + cbn in H. destruct c as [o|r ph]; [exact I|]. destruct ph; exact I.
      + destruct (scan_requirement x) as [[[h id] t]|]; [exact I|contradiction].
  Qed.

  Definition listing (c : cfg) : Prop :=
    match c with Idle _ => True | Active _ ph => match ph with PLinks _ _ => True | _ => False end end.

  Lemma content_no_heading l : content l -> heading_of l = None.
  Proof.
    intros [H _]. unfold heading_of. destruct (scan_requirement l) as [[[h id] t]|] eqn:E; [|reflexivity].
    apply req_starts_hash in E. congruence.
  Qed.

  Lemma step_list c n l cov first : after_separator c -> content l -> scan_attribute l = Some (link_name cov, first) ->
    listing (fst (fst (mstep p c n l))).
  Proof.
    intros HS Hc Ha. destruct c as [o|r ph].
    - rewrite step_idle; [exact I|apply content_no_heading, Hc].
    - rewrite (step_attr p r ph n l (link_name cov) first); [| |exact Hc|exact Ha].
      + unfold start_attr. destruct cov; cbn; exact I.
      + destruct ph; cbn in *; try exact I; contradiction.
  Qed.

  Lemma step_bullet c n l : listing c -> is_ref l -> listing (fst (fst (mstep p c n l))).
  Proof.
    intros HL [Hc Hr]. destruct c as [o|r ph].
    - rewrite step_idle; [exact I|apply content_no_heading, Hc].
    - destruct ph; cbn in HL; try contradiction. rewrite (step_content p r _ n l Hc). cbn.
      destruct (scan_ref l) as [[id t]|]; [exact I|contradiction].
  Qed.

  Lemma step_white c n w : listing c -> forallb is_ws w = true -> w <> [] ->
    mstep p c n (w ++ [NL]) = mstep p c n [NL].
  Proof.
    intros HL Hw Hne.
    assert (HwN : forallb is_ws (w ++ [NL]) = true) by (rewrite forallb_app, Hw; reflexivity).
    assert (Hc : content (w ++ [NL])).
    { split.
      - destruct w as [|x w]; [reflexivity|]. cbn in Hw |- *. apply andb_prop in Hw. destruct Hw as [Hx _].
        destruct (N.eqb_spec x HASH) as [->|]; [discriminate|reflexivity].
      - intros E. destruct w as [|x w]; [contradiction|]. cbn in E. inversion E as [[E1 E2]]. destruct w; discriminate. }
    destruct c as [o|r ph].
    - rewrite (step_idle p o n (w ++ [NL])) by (apply content_no_heading, Hc).
      symmetry. apply (step_idle p o n [NL]). reflexivity.
    - destruct ph; cbn in HL; try contradiction. rewrite (step_content p r _ n _ Hc), step_blank. cbn.
      rewrite (scan_ref_ws _ HwN), (trim_ws _ HwN). reflexivity.
  Qed.

  Lemma run_listing ls c : listing c -> (forall x, In x ls -> is_ref (snd x)) ->
    listing (fst (fst (mrunN p c ls))).
  Proof.
    revert c. induction ls as [|[n l] ls IH]; intros c HL HR; [exact HL|]. cbn [mrunN].
    pose proof (step_bullet c n l HL (HR _ (or_introl eq_refl))) as H.
    destruct (mstep p c n l) as [[c1 rs] es]. cbn [fst] in H.
    specialize (IH c1 H (fun x Hx => HR x (or_intror Hx))).
    destruct (mrunN p c1 ls) as [[c2 rs'] es']. exact IH.
  Qed.

  Lemma in_list_listing pre ls : in_list pre -> lines_of pre = number 0 ls ->
    listing (fst (fst (mrun p (Idle None) 0 ls))).
  Proof.
    intros (hd & n & l & refs & cov & first & E & (m & x & Hlast & Hx) & Hc & Ha & HR) En.
    rewrite mrun_number, <- En, E, mrunN_app.
    assert (HS : after_separator (fst (fst (mrunN p (Idle None) hd)))).
    { destruct hd as [|y hd] using rev_ind.
      - cbn in Hlast. inversion Hlast; subst. exact I.
      - clear IHhd. rewrite last_last in Hlast. subst y. rewrite mrunN_app.
        destruct (mrunN p (Idle None) hd) as [[c rs] es]. cbn [mrunN].
        pose proof (step_separator c m x Hx) as H. destruct (mstep p c m x) as [[c1 rs1] es1]. exact H. }
    destruct (mrunN p (Idle None) hd) as [[c rs] es]. cbn [fst] in HS. cbn [mrunN].
    pose proof (step_list c n l cov first HS Hc Ha) as H.
    destruct (mstep p c n l) as [[c1 rs1] es1]. cbn [fst] in H.
    pose proof (run_listing refs c1 H HR) as H'.
    destruct (mrunN p c1 refs) as [[c2 rs2] es2]. exact H'.
  Qed.

  Theorem white_after_list pre w doc f :
    text_lines pre -> in_list pre -> forallb is_ws w = true -> ~ In NL w ->
    md_parse p (mkReader (pre ++ encode w ++ [NL] ++ doc) f) = md_parse p (mkReader (pre ++ [NL] ++ doc) f).
  Proof.
    intros HT HL Hw Hnl. destruct w as [|c0 w0] eqn:Ew; [reflexivity|]. rewrite <- Ew in *.
    assert (Hne : w <> []) by (rewrite Ew; discriminate). clear Ew.
    assert (Hsc : forallb scalar w = true).
    { apply forallb_forall. intros c Hc. rewrite forallb_forall in Hw. specialize (Hw c Hc). clear -Hw.
      unfold is_ws in Hw. unfold scalar.
      repeat (apply orb_prop in Hw; destruct Hw as [Hw|Hw]); try (apply andb_prop in Hw; destruct Hw as [H1 H2]; apply N.leb_le in H1, H2);
        try apply N.eqb_eq in Hw; subst; try reflexivity;
        apply orb_true_intro; left; apply N.ltb_lt; lia. }
    assert (Hm : text_lines (encode w ++ [NL]) /\ lines_of (encode w ++ [NL]) = [(1, w ++ [NL])]).
    { assert (HscN : forallb scalar (w ++ [NL]) = true) by (rewrite forallb_app, Hsc; reflexivity).
      assert (Ee : encode w ++ [NL] = encode (w ++ [NL])) by (rewrite encode_app; reflexivity).
      split.
      - split; [|right; eauto]. rewrite Ee, (decode_encode _ HscN). discriminate.
      - rewrite Ee. unfold lines_of. rewrite (text_doc _ HscN).
        change (w ++ [NL]) with (w ++ NL :: []). rewrite (RoundFacts.split_line w [] Hnl). reflexivity. }
    destruct Hm as [Hm1 Hm2].
    destruct (DocFacts.text_run pre HT) as (ls & E1 & En & Eok & Eer & Hob & Hlen & Ecat).
    destruct (DocFacts.text_run (encode w ++ [NL]) Hm1) as (l1 & _ & En1 & _ & _ & Hob1 & Hlen1 & Ecat1).
    assert (Hb : text_lines [NL]) by (split; [discriminate|right; exists []; reflexivity]).
    destruct (DocFacts.text_run [NL] Hb) as (l2 & _ & En2 & _ & _ & Hob2 & Hlen2 & Ecat2).
    assert (F1 : l1 = [w ++ [NL]]).
    { rewrite Hm2 in En1. destruct l1 as [|y [|z l1]]; cbn in En1; try discriminate. injection En1 as <-. reflexivity. }
    assert (F2 : l2 = [[NL]]).
    { change (lines_of [NL]) with [(1, [NL])] in En2. destruct l2 as [|y [|z l2]]; cbn in En2; try discriminate.
      injection En2 as <-. reflexivity. }
    subst l1 l2.
    assert (Ea : pre ++ encode w ++ [NL] ++ doc = pre ++ (encode w ++ [NL]) ++ doc) by (rewrite <- app_assoc; reflexivity).
    rewrite Ea, !md_parse_spec, !Ecat, Ecat1, Ecat2. unfold one_byte_tail.
    rewrite !ok_lines_app, !read_error_app, !existsb_app, Hob, Hob1, Hob2. cbn [orb].
    destruct (existsb one_byte (ok_lines (read_lines (mkReader doc f)))); [reflexivity|]. unfold mresult.
    pose proof (in_list_listing pre ls HL En) as HI.
    rewrite (mrun_cat p ls), (mrun_cat p ls).
    destruct (mrun p (Idle None) 0 ls) as [[c rs] es]. cbn [fst] in HI. cbn [app mrun].
    rewrite (step_white c _ w HI Hw Hne). reflexivity.
  Qed.
End MdRefs.
