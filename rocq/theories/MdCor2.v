(** More consequences of the exact result of the Markdown parser: well-formed ids and titles,
    attribute values, duplicates, descriptions. *)
From Coq Require Import Sorting.Sorted.
From Verif Require Import Base OMap Models Unicode Regex Utf8 MdLex MdSyntax MdLexFacts ReadFacts
  MdParser MdSpec MdMachine MdRefine MdExact MdFacts MdLines MdCor.
Open Scope N_scope.

Section Cor2.
  Context {U : UnicodeTables} (p : path).

  (** ** C21 *)
  (** XID_Start XID_Continue+ *)
  Definition valid_id (id : str) : Prop :=
    exists c w, id = c :: w /\ xid_start c = true /\ w <> [] /\ forallb xid_continue w = true.

  Lemma scan_id_valid w id rest : scan_id w = Some (id, rest) -> valid_id id.
  Proof.
    destruct w as [|c w]; [discriminate|]. cbn. destruct (xid_start c) eqn:E; [|discriminate].
    destruct (span xid_continue w) as [a b] eqn:Es. destruct a as [|x a]; [discriminate|].
    intros H. inversion H; subst. exists c, (x :: a). split; [reflexivity|]. split; [exact E|].
    split; [discriminate|]. pose proof (span_all xid_continue w) as Ha. rewrite Es in Ha. exact Ha.
  Qed.

  Lemma trim_in c s : In c (trim s) -> In c s.
  Proof.
    unfold trim. intros H. destruct (trim_start_decomp s) as (a & E & _).
    destruct (trim_end_decomp (trim_start s)) as (b & E2 & _). rewrite E, E2.
    apply in_or_app. right. apply in_or_app. left. exact H.
  Qed.

  Lemma scan_title_in w t c : scan_title w = Some t -> In c t -> In c (chomp w).
  Proof.
    unfold scan_title. destruct (chomp w) as [|x w'] eqn:E; [discriminate|].
    destruct (trim (x :: w')) as [|y t'] eqn:Et; intros H; inversion H; subst.
    - intros [<-|[]]. clear. revert x. induction w' as [|z w' IH]; intros x; [left; reflexivity|].
      right. rewrite MdLexFacts.last_shift. apply IH.
    - intros Hc. apply trim_in. rewrite Et. exact Hc.
  Qed.

  Lemma scan_title_nonempty w t : scan_title w = Some t -> t <> [].
  Proof.
    unfold scan_title. destruct (chomp w) as [|x w']; [discriminate|].
    destruct (trim (x :: w')); intros H; inversion H; discriminate.
  Qed.

  Lemma chomp_suffix_in a b c : In c (chomp b) -> In c (chomp (a ++ b)).
  Proof.
    intros H. destruct b as [|x b]; [destruct H|]. rewrite chomp_app by discriminate. apply in_or_app. auto.
  Qed.

  Lemma span_suffix q w : exists a, w = a ++ snd (span q w).
  Proof. exists (fst (span q w)). symmetry. apply span_eq. Qed.
  Lemma trim_start_suffix w : exists a, w = a ++ trim_start w.
  Proof. destruct (trim_start_decomp w) as (a & E & _). exists a. exact E. Qed.

  Lemma heading_wf l id t : proper l -> heading_of l = Some (id, t) ->
    valid_id id /\ trimmed t /\ ~ In NL t.
  Proof.
    intros HP H. unfold heading_of in H. destruct (scan_requirement l) as [[[h id'] t']|] eqn:E; [|discriminate].
    inversion H; subst id' t. clear H. unfold scan_requirement in E.
    destruct (span_suffix (N.eqb HASH) l) as (s1 & El).
    destruct (span (N.eqb HASH) l) as [hh w1]. cbn [snd] in El. destruct hh as [|h0 hh]; [discriminate|].
    destruct (trim_start_suffix w1) as (s2 & Ew).
    destruct (scan_id (trim_start w1)) as [[id2 [|c r]]|] eqn:Ei; [discriminate| |discriminate].
    destruct (c =? COLON); [|discriminate]. destruct (scan_title r) as [t2|] eqn:Et; [|discriminate].
    inversion E; subst. split; [eapply scan_id_valid; exact Ei|]. split; [apply trim_trimmed|].
    intros HN. apply trim_in in HN. apply HP.
    apply (scan_title_in _ _ _ Et) in HN.
    apply scan_id_eq in Ei. rewrite Ew, Ei.
    replace (s1 ++ s2 ++ id ++ c :: r) with ((s1 ++ s2 ++ id ++ [c]) ++ r) by (rewrite <- !app_assoc; reflexivity).
    apply chomp_suffix_in. exact HN.
  Qed.

  Lemma scan_ref_here_wf w id t : scan_ref_here w = Some (id, t) ->
    valid_id id /\ (forall t', t = Some t' -> t' <> [] /\ forall c, In c t' -> In c (chomp w)).
  Proof.
    unfold scan_ref_here. destruct w as [|c w]; [discriminate|]. destruct (is_ws c); [|discriminate].
    destruct (trim_start_suffix w) as (s & Es).
    destruct (scan_id (trim_start w)) as [[id' r]|] eqn:Ei; [|discriminate].
    pose proof (scan_id_valid _ _ _ Ei) as Hv. apply scan_id_eq in Ei.
    destruct r as [|c' r'].
    - intros H. inversion H; subst. split; [exact Hv|discriminate].
    - destruct (c' =? COLON).
      + destruct (scan_title r') as [t2|] eqn:Et; [|discriminate]. intros H. inversion H; subst.
        split; [exact Hv|]. intros t' E. inversion E; subst. split; [eapply scan_title_nonempty; exact Et|].
        intros x Hx. apply (scan_title_in _ _ _ Et) in Hx. rewrite Es, Ei.
        replace (c :: s ++ id ++ c' :: r') with ((c :: s ++ id ++ [c']) ++ r')
          by (cbn; rewrite <- !app_assoc; reflexivity).
        apply chomp_suffix_in. exact Hx.
      + destruct (forallb is_ws (c' :: r')); [|discriminate]. intros H. inversion H; subst.
        split; [exact Hv|discriminate].
  Qed.

  Lemma scan_ref_wf w id t : scan_ref w = Some (id, t) ->
    valid_id id /\ (forall t', t = Some t' -> t' <> [] /\ forall c, In c t' -> In c (chomp w)).
  Proof.
    induction w as [|c w IH]; cbn [scan_ref]; [discriminate|].
    destruct (scan_ref_here (c :: w)) as [x|] eqn:E.
    - intros H. inversion H; subst. apply scan_ref_here_wf. exact E.
    - intros H. destruct (IH H) as [H1 H2]. split; [exact H1|]. intros t' Et. destruct (H2 t' Et) as [H3 H4].
      split; [exact H3|]. intros x Hx. apply (chomp_suffix_in [c] w). apply H4, Hx.
  Qed.

  (** A reference of a `* ID: title` line, or of the list after `Covers:`. *)
  Definition bullet_ref_wf (x : reference) : Prop :=
    valid_id (ref_id x) /\ (forall t, ref_title x = Some t -> t <> [] /\ ~ In NL t).
  Definition inline_ref_wf (x : reference) : Prop :=
    ref_title x = None /\ ref_id x <> [] /\ trimmed (ref_id x) /\ ~ In COMMA (ref_id x).

  Lemma doc_proper r x : In x (doc_lines r) -> proper (snd x).
  Proof.
    intros H. unfold doc_lines in H. apply (in_map snd) in H. rewrite number_snd in H.
    revert H. generalize (read_lines_wf r). generalize (read_lines r). intros rs HW.
    induction HW as [|m|s Hne Hn|a l Ha Hl IH]; cbn; [intros []|intros []| |].
    - intros [<-|[]]. apply proper_no_nl. exact Hn.
    - intros [H|H]; [|apply IH, H]. rewrite <- H. apply proper_nl. exact Ha.
  Qed.

  Lemma split_on_no c s x : In x (split_on c s) -> ~ In c x.
  Proof.
    revert x. induction s as [|y s IH]; intros x; cbn.
    - intros [<-|[]] [].
    - destruct (N.eqb_spec y c) as [->|Hy].
      + intros [<-|H]; [intros []|apply IH, H].
      + destruct (split_on c s) as [|q qs].
        * intros [<-|[]]. intros [E|[]]. congruence.
        * intros [<-|H]; [|apply IH; right; exact H]. intros [E|H]; [congruence|].
          revert H. apply IH. left. reflexivity.
  Qed.

  Lemma block_refs_wf n first refs ls :
    (forall x, In x refs -> In x ls) -> (forall x, In x ls -> proper (snd x)) ->
    forall x, In x (block_refs p n first refs) -> bullet_ref_wf x \/ inline_ref_wf x.
  Proof.
    intros Hsub HP x Hx. unfold block_refs in Hx. apply in_app_or in Hx. destruct Hx as [Hx|Hx].
    - right. unfold inline_refs in Hx. apply in_flat_map in Hx. destruct Hx as (q & Hq & Hx).
      apply split_on_no in Hq. destruct (trim q) as [|c w] eqn:Et; [destruct Hx|].
      destruct Hx as [<-|[]]. unfold inline_ref_wf. cbn [ref_title ref_id]. rewrite <- Et.
      split; [reflexivity|]. split; [rewrite Et; discriminate|]. split; [apply trim_trimmed|].
      intros H. apply Hq. apply trim_in. exact H.
    - left. unfold bullet_refs in Hx. apply in_flat_map in Hx. destruct Hx as (y & Hy & Hx).
      destruct (scan_ref (snd y)) as [[id t]|] eqn:E; [|destruct Hx]. destruct Hx as [<-|[]].
      apply scan_ref_wf in E. destruct E as [E1 E2]. split; [exact E1|]. cbn. intros t' Et.
      destruct (E2 t' Et) as [H1 H2]. split; [exact H1|]. intros HN. apply H2 in HN.
      exact (HP y (Hsub y Hy) HN).
  Qed.

  Lemma links_in_body s be n cov first refs x : section_ok s be ->
    In (BLinks n cov first refs) (fst be) -> In x refs -> In x (snd s).
  Proof.
    intros Hok Hin Hx. unfold section_ok in Hok. destruct be as [bs e]. cbn [fst snd] in *.
    assert (G : (forall ls bs e, attrs ls bs e -> In (BLinks n cov first refs) bs -> In x ls) /\
                (forall ls bs e, after_links ls bs e -> In (BLinks n cov first refs) bs -> In x ls) /\
                (forall ls bs e, next_attr ls bs e -> In (BLinks n cov first refs) bs -> In x ls)).
    { apply attrs_mutind; try (intros; contradiction).
      - intros n' l ls name f ts rest bs' e' _ _ _ _ HT _ IH [H|H]; [discriminate|].
        right. eapply sublist_in; [eapply text_rest; exact HT|apply IH; exact H].
      - intros n' l ls cov' f refs' rest bs' e' _ _ HR _ IH H. apply ref_rest in HR. subst ls. right.
        apply in_or_app. destruct H as [H|H]; [inversion H; subst; auto|]. right. apply IH, H.
      - intros n' l ls blanks rest bs' e' _ -> _ _ IH H. right. apply in_or_app. right. apply IH, H.
      - intros ls bs' e' _ IH H. apply IH, H. }
    destruct Hok as [blanks rest bs e HB HA|blanks n' l ls ts rest bs e HB Hn HD HA].
    - apply in_or_app. right. apply (proj1 G _ _ _ HA). exact Hin.
    - apply in_or_app. right. right. destruct Hin as [H|H]; [discriminate|].
      eapply sublist_in; [eapply desc_rest; exact HD|]. apply (proj1 G _ _ _ HA). exact H.
  Qed.

  Lemma section_in_doc r s x : In s (doc_sections r) -> In x (snd s) -> In x (doc_lines r).
  Proof.
    intros Hs Hx. apply sections_split in Hs. destruct Hs as (a & l & b & -> & _).
    apply in_or_app. right. right. apply in_or_app. auto.
  Qed.

  Theorem md_wellformed r reqs errs req :
    md_parse p r = Done (reqs, errs) -> In req reqs ->
    valid_id (req_id req) /\
    (exists t, req_title req = Some t /\ trimmed t /\ ~ In NL t) /\
    (forall x, In x (req_covers req ++ req_depends req) -> bullet_ref_wf x \/ inline_ref_wf x).
  Proof.
    intros HD Hin. destruct (md_in_req p _ _ _ _ HD Hin) as (s & be & Hs & Hok & ->).
    pose proof (section_req_head p s (fst be)) as Hh.
    assert (Hs' := Hs). apply sections_split in Hs'. destruct Hs' as (a & l & b & E & Hl & _).
    assert (Hp : proper l).
    { apply (doc_proper r (fst (fst (section_head s)), l)). rewrite E. apply in_or_app. right. left. reflexivity. }
    destruct (heading_wf _ _ _ Hp Hl) as (H1 & H2 & H3).
    unfold head, head_of in Hh.
    destruct s as [[[n id] t] ls]. cbn [section_head fst snd] in Hh, H1, H2, H3.
    injection Hh as Hloc Hid Ht. cbn [section_req]. rewrite Hid, Ht. split; [exact H1|]. split; [eauto|].
    assert (Hrefs : forall n' cov first refs, In (BLinks n' cov first refs) (fst be) ->
              forall x, In x (block_refs p n' first refs) -> bullet_ref_wf x \/ inline_ref_wf x).
    { intros n' cov first refs Hb x. apply (block_refs_wf n' first refs (doc_lines r)).
      - intros y Hy. eapply section_in_doc; [exact Hs|]. eapply links_in_body; eassumption.
      - intros y Hy. apply (doc_proper r). exact Hy. }
    intros x Hx. apply in_app_or in Hx. destruct Hx as [Hx|Hx].
    - destruct (blocks_req_covers p (fst be) (blank_req p n id t)) as [H|(k & first & refs & Hb & H)];
        rewrite H in Hx; [destruct Hx|]. eapply Hrefs; eassumption.
    - destruct (blocks_req_depends p (fst be) (blank_req p n id t)) as [H|(k & first & refs & Hb & H)];
        rewrite H in Hx; [destruct Hx|]. eapply Hrefs; eassumption.
  Qed.

  (** ** Attribute values: the last block wins *)
  (** The text of attribute [a] after blocks [bs]. *)
  Definition value (a : str) (bs : list block) : option str :=
    fold_left (fun acc b =>
      match b with
      | BText _ name first ls => if eqb name a then Some (first ++ concat ls) else acc
      | BDesc ls => if eqb DESCRIPTION a then Some (concat ls) else acc
      | BLinks _ _ _ _ => acc
      end) bs None.
  (** The references of the last Covers ([cov]) or Depends block. *)
  Definition current (cov : bool) (bs : list block) : list reference :=
    fold_left (fun acc b =>
      match b with
      | BLinks n c first refs => if Bool.eqb c cov then block_refs p n first refs else acc
      | _ => acc
      end) bs [].

  Definition agrees (req : requirement) (bs : list block) : Prop :=
    (forall a, oget a (req_attributes req) = value a bs) /\
    req_covers req = current true bs /\ req_depends req = current false bs /\ req_tags req = [].

  Lemma blocks_agree bs n id t : agrees (blocks_req p (blank_req p n id t) bs) bs.
  Proof.
    induction bs as [|b bs IH] using rev_ind; [repeat split|].
    destruct IH as (IH1 & IH2 & IH3 & IH4). unfold agrees, blocks_req, value, current in *.
    rewrite !fold_left_app. cbn [fold_left].
    set (r := fold_left (block_req p) bs (blank_req p n id t)) in *.
    refine (conj _ (conj _ (conj _ _))).
    - intros a. rewrite fold_left_app. cbn [fold_left].
      destruct b as [ls|k name first ls|k [] first refs]; cbn [block_req req_attributes];
        rewrite ?oget_oins, ?IH1; try reflexivity.
      + destruct (eqb_spec DESCRIPTION a) as [->|Hne]; [rewrite eqb_refl; reflexivity|].
        destruct (eqb_spec a DESCRIPTION); [congruence|reflexivity].
      + destruct (eqb_spec name a) as [->|Hne]; [rewrite eqb_refl; reflexivity|].
        destruct (eqb_spec a name); [congruence|reflexivity].
    - destruct b as [ls|k name first ls|k [] first refs]; cbn; try assumption; reflexivity.
    - destruct b as [ls|k name first ls|k [] first refs]; cbn; try assumption; reflexivity.
    - destruct b as [ls|k name first ls|k [] first refs]; cbn; assumption.
  Qed.

  (** Any division into blocks of a section can be taken. *)
  Lemma md_choose r s be : In s (doc_sections r) -> section_ok s be ->
    exists bes, Forall2 section_ok (doc_sections r) bes /\ In (s, be) (combine (doc_sections r) bes).
  Proof.
    intros Hs Hok. destruct (md_blocks_exist r) as (bes & HF). apply in_split in Hs.
    destruct Hs as (s1 & s2 & E). rewrite E in HF. apply Forall2_app_inv_l in HF.
    destruct HF as (b1 & b2 & HF1 & HF2 & ->). inversion HF2 as [|? be0 ? b3 _ HF3]; subst.
    exists (b1 ++ be :: b3). rewrite E. split; [apply Forall2_app; [exact HF1|constructor; assumption]|].
    rewrite combine_app by (eapply Forall2_length; exact HF1). apply in_or_app. right. left. reflexivity.
  Qed.

  Lemma sections_lines_inj r s s' : In s (doc_sections r) -> In s' (doc_sections r) ->
    fst (fst (section_head s)) = fst (fst (section_head s')) -> s = s'.
  Proof.
    intros H H' E. unfold doc_sections in *.
    assert (HN : NoDup (map (fun s => fst (fst (section_head s))) (snd (sections (doc_lines r))))).
    { pose proof (nsorted_fst _ (doc_sorted r)) as HS.
      assert (G : forall ls, StronglySorted N.lt (map fst ls) ->
        StronglySorted N.lt (map (fun s => fst (fst (section_head s))) (snd (sections ls))) /\
        (forall s, In s (snd (sections ls)) -> In (fst (fst (section_head s))) (map fst ls))).
      { clear. induction ls as [|[n l] ls IH]; cbn [sections map fst].
        - intros _. split; [constructor|intros ? []].
        - intros HS. inversion HS as [|? ? H1 H2]; subst. destruct (IH H1) as [IH1 IH2]. clear IH.
          destruct (sections ls) as [pre ss]. cbn [snd] in *.
          destruct (heading_of l) as [[id t]|]; cbn [snd map].
          + split.
            * constructor; [exact IH1|]. apply Forall_forall. intros y Hy. apply in_map_iff in Hy.
              destruct Hy as (s & <- & Hs). rewrite Forall_forall in H2. apply H2, IH2, Hs.
            * intros s [<-|Hs]; [left; reflexivity|right; apply IH2, Hs].
          + split; [exact IH1|]. intros s Hs. right. apply IH2, Hs. }
      apply G in HS. destruct HS as [HS _]. revert HS.
      generalize (map (fun s => fst (fst (section_head s))) (snd (sections (doc_lines r)))).
      induction 1 as [|x l HS IH Hall]; constructor; [|exact IH].
      intros Hx. rewrite Forall_forall in Hall. apply Hall in Hx. lia. }
    revert H H' HN. generalize (snd (sections (doc_lines r))). intros ss.
    induction ss as [|s0 ss IH]; [intros []|]. cbn [map]. intros H H' HN. inversion HN as [|? ? Hni HN']; subst.
    assert (Hi : forall y, In y ss -> In (fst (fst (section_head y))) (map (fun s => fst (fst (section_head s))) ss))
      by (intros y Hy; apply (in_map (fun s => fst (fst (section_head s)))); exact Hy).
    destruct H as [->|H], H' as [->|H'].
    - reflexivity.
    - exfalso. apply Hni. rewrite E. apply Hi, H'.
    - exfalso. apply Hni. rewrite <- E. apply Hi, H.
    - apply IH; assumption.
  Qed.

  (** The requirement of a section is what its blocks say, for any division into blocks. *)
  Theorem md_section_req r reqs errs s be req :
    md_parse p r = Done (reqs, errs) -> In s (doc_sections r) -> section_ok s be ->
    In req reqs -> req_location req = at_line p (fst (fst (section_head s))) ->
    req = section_req p s (fst be).
  Proof.
    intros HD Hs Hok Hin Hloc. destruct (md_choose r s be Hs Hok) as (bes & HF & Hc).
    assert (HP : md_parse p r <> Panic) by congruence.
    pose proof (md_exact p r bes HF HP) as HE. rewrite HD in HE. injection HE as Hr He.
    assert (H : In req (zip_reqs p (doc_sections r) bes)).
    { rewrite Hr in Hin. destruct (last_lost r bes); [apply in_removelast in Hin|]; exact Hin. }
    rewrite zip_reqs_map in H. apply in_map_iff in H. destruct H as ([s' be'] & <- & H). cbn [fst snd] in *.
    assert (Hs' := proj1 (combine_ok _ _ _ _ HF H)).
    assert (E : s' = s).
    { apply (sections_lines_inj r); [exact Hs'|exact Hs|].
      pose proof (section_req_head p s' (fst be')) as Hh. unfold head in Hh. rewrite Hloc in Hh.
      destruct (section_head s') as [[n id] t]. cbn in Hh. inversion Hh. reflexivity. }
    subst s'. f_equal. f_equal.
    (* the position of s is unique *)
    assert (HN : NoDup (doc_sections r)).
    { clear - r. unfold doc_sections. generalize (nsorted_fst _ (doc_sorted r)). generalize (doc_lines r).
      intros ls. assert (G : forall ls, StronglySorted N.lt (map fst ls) -> NoDup (snd (sections ls)) /\
         (forall s, In s (snd (sections ls)) -> In (fst (fst (section_head s))) (map fst ls))).
      { clear. induction ls as [|[n l] ls IH]; cbn [sections map fst].
        - intros _. split; [constructor|intros ? []].
        - intros HS. inversion HS as [|? ? H1 H2]; subst. destruct (IH H1) as [IH1 IH2]. clear IH.
          destruct (sections ls) as [pre ss]. cbn [snd] in *.
          destruct (heading_of l) as [[id t]|]; cbn [snd].
          + split.
            * constructor; [|exact IH1]. intros Hi. apply IH2 in Hi. cbn in Hi.
              rewrite Forall_forall in H2. apply H2 in Hi. lia.
            * intros s [<-|Hs]; [left; reflexivity|right; apply IH2, Hs].
          + split; [exact IH1|]. intros s Hs. right. apply IH2, Hs. }
      intros HS. apply G, HS. }
    clear - HN H Hc. revert bes H Hc. induction (doc_sections r) as [|s0 ss IH]; intros [|b bes]; cbn; try contradiction.
    inversion HN as [|? ? Hni HN']; subst. intros [H|H] [H'|H'].
    - congruence.
    - exfalso. inversion H; subst. apply in_combine_l in H'. contradiction.
    - exfalso. inversion H'; subst. apply in_combine_l in H. contradiction.
    - eapply IH; eassumption.
  Qed.

  Theorem md_last_wins r reqs errs s be req :
    md_parse p r = Done (reqs, errs) -> In s (doc_sections r) -> section_ok s be ->
    In req reqs -> req_location req = at_line p (fst (fst (section_head s))) ->
    agrees req (fst be).
  Proof.
    intros HD Hs Hok Hin Hloc. rewrite (md_section_req r reqs errs s be req HD Hs Hok Hin Hloc).
    destruct s as [[[n id] t] ls]. apply blocks_agree.
  Qed.

  (** ** C24 *)
  (** Block [b], coming after blocks [bs], repeats attribute [a]. *)
  Definition repeats (bs : list block) (b : block) (a : str) : Prop :=
    match b with
    | BDesc _ => False
    | BText _ name _ _ => a = name /\ value name bs <> None
    | BLinks _ cov _ _ => a = (if cov then COVERS else DEPENDS) /\ current cov bs <> []
    end.
  Definition block_line (b : block) : N :=
    match b with BDesc _ => 0 | BText n _ _ _ => n | BLinks n _ _ _ => n end.

  Lemma block_err_iff bs b r e : agrees r bs ->
    (In e (block_err p r b) <-> exists a, repeats bs b a /\ e = EDuplicateAttribute (at_line p (block_line b)) a (req_id r)).
  Proof.
    intros (H1 & H2 & H3 & _). destruct b as [ls|n name first ls|n cov first refs]; cbn [block_err repeats block_line].
    - split; [intros []|]. intros (a & [] & _).
    - rewrite H1. destruct (value name bs).
      + split.
        * intros [<-|[]]. exists name. split; [split; [reflexivity|discriminate]|reflexivity].
        * intros (a & [-> _] & ->). left. reflexivity.
      + split; [intros []|]. intros (a & [-> H] & ->). congruence.
    - destruct cov; [rewrite H2|rewrite H3].
      + destruct (current true bs) as [|x l].
        * split; [intros []|]. intros (a & [-> H] & ->). congruence.
        * split.
          -- intros [<-|[]]. exists COVERS. split; [split; [reflexivity|discriminate]|reflexivity].
          -- intros (a & [-> _] & ->). left. reflexivity.
      + destruct (current false bs) as [|x l].
        * split; [intros []|]. intros (a & [-> H] & ->). congruence.
        * split.
          -- intros [<-|[]]. exists DEPENDS. split; [split; [reflexivity|discriminate]|reflexivity].
          -- intros (a & [-> _] & ->). left. reflexivity.
  Qed.

  Lemma blocks_err_app r bs1 bs2 :
    blocks_err p r (bs1 ++ bs2) = blocks_err p r bs1 ++ blocks_err p (blocks_req p r bs1) bs2.
  Proof.
    revert r. induction bs1 as [|b bs1 IH]; intros r; [reflexivity|].
    cbn [app blocks_err]. rewrite IH, app_assoc. reflexivity.
  Qed.

  Lemma blocks_req_id bs r : req_id (blocks_req p r bs) = req_id r.
  Proof. exact (f_equal (fun x => snd (fst x)) (blocks_req_head p bs r)). Qed.

  Lemma blocks_err_iff n id t bs e :
    In e (blocks_err p (blank_req p n id t) bs) <->
    exists bs1 b bs2 a, bs = bs1 ++ b :: bs2 /\ repeats bs1 b a /\
      e = EDuplicateAttribute (at_line p (block_line b)) a id.
  Proof.
    induction bs as [|b bs IH] using rev_ind.
    - split; [intros []|]. intros (bs1 & b & bs2 & a & E & _). destruct bs1; discriminate.
    - rewrite blocks_err_app, in_app_iff, IH. cbn [blocks_err]. rewrite app_nil_r.
      rewrite (block_err_iff bs b _ e (blocks_agree bs n id t)). rewrite blocks_req_id. cbn [req_id blank_req].
      split.
      + intros [(bs1 & b' & bs2 & a & -> & H)|(a & H & ->)].
        * exists bs1, b', (bs2 ++ [b]), a. rewrite <- app_assoc. split; [reflexivity|exact H].
        * exists bs, b, [], a. auto.
      + intros (bs1 & b' & bs2 & a & E & H1 & H2).
        destruct bs2 as [|b2 bs2] using rev_ind.
        * apply app_inj_tail in E. destruct E as [-> ->]. right. exists a. auto.
        * left. replace (bs1 ++ b' :: bs2 ++ [b2]) with ((bs1 ++ b' :: bs2) ++ [b2]) in E by (rewrite <- app_assoc; reflexivity).
          apply app_inj_tail in E. destruct E as [-> ->]. exists bs1, b', bs2, a. auto.
  Qed.

  Theorem md_duplicates r reqs errs loc a id :
    md_parse p r = Done (reqs, errs) ->
    (In (EDuplicateAttribute loc a id) errs <->
     exists s be bs1 b bs2, In s (doc_sections r) /\ section_ok s be /\ fst be = bs1 ++ b :: bs2 /\
       repeats bs1 b a /\ loc = at_line p (block_line b) /\ id = snd (fst (section_head s))).
  Proof.
    intros HD. split.
    - intros Hin. destruct (md_in_err p _ _ _ _ HD Hin) as [(s & be & Hs & Hok & H)|(m & _ & H)]; [|discriminate].
      exists s, be. destruct s as [[[n id'] t] ls]. cbn [section_err] in H. apply in_app_or in H.
      destruct H as [H|H].
      + apply blocks_err_iff in H. destruct H as (bs1 & b & bs2 & a' & E & Hr & Ee). inversion Ee; subst.
        exists bs1, b, bs2. cbn. auto 10.
      + destruct (snd be); cbn in H; [destruct H|destruct H|]. destruct H as [H|[]]. discriminate.
    - intros (s & be & bs1 & b & bs2 & Hs & Hok & E & Hr & -> & ->).
      destruct (md_choose r s be Hs Hok) as (bes & HF & Hc).
      assert (HP : md_parse p r <> Panic) by congruence.
      pose proof (md_exact p r bes HF HP) as HE. rewrite HD in HE. injection HE as _ ->.
      apply in_or_app. left. rewrite zip_errs_map. apply in_flat_map. exists (s, be). split; [exact Hc|].
      destruct s as [[[n id'] t] ls]. cbn [fst snd section_err section_head]. apply in_or_app. left.
      apply blocks_err_iff. exists bs1, b, bs2, a. auto.
  Qed.

  (** ** C23 *)
  Lemma desc_text (ds : list nline) nls tail b :
    (forall x, In x ds -> content (snd x)) -> all_blank nls ->
    (ds = [] \/ b = false) ->
    (tail = [] \/ (exists x t, tail = x :: t /\ plain_heading (snd x)) \/
     ((nls <> [] \/ (ds = [] /\ b = true)) /\ exists x t, tail = x :: t /\ is_attr (snd x))) ->
    desc_block b (ds ++ nls ++ tail) (map snd (ds ++ nls)) tail.
  Proof.
    revert b. induction ds as [|[n l] ds IH]; intros b Hc HB Hb HT.
    - cbn [app map]. clear Hb. revert b HT. induction nls as [|[n l] nls IH]; intros b HT.
      + cbn. destruct HT as [->|[([n l] & t & -> & H)|([H|[_ ->]] & [n l] & t & -> & H')]].
        * constructor.
        * constructor. exact H.
        * congruence.
        * apply db_attr. exact H'.
      + cbn. apply db_blank; [apply (HB (n, l)); left; reflexivity|].
        apply IH; [intros x Hx; apply HB; right; exact Hx|].
        destruct HT as [H|[H|[_ H]]]; [left; exact H|right; left; exact H|].
        right. right. split; [right; split; reflexivity|exact H].
    - destruct Hb as [Hb|Hb]; [discriminate|]. subst b. cbn. apply db_text; [apply (Hc (n, l)); left; reflexivity|].
      apply IH; [intros x Hx; apply Hc; right; exact Hx|exact HB|auto|].
      destruct HT as [H|[H|[[H|[H _]] H']]]; [auto|auto|auto 6|discriminate].
  Qed.

  Lemma attrs_names name first k ts :
    (forall ls bs e, attrs ls bs e -> In (BText k name first ts) bs -> exists l, In (k, l) ls /\ scan_attribute l = Some (name, first)) /\
    (forall ls bs e, after_links ls bs e -> In (BText k name first ts) bs -> exists l, In (k, l) ls /\ scan_attribute l = Some (name, first)) /\
    (forall ls bs e, next_attr ls bs e -> In (BText k name first ts) bs -> exists l, In (k, l) ls /\ scan_attribute l = Some (name, first)).
  Proof.
    apply attrs_mutind; try (intros; contradiction).
    - intros n l ls nm f ts' rest bs e _ Hs _ _ HT _ IH [H|H].
      + inversion H; subst. exists l. split; [left; reflexivity|exact Hs].
      + destruct (IH H) as (l' & Hi & Hl). exists l'. split; [|exact Hl]. right.
        eapply sublist_in; [eapply text_rest; exact HT|exact Hi].
    - intros n l ls cov f refs rest bs e _ _ HR _ IH [H|H]; [discriminate|].
      destruct (IH H) as (l' & Hi & Hl). exists l'. split; [|exact Hl]. right.
      apply ref_rest in HR. subst ls. apply in_or_app. auto.
    - intros n l ls blanks rest bs e _ -> _ _ IH H. destruct (IH H) as (l' & Hi & Hl). exists l'.
      split; [|exact Hl]. right. apply in_or_app. auto.
    - intros ls bs e _ IH. exact IH.
  Qed.
  Lemma attrs_no_desc ds :
    (forall ls bs e, attrs ls bs e -> ~ In (BDesc ds) bs) /\
    (forall ls bs e, after_links ls bs e -> ~ In (BDesc ds) bs) /\
    (forall ls bs e, next_attr ls bs e -> ~ In (BDesc ds) bs).
  Proof.
    apply attrs_mutind; try (intros; intros []; fail).
    - intros. intros [H'|H']; [discriminate|contradiction].
    - intros. intros [H'|H']; [discriminate|contradiction].
    - intros; assumption.
    - intros; assumption.
  Qed.

  Lemma value_skip a bs : forall acc,
    (forall b, In b bs -> match b with BText _ name _ _ => name <> a | BDesc _ => False | _ => True end) ->
    fold_left (fun acc b =>
      match b with
      | BText _ name first ls => if eqb name a then Some (first ++ concat ls) else acc
      | BDesc ls => if eqb DESCRIPTION a then Some (concat ls) else acc
      | BLinks _ _ _ _ => acc
      end) bs acc = acc.
  Proof.
    induction bs as [|b bs IH]; intros acc H; [reflexivity|]. cbn [fold_left].
    rewrite IH by (intros b' Hb'; apply H; right; exact Hb').
    pose proof (H b (or_introl eq_refl)) as Hb. destruct b as [ls|n name first ls|]; [contradiction| |reflexivity].
    destruct (eqb_spec name a); [contradiction|reflexivity].
  Qed.

  Theorem md_description r reqs errs s req blanks d ds nls tail :
    md_parse p r = Done (reqs, errs) -> In s (doc_sections r) ->
    snd s = blanks ++ (d :: ds) ++ nls ++ tail ->
    all_blank blanks -> all_blank nls ->
    scan_attribute (snd d) = None -> (forall x, In x (d :: ds) -> content (snd x)) ->
    (tail = [] \/ (exists x t, tail = x :: t /\ plain_heading (snd x)) \/
     (nls <> [] /\ exists x t, tail = x :: t /\ is_attr (snd x))) ->
    (forall x v, In x tail -> scan_attribute (snd x) <> Some (DESCRIPTION, v)) ->
    In req reqs -> req_location req = at_line p (fst (fst (section_head s))) ->
    oget DESCRIPTION (req_attributes req) = Some (concat (map snd ((d :: ds) ++ nls))).
  Proof.
    intros HD Hs E HB HN Hd Hc HT Hno Hin Hloc.
    assert (HNr : no_reqs tail).
    { pose proof (sections_no_reqs (doc_lines r)) as [_ H]. specialize (H s Hs). intros x Hx. apply H.
      rewrite E. repeat (apply in_or_app; right). exact Hx. }
    assert (HS : stops tail).
    { destruct HT as [->|[([n l] & t & -> & H)|(_ & [n l] & t & -> & H)]]; cbn; [exact I|left; exact H|right; exact H]. }
    destruct (attrs_total (length tail) tail (Nat.le_refl _) HNr HS) as (bs & e & HA).
    set (be := (BDesc (snd d :: map snd (ds ++ nls)) :: bs, e)).
    assert (Hok : section_ok s be).
    { unfold section_ok, be. cbn [fst snd]. rewrite E. destruct d as [n l]. cbn [app snd] in *.
      apply bo_desc with (rest := tail); [exact HB|split; [|exact Hd]| |exact HA].
      - apply (Hc (n, l)). left. reflexivity.
      - apply desc_text; [intros x Hx; apply Hc; right; exact Hx|exact HN|auto|].
        destruct HT as [H|[H|[H H']]]; auto. }
    destruct (md_last_wins r reqs errs s be req HD Hs Hok Hin Hloc) as (Hv & _).
    rewrite Hv. unfold value, be. cbn [fst fold_left].
    etransitivity; [apply (value_skip DESCRIPTION bs)|rewrite eqb_refl; reflexivity].
    intros b Hb. destruct b as [ls|n name first ls|].
    - exact (proj1 (attrs_no_desc ls) _ _ _ HA Hb).
    - intros ->. destruct (proj1 (attrs_names _ _ _ _) _ _ _ HA Hb) as (l & Hl & Hsc).
      exact (Hno _ _ Hl Hsc).
    - exact I.
  Qed.
End Cor2.
