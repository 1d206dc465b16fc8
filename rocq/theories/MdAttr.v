(** Attribute paragraphs of Markdown requirements: where they start and what their text is. *)
From Verif Require Import Base OMap Models Unicode Regex Utf8 MdLex MdSyntax MdLexFacts ReadFacts
  MdParser MdSpec MdMachine MdRefine MdExact MdFacts MdLines MdCor MdCor2.
Open Scope N_scope.

(** All lines up to the next heading or line of the form `Name: text`. *)
Fixpoint text_run (ls : list nline) : list str :=
  match ls with
  | [] => []
  | (_, l) :: ls' =>
      if starts_with_c HASH l then []
      else match scan_attribute l with Some _ => [] | None => l :: text_run ls' end
  end.

Section MdAttr.
  Context {U : UnicodeTables} (p : path).

  (** Directly after the heading of the section or after an empty line. *)
  Definition ends_blank (pre : list nline) : Prop := exists pre' m, pre = pre' ++ [(m, [NL])].
  Definition sep (pre : list nline) : Prop := pre = [] \/ ends_blank pre.
  Definition quiet (pre : list nline) : Prop := forall x, In x pre -> ~ plain_heading (snd x).

  Lemma ends_blank_tail a pre : ends_blank (a ++ pre) -> sep pre.
  Proof.
    intros (pre' & m & H). destruct pre as [|y pre]; [left; reflexivity|right].
    assert (Hne : y :: pre <> []) by discriminate.
    destruct (exists_last Hne) as (q & x & E). rewrite E in *. rewrite app_assoc in H. apply app_inj_tail in H.
    destruct H as [_ ->]. exists q, m. reflexivity.
  Qed.
  Lemma sep_tail a pre : sep (a ++ pre) -> sep pre.
  Proof.
    intros [H|H]; [apply app_eq_nil in H; left; apply H|]. eapply ends_blank_tail; exact H.
  Qed.
  Lemma ends_blank_cons x pre : ends_blank (x :: pre) -> pre = [] /\ blank (snd x) \/ ends_blank pre.
  Proof.
    intros (pre' & m & H). destruct pre' as [|y pre']; cbn in H; inversion H; subst.
    - left. split; reflexivity.
    - right. exists pre', m. reflexivity.
  Qed.
  Lemma quiet_tail a pre : quiet (a ++ pre) -> quiet pre.
  Proof. intros H x Hx. apply H, in_or_app. auto. Qed.

  Lemma attr_not_heading l : is_attr l -> ~ plain_heading l.
  Proof. intros [[H _] _] [_ H']. congruence. Qed.

  (** What is left of [pre ++ x :: rest] after a block is a part with [x] in it. *)
  Definition keeps (pre : list nline) (x : nline) (rest left : list nline) : Prop :=
    exists a b, pre = a ++ b /\ left = b ++ x :: rest.

  Lemma keeps_cons y pre x rest left : keeps pre x rest left -> keeps (y :: pre) x rest left.
  Proof. intros (a & b & -> & ->). exists (y :: a), b. split; reflexivity. Qed.
  Lemma keeps_refl pre x rest : keeps pre x rest (pre ++ x :: rest).
  Proof. exists [], pre. split; reflexivity. Qed.

  Lemma text_keeps ls ts left : text_block ls ts left -> forall pre n l rest,
    ls = pre ++ (n, l) :: rest -> is_attr l -> keeps pre (n, l) rest left.
  Proof.
    induction 1 as [|n0 l0 ls H|n0 l0 ls H|n0 l0 ls ts left H _ IH]; intros pre n l rest E HA.
    - destruct pre; discriminate.
    - rewrite E. apply keeps_refl.
    - rewrite E. apply keeps_refl.
    - destruct pre as [|y pre]; cbn in E; inversion E; subst.
      + destruct HA as [HA1 HA2]. destruct H as [H|[_ H]]; [|congruence]. destruct HA1 as [_ HA1]. contradiction.
      + apply keeps_cons. apply IH; [reflexivity|exact HA].
  Qed.

  Lemma desc_keeps b ls ts left : desc_block b ls ts left -> forall pre n l rest,
    ls = pre ++ (n, l) :: rest -> is_attr l -> (pre = [] /\ b = true \/ ends_blank pre) ->
    keeps pre (n, l) rest left.
  Proof.
    induction 1 as [b|b n0 l0 ls H|n0 l0 ls H|b n0 l0 ls ts left H _ IH|n0 l0 ls ts left H _ IH|n0 l0 ls ts left H _ IH];
      intros pre n l rest E HA HS.
    - destruct pre; discriminate.
    - rewrite E. apply keeps_refl.
    - rewrite E. apply keeps_refl.
    - destruct pre as [|y pre]; cbn in E; inversion E; subst.
      + destruct HA as [[_ HA] _]. contradiction.
      + apply keeps_cons. apply IH; [reflexivity|exact HA|].
        destruct HS as [[HS _]|HS]; [discriminate|]. apply ends_blank_cons in HS.
        destruct HS as [[-> _]|HS]; [left; split; reflexivity|right; exact HS].
    - destruct pre as [|y pre]; cbn in E; inversion E; subst.
      + destruct HS as [[_ HS]|(q & m & HS)]; [discriminate|destruct q; discriminate].
      + apply keeps_cons. apply IH; [reflexivity|exact HA|].
        destruct HS as [[HS _]|HS]; [discriminate|]. apply ends_blank_cons in HS.
        destruct HS as [[-> HS]|HS]; [destruct H as [_ H]; contradiction|right; exact HS].
    - destruct pre as [|y pre]; cbn in E; inversion E; subst.
      + destruct HA as [_ HA], H as [_ H]. contradiction.
      + apply keeps_cons. apply IH; [reflexivity|exact HA|].
        destruct HS as [[HS _]|HS]; [discriminate|]. apply ends_blank_cons in HS.
        destruct HS as [[-> HS]|HS]; [destruct H as [[_ H] _]; contradiction|right; exact HS].
  Qed.

  Lemma ref_keeps ls rs left : ref_block ls rs left -> forall pre n l rest,
    ls = pre ++ (n, l) :: rest -> ends_blank pre -> exists a b, pre = a ++ b /\ left = b ++ (n, l) :: rest /\ ends_blank b.
  Proof.
    induction 1 as [|n0 l0 ls H|n0 l0 ls rs left H _ IH]; intros pre n l rest E HS.
    - destruct pre; discriminate.
    - exists [], pre. auto.
    - destruct pre as [|y pre]; cbn in E; inversion E; subst.
      + destruct HS as (q & m & HS). destruct q; discriminate.
      + apply ends_blank_cons in HS. destruct HS as [[-> HS]|HS]; [destruct H as [[_ H] _]; contradiction|].
        destruct (IH pre n l rest eq_refl HS) as (a & b & -> & E1 & E2). exists ((n0, l0) :: a), b. auto.
  Qed.

  Lemma blanks_keeps blanks : all_blank blanks -> forall left pre n l rest,
    blanks ++ left = pre ++ (n, l) :: rest -> is_attr l -> keeps pre (n, l) rest left.
  Proof.
    induction blanks as [|y blanks IH]; intros HB left pre n l rest E HA.
    - cbn in E. subst left. apply keeps_refl.
    - destruct pre as [|z pre]; cbn in E; inversion E; subst.
      + specialize (HB _ (or_introl eq_refl)). destruct HA as [[_ HA] _]. contradiction.
      + apply keeps_cons. apply IH; auto. intros x Hx. apply HB. right. exact Hx.
  Qed.

  Definition found (bs : list block) (e : ending) (x : nline) (rest : list nline) : Prop :=
    exists bs1 bs2, bs = bs1 ++ bs2 /\ attrs (x :: rest) bs2 e.

  Lemma found_cons b bs e x rest : found bs e x rest -> found (b :: bs) e x rest.
  Proof. intros (bs1 & bs2 & -> & H). exists (b :: bs1), bs2. split; [reflexivity|exact H]. Qed.

  Definition not_broken (e : ending) (pre : list nline) : Prop :=
    forall k m, e = Broken k m -> ~ In k (map fst pre).
  Lemma not_broken_tail e a b : not_broken e (a ++ b) -> not_broken e b.
  Proof. intros H k m E Hk. apply (H k m E). rewrite map_app. apply in_or_app. auto. Qed.

  Lemma recognised_all n l rest : is_attr l ->
    (forall ls bs e, attrs ls bs e -> forall pre, ls = pre ++ (n, l) :: rest -> sep pre -> quiet pre ->
       not_broken e pre -> found bs e (n, l) rest) /\
    (forall ls bs e, after_links ls bs e -> forall pre, ls = pre ++ (n, l) :: rest -> ends_blank pre -> quiet pre ->
       not_broken e pre -> found bs e (n, l) rest) /\
    (forall ls bs e, next_attr ls bs e -> forall pre, ls = pre ++ (n, l) :: rest -> sep pre -> quiet pre ->
       not_broken e pre -> found bs e (n, l) rest).
  Proof.
    intros HA.
    assert (HH : forall n0 l0 ls pre, plain_heading l0 -> (n0, l0) :: ls = pre ++ (n, l) :: rest -> quiet pre -> False).
    { intros n0 l0 ls pre H E HQ. destruct pre as [|y pre]; cbn in E; inversion E; subst.
      - exact (attr_not_heading _ HA H).
      - exact (HQ _ (or_introl eq_refl) H). }
    apply attrs_mutind.
    - intros pre E. destruct pre; discriminate.
    - intros n0 l0 ls H pre E _ HQ _. exfalso. eapply HH; eassumption.
    - intros n0 l0 ls name first ts left bs e Hc Ha H1 H2 HT HR IH pre E HS HQ HB.
      destruct pre as [|y pre]; cbn in E; inversion E; subst.
      + exists [], (BText n name first ts :: bs). split; [reflexivity|]. eapply at_text; eassumption.
      + apply found_cons. destruct (text_keeps _ _ _ HT _ _ _ _ eq_refl HA) as (a & b & -> & ->).
        rewrite app_comm_cons in HS, HQ, HB.
        apply (IH b eq_refl (sep_tail _ _ HS) (quiet_tail _ _ HQ) (not_broken_tail _ _ _ HB)).
    - intros n0 l0 ls cov first refs left bs e Hc Ha HT HR IH pre E HS HQ HB.
      destruct pre as [|y pre]; cbn in E; inversion E; subst.
      + exists [], (BLinks n cov first refs :: bs). split; [reflexivity|]. eapply at_links; eassumption.
      + apply found_cons. destruct HS as [HS|HS]; [discriminate|]. apply ends_blank_cons in HS.
        destruct HS as [[-> HS]|HS]; [destruct Hc as [_ Hc]; contradiction|].
        destruct (ref_keeps _ _ _ HT _ _ _ _ eq_refl HS) as (a & b & -> & -> & HS').
        rewrite app_comm_cons in HQ, HB.
        apply (IH b eq_refl HS' (quiet_tail _ _ HQ) (not_broken_tail _ _ _ HB)).
    - intros pre E. destruct pre; discriminate.
    - intros n0 l0 ls H pre E _ HQ _. exfalso. eapply HH; eassumption.
    - intros n0 l0 ls H Hw pre E HS HQ HB. exfalso. destruct pre as [|y pre]; cbn in E; inversion E; subst.
      + destruct HS as (q & m & HS). destruct q; discriminate.
      + apply (HB _ _ eq_refl). left. reflexivity.
    - intros n0 l0 ls blanks left bs e H -> Hb HN IH pre E HS HQ HB.
      destruct pre as [|y pre]; cbn in E; inversion E; subst.
      + destruct HS as (q & m & HS). destruct q; discriminate.
      + destruct (blanks_keeps _ Hb _ _ _ _ _ H2 HA) as (a & b & -> & ->).
        rewrite app_comm_cons in HS, HQ, HB.
        apply (IH b eq_refl (ends_blank_tail _ _ HS) (quiet_tail _ _ HQ) (not_broken_tail _ _ _ HB)).
    - intros n0 l0 ls H pre E HS HQ HB. exfalso. destruct pre as [|y pre]; cbn in E; inversion E; subst.
      + destruct HA as [_ HA], H as [_ H]. contradiction.
      + apply (HB _ _ eq_refl). left. reflexivity.
    - intros ls bs e H IH pre E HS HQ HB. exact (IH pre E HS HQ HB).
  Qed.

  (** An attribute line after an empty line starts an attribute. *)
  Lemma recognised ls bs e pre n l rest : body ls bs e -> ls = pre ++ (n, l) :: rest -> is_attr l ->
    sep pre -> quiet pre -> not_broken e pre -> found bs e (n, l) rest.
  Proof.
    intros HB E HA HS HQ HN.
    destruct HB as [blanks left bs e Hb HT|blanks n0 l0 ls ts left bs e Hb H0 HD HT].
    - destruct (blanks_keeps _ Hb _ _ _ _ _ E HA) as (a & b & -> & ->).
      apply (proj1 (recognised_all n l rest HA) _ _ _ HT b eq_refl (sep_tail _ _ HS) (quiet_tail _ _ HQ)
               (not_broken_tail _ _ _ HN)).
    - destruct (blanks_keeps _ Hb _ _ _ _ _ E HA) as (a & b & -> & E').
      destruct b as [|y b]; cbn in E'; inversion E'; subst; [destruct HA as [_ HA], H0 as [_ H0]; contradiction|].
      apply found_cons. apply sep_tail in HS. apply quiet_tail in HQ. apply not_broken_tail in HN.
      assert (HS' : ends_blank b).
      { destruct HS as [HS|HS]; [discriminate|]. apply ends_blank_cons in HS.
        destruct HS as [[-> HS]|HS]; [destruct H0 as [[_ H0] _]; contradiction|exact HS]. }
      destruct (desc_keeps _ _ _ _ HD _ _ _ _ eq_refl HA (or_intror HS')) as (c & d & -> & ->).
      rewrite app_comm_cons in HQ, HN.
      apply (proj1 (recognised_all n l rest HA) _ _ _ HT d eq_refl (ends_blank_tail _ _ HS') (quiet_tail _ _ HQ)
               (not_broken_tail _ _ _ HN)).
  Qed.

  Lemma text_run_block ls ts left : text_block ls ts left -> ts = text_run ls.
  Proof.
    induction 1 as [|n l ls [_ H]|n l ls [[H _] H']|n l ls ts left H _ IH]; cbn [text_run].
    - reflexivity.
    - rewrite H. reflexivity.
    - rewrite H. destruct (scan_attribute l); [reflexivity|contradiction].
    - destruct H as [->|[[H _] H']]; [cbn; rewrite IH; reflexivity|]. rewrite H, H', IH. reflexivity.
  Qed.

  (** Blocks of attributes come from attribute lines. *)
  Lemma attr_blocks_all :
    (forall ls bs e, attrs ls bs e -> forall b, In b bs ->
       match b with BDesc _ => False | BText _ a v _ => exists x, In x ls /\ scan_attribute (snd x) = Some (a, v)
       | BLinks _ _ _ _ => True end) /\
    (forall ls bs e, after_links ls bs e -> forall b, In b bs ->
       match b with BDesc _ => False | BText _ a v _ => exists x, In x ls /\ scan_attribute (snd x) = Some (a, v)
       | BLinks _ _ _ _ => True end) /\
    (forall ls bs e, next_attr ls bs e -> forall b, In b bs ->
       match b with BDesc _ => False | BText _ a v _ => exists x, In x ls /\ scan_attribute (snd x) = Some (a, v)
       | BLinks _ _ _ _ => True end).
  Proof.
    apply attrs_mutind; try (intros; contradiction).
    - intros n l ls name first ts rest bs e Hc Ha H1 H2 HT _ IH b [<-|Hb].
      + exists (n, l). split; [left; reflexivity|exact Ha].
      + specialize (IH b Hb). destruct b; auto. destruct IH as (x & Hx & E). exists x. split; [|exact E].
        right. eapply sublist_in; [eapply text_rest; exact HT|exact Hx].
    - intros n l ls cov first refs rest bs e Hc Ha HR _ IH b [<-|Hb]; [exact I|].
      specialize (IH b Hb). destruct b; auto. destruct IH as (x & Hx & E). exists x. split; [|exact E].
      right. rewrite (ref_rest _ _ _ HR). apply in_or_app. auto.
    - intros n l ls blanks rest bs e _ -> _ _ IH b Hb.
      specialize (IH b Hb). destruct b; auto. destruct IH as (x & Hx & E). exists x. split; [|exact E].
      right. apply in_or_app. auto.
    - intros ls bs e _ IH b Hb. exact (IH b Hb).
  Qed.

  Lemma value_last a bs n first ts bs2 :
    (forall b, In b bs2 -> match b with BDesc _ => False | BText _ a' _ _ => a' <> a | BLinks _ _ _ _ => True end) ->
    value a (bs ++ BText n a first ts :: bs2) = Some (first ++ concat ts).
  Proof.
    unfold value. rewrite fold_left_app. cbn [fold_left]. rewrite eqb_refl.
    generalize (Some (first ++ concat ts)). intros o. revert o.
    induction bs2 as [|b bs2 IH]; intros o H; [reflexivity|]. cbn [fold_left].
    pose proof (H b (or_introl eq_refl)) as Hb.
    assert (H' : forall b', In b' bs2 -> match b' with BDesc _ => False | BText _ a' _ _ => a' <> a
                            | BLinks _ _ _ _ => True end) by (intros b' Hb'; apply H; right; exact Hb').
    destruct b as [ls|k a' f ls|k c f refs]; [destruct Hb| |apply IH, H'].
    destruct (eqb_spec a' a); [contradiction|apply IH, H'].
  Qed.

  (** The text of an attribute. *)
  Theorem md_attr_text r reqs errs s req pre n l rest a first :
    md_parse p r = Done (reqs, errs) -> In s (doc_sections r) -> snd s = pre ++ (n, l) :: rest ->
    content l -> scan_attribute l = Some (a, first) -> a <> COVERS -> a <> DEPENDS ->
    sep pre -> quiet pre ->
    (forall k m, In k (map fst pre) -> ~ In (EFormat (at_line p k) m) errs) ->
    (forall x v, In x rest -> scan_attribute (snd x) <> Some (a, v)) ->
    In req reqs -> req_location req = at_line p (fst (fst (section_head s))) ->
    oget a (req_attributes req) = Some (first ++ concat (text_run rest)).
  Proof.
    intros HD Hs E Hc Ha H1 H2 HS HQ HB Hl Hin Hloc.
    destruct (md_blocks_exist r) as (bes & HF).
    assert (Hbe : exists be, In (s, be) (combine (doc_sections r) bes) /\ section_ok s be).
    { clear - HF Hs. induction HF as [|s0 be0 ss bs H0 _ IH]; [destruct Hs|]. destruct Hs as [->|Hs].
      - exists be0. split; [left; reflexivity|exact H0].
      - destruct (IH Hs) as (be & Hb & Hok). exists be. split; [right; exact Hb|exact Hok]. }
    destruct Hbe as (be & Hcomb & Hok).
    assert (HP : md_parse p r <> Panic) by congruence.
    pose proof (md_exact p r bes HF HP) as HE. rewrite HD in HE. injection HE as _ He.
    destruct (md_last_wins p r reqs errs s be req HD Hs Hok Hin Hloc) as [Hv _]. rewrite Hv.
    assert (HA : is_attr l) by (split; [exact Hc|congruence]).
    assert (HN : not_broken (snd be) pre).
    { intros k m Ee Hk. apply (HB k m Hk). rewrite He. apply in_or_app. left. rewrite zip_errs_map.
      apply in_flat_map. exists (s, be). split; [exact Hcomb|]. destruct s as [[[n0 id] t] ls]. cbn [fst snd section_err].
      apply in_or_app. right. rewrite Ee. left. reflexivity. }
    destruct (recognised _ _ _ _ _ _ _ Hok E HA HS HQ HN) as (bs1 & bs2 & -> & HT).
    inversion HT as [|n0 l0 ls0 Hh|n0 l0 ls0 nm f ts left bs e Hc' Ha' H1' H2' HX HY|n0 l0 ls0 cov f refs left bs e Hc' Ha' HX HY]; subst.
    - exfalso. exact (attr_not_heading _ HA Hh).
    - rewrite Ha in Ha'. inversion Ha'; subst nm f. rewrite value_last.
      + rewrite (text_run_block _ _ _ HX). reflexivity.
      + intros b Hb. pose proof (proj1 attr_blocks_all _ _ _ HY b Hb) as G. destruct b; auto.
        destruct G as (x & Hx & Ex). intros ->. apply (Hl x first0); [|exact Ex].
        eapply sublist_in; [eapply text_rest; exact HX|exact Hx].
    - rewrite Ha in Ha'. inversion Ha'; subst. destruct cov; contradiction.
  Qed.
End MdAttr.
