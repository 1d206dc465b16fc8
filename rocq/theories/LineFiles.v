(** Lines of files in the words of LineSpec.v: which lines of a file become requirements and references. *)
From Verif Require Import Base OMap Models Unicode Utf8 Regex ReadFacts MdSyntax MdLex MdLexFacts MdParser MdSpec MdFacts MdLines MdCor MdCor2
  MonoSpec MonoParser MonoFacts Paths MdMachine MdRefine MdExact LineSpec.
Open Scope N_scope.

(** [l] is the line [n] of the text, counted from 1, with its line feed. *)
Definition line_at (text : str) (n : N) (l : str) : Prop :=
  exists a b, text = a ++ l ++ b /\ (a = [] \/ exists a', a = a' ++ [NL]) /\
    n = N.of_nat (count_occ N.eq_dec a NL) + 1 /\
    ((exists l', l = l' ++ [NL] /\ ~ In NL l') \/ (l <> [] /\ ~ In NL l /\ b = [])).

(** A line without its line end: a line feed, or a carriage return and a line feed. *)
Definition without_end (l w : str) : Prop :=
  l = w ++ [13; NL] \/ (l = w ++ [NL] /\ forall x, w <> x ++ [13]) \/ (l = w /\ ~ In NL w).

Lemma first_nl (x : str) r : forall y r', ~ In NL x -> ~ In NL y -> (x ++ [NL]) ++ r = (y ++ [NL]) ++ r' -> x = y.
Proof.
  induction x as [|c x IH]; intros [|d y] r' Hx Hy E; cbn in E; inversion E.
  - reflexivity.
  - exfalso. apply Hy. left. symmetry. assumption.
  - exfalso. apply Hx. left. assumption.
  - f_equal. apply (IH y r'); [intros Hi; apply Hx; right; exact Hi|intros Hi; apply Hy; right; exact Hi|assumption].
Qed.

Lemma past_nl (x : str) r : forall a r', ~ In NL x -> (x ++ [NL]) ++ r = (a ++ [NL]) ++ r' ->
  exists q, a ++ [NL] = (x ++ [NL]) ++ q /\ r = q ++ r'.
Proof.
  induction x as [|c x IH]; intros [|d a] r' Hx E; cbn in E; inversion E.
  - exists []. split; reflexivity.
  - exists (a ++ [NL]). split; reflexivity.
  - exfalso. apply Hx. left. assumption.
  - destruct (IH a r' ltac:(intros Hi; apply Hx; right; exact Hi) H1) as (q & Hq1 & Hq2).
    exists q. split; [cbn; f_equal; exact Hq1|exact Hq2].
Qed.

Lemma count_line (x q : str) : ~ In NL x ->
  count_occ N.eq_dec ((x ++ [NL]) ++ q) NL = S (count_occ N.eq_dec q NL).
Proof.
  intros Hx. rewrite <- app_assoc. induction x as [|c x IH]; cbn.
  - reflexivity.
  - destruct (N.eq_dec c NL) as [->|_]; [elim Hx; left; reflexivity|]. apply IH. intros H. apply Hx. right. exact H.
Qed.

Lemma line_at_number text n l : line_at text n l <-> In (n, l) (number 0 (split_lines text)).
Proof.
  rewrite <- (split_lines_concat text) at 1.
  assert (G : forall ls, lines_wf ls -> forall k,
    (exists a b, concat ls = a ++ l ++ b /\ (a = [] \/ exists a', a = a' ++ [NL]) /\
      n = k + N.of_nat (count_occ N.eq_dec a NL) + 1 /\
      ((exists l', l = l' ++ [NL] /\ ~ In NL l') \/ (l <> [] /\ ~ In NL l /\ b = []))) <-> In (n, l) (number k ls)).
  { induction 1 as [|s Hne Hn|x ls Hx HL IH]; intros k; cbn [number concat In].
    - split; [|intros []]. intros (a & b & E & _ & _ & H). symmetry in E. apply app_eq_nil in E. destruct E as [_ E].
      apply app_eq_nil in E. destruct E as [-> _]. destruct H as [(l' & H & _)|(H & _)]; [destruct l'; discriminate|elim H; reflexivity].
    - rewrite app_nil_r. split.
      + intros (a & b & E & Ha & -> & H). left.
        assert (a = []) as ->.
        { destruct Ha as [Ha|(a' & ->)]; [exact Ha|]. exfalso. apply Hn. rewrite E. rewrite !in_app_iff. left. right. left. reflexivity. }
        cbn in E. destruct H as [(l' & -> & _)|(_ & _ & ->)].
        * exfalso. apply Hn. rewrite E. rewrite !in_app_iff. left. right. left. reflexivity.
        * rewrite app_nil_r in E. subst s. cbn. f_equal. lia.
      + intros [H|[]]. inversion H; subst. exists [], []. rewrite app_nil_r. split; [reflexivity|]. split; [left; reflexivity|].
        split; [cbn; lia|]. right. auto.
    - split.
      + intros (a & b & E & Ha & -> & H). destruct Ha as [->|(a' & ->)].
        * left. cbn in E. destruct H as [(l' & -> & Hl)|(Hl & Hn & ->)].
          -- assert (Heq : x = l')
               by (apply (first_nl x (concat ls) l' b); assumption).
             subst l'. cbn. f_equal. lia.
          -- exfalso. apply Hn. rewrite app_nil_r in E. rewrite <- E, !in_app_iff. left. right. left. reflexivity.
        * right. apply IH. assert (Hq : exists q, a' ++ [NL] = (x ++ [NL]) ++ q /\ concat ls = q ++ l ++ b) by (apply past_nl; assumption).
          destruct Hq as (q & Hq1 & Hq2). exists q, b. split; [exact Hq2|]. split.
          -- destruct q as [|c q]; [left; reflexivity|right]. destruct (@exists_last _ (c :: q) ltac:(discriminate)) as (q' & z & Hz).
             rewrite Hz in Hq1 |- *. rewrite app_assoc in Hq1. apply app_inj_tail in Hq1. destruct Hq1 as [_ <-]. exists q'. reflexivity.
          -- split; [|exact H]. rewrite Hq1, (count_line x q Hx). lia.
      + intros [H|H].
        * inversion H; subst. exists [], (concat ls). split; [reflexivity|]. split; [left; reflexivity|].
          split; [cbn; lia|]. left. exists x. auto.
        * apply IH in H. destruct H as (a & b & E & Ha & -> & H). exists ((x ++ [NL]) ++ a), b.
          split; [rewrite E; apply (app_assoc (x ++ [NL]))|]. split.
          { right. destruct Ha as [->|(a' & ->)]; [exists x; apply app_nil_r|exists ((x ++ [NL]) ++ a'); rewrite app_assoc; reflexivity]. }
          split; [|exact H]. rewrite (count_line x a Hx). lia. }
  unfold line_at. rewrite <- (G _ (split_lines_wf text) 0). reflexivity.
Qed.

Lemma without_end_strip l w : proper l -> (without_end l w <-> strip_line l = w).
Proof.
  intros HP. unfold without_end, strip_line. split.
  - intros [->|[(-> & H)|(-> & H)]].
    + rewrite rev_app_distr. cbn. apply rev_involutive.
    + rewrite rev_app_distr. cbn. destruct (rev w) as [|d r] eqn:E.
      * apply (f_equal (@rev _)) in E. rewrite rev_involutive in E. rewrite E. reflexivity.
      * destruct (N.eqb_spec d 13) as [->|].
        -- exfalso. apply (H (rev r)). apply (f_equal (@rev _)) in E. rewrite rev_involutive in E. exact E.
        -- rewrite <- E. apply rev_involutive.
    + apply strip_line_free. exact H.
  - unfold proper, chomp in HP. intros H. destruct (rev l) as [|c r] eqn:E; apply (f_equal (@rev _)) in E; rewrite rev_involutive in E; cbn in E.
    + subst. right. right. split; [reflexivity|intros []].
    + destruct (N.eqb_spec c NL) as [->|].
      * destruct r as [|d r].
        -- right. left. subst w. split; [exact E|]. intros x Hx. destruct x; discriminate.
        -- destruct (N.eqb_spec d 13) as [->|].
           ++ left. subst w. rewrite E. cbn. rewrite <- app_assoc. reflexivity.
           ++ right. left. subst w. split; [exact E|]. intros x Hx. cbn in Hx. apply app_inj_tail in Hx. destruct Hx. contradiction.
      * right. right. subst w. split; [reflexivity|]. exact HP.
Qed.

Section Files.
  Context {U : UnicodeTables}.

  Lemma heading_iff l id t : heading_of l = Some (id, t) <-> heading_line l id t.
  Proof.
    unfold heading_of, heading_line. split.
    - destruct (scan_requirement l) as [[[h id'] t']|] eqn:E; [|discriminate]. intros H. inversion H; subst id' t. clear H.
      apply heading_scan in E. destruct E as (x & r & -> & Hh & Hall & Hx & Hid & b & Hb & Ht).
      exists h, x, r, b. repeat (split; [assumption || reflexivity|]).
      destruct Ht as [(y & z & -> & Hy & Hz & Hne & Ht)|(y & c & -> & Hw & ->)].
      + split; [destruct y, t'; try discriminate; elim Hne; reflexivity|]. exists y, z. rewrite (trim_id _ Ht). auto.
      + split; [destruct y; discriminate|]. exists (y ++ [c]), []. rewrite (proj2 (trim_nil [c])).
        * cbn. rewrite app_nil_r. repeat split; auto. intros ? [].
        * cbn. rewrite (Hw c); [reflexivity|]. apply in_or_app. right. left. reflexivity.
    - intros (h & x & r & b & -> & Hh & Hall & Hx & Hid & Hb & Hne & y & z & Eb & Hy & Hz & Ht).
      destruct t as [|c t].
      + destruct (@exists_last _ b Hne) as (q & d & Hq).
        assert (Hw : white b).
        { rewrite Eb. cbn. intros e He. apply in_app_iff in He. destruct He; [apply Hy|apply Hz]; assumption. }
        assert (E : heading_shape (h ++ x ++ id ++ COLON :: r) h id [d]).
        { exists x, r. repeat (split; [assumption || reflexivity|]). exists b. split; [exact Hb|]. right. exists q, d. auto. }
        apply heading_scan in E. rewrite E. rewrite (proj2 (trim_nil [d])); [reflexivity|].
        cbn. rewrite (Hw d); [reflexivity|]. rewrite Hq. apply in_or_app. right. left. reflexivity.
      + assert (E : heading_shape (h ++ x ++ id ++ COLON :: r) h id (c :: t)).
        { exists x, r. repeat (split; [assumption || reflexivity|]). exists b. split; [exact Hb|]. left. exists y, z.
          repeat (split; [assumption || discriminate|]). exact Ht. }
        apply heading_scan in E. rewrite E. rewrite (trim_id _ Ht). reflexivity.
  Qed.

  Lemma doc_lines_text t : forallb scalar t = true -> doc_lines (mkReader (encode t) None) = number 0 (split_lines t).
  Proof.
    intros H. unfold doc_lines. rewrite read_text by exact H. f_equal.
    induction (split_lines t) as [|l ls IH]; cbn; [reflexivity|]. rewrite IH. reflexivity.
  Qed.

  Theorem heading_lines p text reqs errs :
    forallb scalar text = true -> md_parse p (mkReader (encode text) None) = Done (reqs, errs) ->
    ~ loses_last p (mkReader (encode text) None) errs ->
    forall id t loc, (exists q, In q reqs /\ req_id q = id /\ req_title q = t /\ req_location q = loc) <->
      exists n l t', line_at text n l /\ heading_line l id t' /\ t = Some t' /\ loc = at_line p n.
  Proof.
    intros Hs HD HL id t loc. pose proof (proj2 (md_headings p _ reqs errs HD) HL) as HM.
    rewrite (doc_lines_text text Hs) in HM. split.
    - intros (q & Hq & <- & <- & <-). apply (in_map head) in Hq. rewrite HM in Hq. apply in_map_iff in Hq.
      destruct Hq as ([[n id] t'] & Eh & Hin). apply headings_in in Hin. destruct Hin as (l & Hl & Hh). cbn [fst snd] in *.
      exists n, l, t'. apply line_at_number in Hl. unfold head in Eh. inversion Eh; subst. apply heading_iff in Hh. auto.
    - intros (n & l & t' & Hl & Hh & -> & ->). apply line_at_number in Hl. apply heading_iff in Hh.
      assert (Hin : In (n, id, t') (headings (number 0 (split_lines text)))) by (apply headings_in; exists l; auto).
      apply (in_map (head_of p)) in Hin. rewrite <- HM in Hin. apply in_map_iff in Hin. destruct Hin as (q & Eq & Hq).
      exists q. inversion Eq. auto.
  Qed.

  Lemma arrows_in p rf (f : str -> str) ls : forall no, In rf (arrows p (no + 1) (map f ls)) <->
    exists n l, In (n, l) (number no ls) /\ scan_arrow (f l) = Some (ref_id rf, ref_title rf) /\
      ref_location rf = new_with_line_no p n.
  Proof.
    induction ls as [|l ls IH]; intros no; cbn [map arrows number In].
    - split; [intros []|intros (? & ? & [] & _)].
    - rewrite in_app_iff, IH. split.
      + intros [H|(n & l' & H)]; [|exists n, l'; tauto].
        destruct (scan_arrow (f l)) as [[i t]|] eqn:E; [|destruct H]. destruct H as [<-|[]]. exists (no + 1), l. cbn. rewrite E. auto.
      + intros (n & l' & [H|H] & Hs & Hl); [|right; exists n, l'; auto]. inversion H; subst. left. rewrite Hs. left.
        destruct rf; cbn in *. subst. reflexivity.
  Qed.

  Theorem arrow_lines p bs text reqs errs q :
    decode bs = Some text -> mono_parse p (mkReader bs None) = Done (reqs, errs) -> In q reqs ->
    forall rf, In rf (req_depends q) <->
      exists n l w, line_at text n l /\ 2 <= n /\ without_end l w /\
        first_at arrow_shape w (ref_id rf) (ref_title rf) /\ ref_location rf = new_with_line_no p n.
  Proof.
    intros Hd HM Hq rf. rewrite (mono_exact p bs text Hd) in HM. inversion HM; subst reqs. destruct Hq as [<-|[]]. clear HM.
    cbn [mono_requirement req_depends]. rewrite <- lines_split.
    assert (E : tl (map strip_line (split_lines text)) = map strip_line (tl (split_lines text))) by (destruct (split_lines text); reflexivity).
    rewrite E. change 2 with (1 + 1) at 1. rewrite arrows_in. clear E.
    assert (HN : forall n l, In (n, l) (number 1 (tl (split_lines text))) <-> (In (n, l) (number 0 (split_lines text)) /\ 2 <= n)).
    { intros n l. destruct (split_lines text) as [|x ls]; cbn [tl number In]; [tauto|]. change (0 + 1) with 1. split.
      - intros H. split; [right; exact H|]. apply number_bounds in H. cbn in H. lia.
      - intros [[H|H] Hn]; [inversion H; lia|exact H]. }
    assert (HPr : forall n l, In (n, l) (number 0 (split_lines text)) -> proper l).
    { intros n l H. apply (in_map snd) in H. rewrite number_snd in H. revert H. 
      pose proof (split_lines_proper text) as F. rewrite Forall_forall in F. apply F. }
    split.
    - intros (n & l & Hin & Hs & Hl). apply HN in Hin. destruct Hin as [Hin Hn]. exists n, l, (strip_line l).
      split; [apply line_at_number, Hin|]. split; [exact Hn|]. split; [apply (without_end_strip l); [exact (HPr _ _ Hin)|reflexivity]|].
      split; [apply arrow_scan, Hs|exact Hl].
    - intros (n & l & w & Hat & Hn & Hw & Ha & Hl). apply line_at_number in Hat. exists n, l.
      split; [apply HN; auto|]. apply (without_end_strip l) in Hw; [|exact (HPr _ _ Hat)]. rewrite Hw. split; [apply arrow_scan, Ha|exact Hl].
  Qed.

  (** One of the parts of [v] between commas, without the white space around it. *)
  Definition comma_item (v id : str) : Prop :=
    exists a y z b, v = a ++ y ++ id ++ z ++ b /\ white y /\ white z /\ id <> [] /\ trimmed id /\ ~ In COMMA id /\
      (a = [] \/ exists a', a = a' ++ [COMMA]) /\ (b = [] \/ exists b', b = COMMA :: b').

  Lemma split_on_part c s q : In q (split_on c s) ->
    exists a b, s = a ++ q ++ b /\ (a = [] \/ exists a', a = a' ++ [c]) /\ (b = [] \/ exists b', b = c :: b').
  Proof.
    remember (length s) as k eqn:Ek. revert s Ek q. induction k as [k IH] using lt_wf_ind. intros s -> q Hq.
    destruct (in_dec N.eq_dec c s) as [Hc|Hc].
    - apply in_split in Hc. destruct Hc as (u & v & ->). rewrite split_on_app in Hq. apply in_app_iff in Hq.
      destruct Hq as [Hq|Hq].
      + destruct (IH (length u) ltac:(rewrite app_length; cbn; lia) u eq_refl q Hq) as (a & b & -> & Ha & Hb).
        exists a, (b ++ c :: v). split; [rewrite <- !app_assoc; reflexivity|]. split; [exact Ha|]. right.
        destruct Hb as [->|(b' & ->)]; [exists v; reflexivity|exists (b' ++ c :: v); reflexivity].
      + destruct (IH (length v) ltac:(rewrite app_length; cbn; lia) v eq_refl q Hq) as (a & b & -> & Ha & Hb).
        exists (u ++ c :: a), b. split; [rewrite <- !app_assoc; reflexivity|]. split; [|exact Hb]. right.
        destruct Ha as [->|(a' & ->)]; [exists u; reflexivity|exists (u ++ c :: a'); rewrite <- app_assoc; reflexivity].
    - rewrite split_on_free in Hq by exact Hc. destruct Hq as [<-|[]]. exists [], []. rewrite app_nil_r. auto.
  Qed.

  Lemma trim_decomp s : exists x y, s = x ++ trim s ++ y /\ white x /\ white y.
  Proof.
    destruct (trim_start_decomp s) as (x & Hx & Hwx). destruct (trim_end_decomp (trim_start s)) as (y & Hy & Hwy).
    exists x, y. unfold trim. rewrite <- Hy. split; [exact Hx|]. split; apply white_forallb; assumption.
  Qed.

  Lemma white_app x y : white x -> white y -> white (x ++ y).
  Proof. intros Hx Hy c Hc. apply in_app_iff in Hc. destruct Hc; auto. Qed.

  Lemma comma_item_intro v q : In q (split_on COMMA (trim v)) -> trim q <> [] -> comma_item v (trim q).
  Proof.
    intros Hq Hne. pose proof (split_on_no _ _ _ Hq) as HC.
    apply split_on_part in Hq. destruct Hq as (a & b & E & Ha & Hb).
    destruct (trim_decomp v) as (x & w & Ev & Hx & Hw). rewrite E in Ev.
    destruct (trim_decomp q) as (y & z & Eq & Hy & Hz). rewrite Eq in Ev.
    assert (HT : ~ In COMMA (trim q)) by (intros H; apply HC, trim_in, H).
    assert (Ha' : exists a1 y1, x ++ a ++ y = a1 ++ y1 /\ white y1 /\ (a1 = [] \/ exists a', a1 = a' ++ [COMMA])).
    { destruct Ha as [->|(a' & ->)].
      - exists [], (x ++ y). split; [reflexivity|]. split; [apply white_app; assumption|auto].
      - exists (x ++ a' ++ [COMMA]), y. split; [rewrite <- !app_assoc; reflexivity|]. split; [exact Hy|]. right.
        exists (x ++ a'). rewrite app_assoc. reflexivity. }
    assert (Hb' : exists b1 z1, z ++ b ++ w = z1 ++ b1 /\ white z1 /\ (b1 = [] \/ exists b', b1 = COMMA :: b')).
    { destruct Hb as [->|(b' & ->)].
      - exists [], (z ++ w). rewrite app_nil_r. split; [reflexivity|]. split; [apply white_app; assumption|auto].
      - exists (COMMA :: b' ++ w), z. split; [reflexivity|]. split; [exact Hz|]. right. eauto. }
    destruct Ha' as (a1 & y1 & E1 & Hy1 & Ha1). destruct Hb' as (b1 & z1 & E2 & Hz1 & Hb1).
    exists a1, y1, z1, b1. split; [|repeat (split; [assumption || apply trim_trimmed|]); assumption].
    rewrite Ev. rewrite <- !app_assoc. rewrite E2. rewrite !app_assoc. rewrite app_assoc in E1. rewrite E1. reflexivity.
  Qed.

  (** The attribute line of a block of references. *)
  Lemma links_attribute s be n cov first refs : section_ok s be -> In (BLinks n cov first refs) (fst be) ->
    exists l, In (n, l) (snd s) /\ scan_attribute l = Some (if cov then COVERS else DEPENDS, first).
  Proof.
    intros Hok Hin. unfold section_ok in Hok. destruct be as [bs e]. cbn [fst snd] in *.
    assert (G : (forall ls bs e, attrs ls bs e -> In (BLinks n cov first refs) bs ->
                   exists l, In (n, l) ls /\ scan_attribute l = Some (if cov then COVERS else DEPENDS, first)) /\
                (forall ls bs e, after_links ls bs e -> In (BLinks n cov first refs) bs ->
                   exists l, In (n, l) ls /\ scan_attribute l = Some (if cov then COVERS else DEPENDS, first)) /\
                (forall ls bs e, next_attr ls bs e -> In (BLinks n cov first refs) bs ->
                   exists l, In (n, l) ls /\ scan_attribute l = Some (if cov then COVERS else DEPENDS, first))).
    { apply attrs_mutind; try (intros; contradiction).
      - intros n' l ls name f ts rest bs' e' _ _ _ _ HT _ IH [H|H]; [discriminate|].
        destruct (IH H) as (l' & Hl & Hs). exists l'. split; [|exact Hs]. right. eapply sublist_in; [eapply text_rest; exact HT|exact Hl].
      - intros n' l ls cov' f refs' rest bs' e' _ HS HR _ IH H. apply ref_rest in HR. subst ls.
        destruct H as [H|H]; [inversion H; subst; exists l; split; [left; reflexivity|exact HS]|].
        destruct (IH H) as (l' & Hl & Hs). exists l'. split; [|exact Hs]. right. apply in_or_app. right. exact Hl.
      - intros n' l ls blanks rest bs' e' _ -> _ _ IH H. destruct (IH H) as (l' & Hl & Hs). exists l'. split; [|exact Hs].
        right. apply in_or_app. right. exact Hl.
      - intros ls bs' e' _ IH H. apply IH, H. }
    destruct Hok as [blanks rest bs e HB HA|blanks n' l ls ts rest bs e HB Hn HD HA].
    - destruct (proj1 G _ _ _ HA Hin) as (l' & Hl & Hs). exists l'. split; [|exact Hs]. apply in_or_app. right. exact Hl.
    - destruct Hin as [H|H]; [discriminate|]. destruct (proj1 G _ _ _ HA H) as (l' & Hl & Hs). exists l'. split; [|exact Hs].
      apply in_or_app. right. right. eapply sublist_in; [eapply desc_rest; exact HD|exact Hl].
  Qed.

  (** Where the references of a requirement come from. *)
  Definition stated (p : path) (text name : str) (x : reference) : Prop :=
    exists n l, line_at text n l /\ ref_location x = at_line p n /\
      (first_at ref_shape l (ref_id x) (ref_title x) \/
       exists v, attribute_shape l name v /\ ref_title x = None /\ comma_item v (ref_id x)).

  Theorem reference_lines p text reqs errs q :
    forallb scalar text = true -> md_parse p (mkReader (encode text) None) = Done (reqs, errs) -> In q reqs ->
    (forall x, In x (req_covers q) -> stated p text (L "Covers") x) /\
    (forall x, In x (req_depends q) -> stated p text (L "Depends") x).
  Proof.
    intros Hs HD Hin. destruct (md_in_req p _ _ _ _ HD Hin) as (s & be & Hsec & Hok & ->).
    destruct s as [[[n id] t] ls]. cbn [section_req].
    assert (HR : forall n' (cov : bool) first refs, In (BLinks n' cov first refs) (fst be) ->
              forall x, In x (block_refs p n' first refs) -> stated p text (if cov then COVERS else DEPENDS) x).
    { intros n' cov first refs Hb x Hx.
      assert (Hdoc : forall y, In y ls -> line_at text (fst y) (snd y)).
      { intros y Hy. apply line_at_number. rewrite <- doc_lines_text by exact Hs. rewrite <- surjective_pairing.
        eapply section_in_doc; [exact Hsec|exact Hy]. }
      unfold block_refs in Hx. apply in_app_or in Hx. destruct Hx as [Hx|Hx].
      - destruct (links_attribute _ _ _ _ _ _ Hok Hb) as (l & Hl & Hat). cbn [snd] in Hl.
        unfold inline_refs in Hx. apply in_flat_map in Hx. destruct Hx as (part & Hp & Hx).
        exists n', l. split; [exact (Hdoc _ Hl)|].
        assert (E : x = mkReference (trim part) None (at_line p n') /\ trim part <> []).
        { destruct (trim part) as [|c w]; [destruct Hx|]. destruct Hx as [<-|[]]. split; [reflexivity|discriminate]. }
        destruct E as [-> Hne]. cbn. split; [reflexivity|]. right. exists first.
        split; [apply attribute_scan, Hat|]. split; [reflexivity|]. apply comma_item_intro; assumption.
      - unfold bullet_refs in Hx. apply in_flat_map in Hx. destruct Hx as (y & Hy & Hx).
        destruct (scan_ref (snd y)) as [[i t']|] eqn:E; [|destruct Hx]. destruct Hx as [<-|[]].
        exists (fst y), (snd y). split; [apply Hdoc; exact (links_in_body _ _ _ _ _ _ _ Hok Hb Hy)|].
        cbn. split; [reflexivity|]. left. apply ref_scan, E. }
    split; intros x Hx.
    - destruct (blocks_req_covers p (fst be) (blank_req p n id t)) as [H|(k & first & refs & Hb & H)];
        rewrite H in Hx; [destruct Hx|]. exact (HR _ _ _ _ Hb x Hx).
    - destruct (blocks_req_depends p (fst be) (blank_req p n id t)) as [H|(k & first & refs & Hb & H)];
        rewrite H in Hx; [destruct Hx|]. exact (HR _ _ _ _ Hb x Hx).
  Qed.
End Files.

Lemma is_ws_listed c : is_ws c = true <->
  In c [9; 10; 11; 12; 13; 32; 133; 160; 5760; 8192; 8193; 8194; 8195; 8196; 8197; 8198; 8199; 8200; 8201; 8202;
        8232; 8233; 8239; 8287; 12288].
Proof.
  unfold is_ws. rewrite !orb_true_iff, !andb_true_iff, !N.leb_le, !N.eqb_eq. cbn [In]. lia.
Qed.
