(** The way through the Markdown export and the Markdown parser: the result. *)
From Verif Require Import Base OMap Models Unicode Regex Utf8 Location MdLex MdSyntax MdLexFacts ReadFacts
  MdParser MdSpec MdMachine MdRefine MdExact MdFacts MdFmt RoundSpec RoundFacts.
Open Scope N_scope.

Lemma trim_app_ws s b : forallb is_ws b = true -> trim (s ++ b) = trim s.
Proof.
  intros H. unfold trim. induction s as [|c s IH]; cbn [app trim_start].
  - rewrite trim_start_all by exact H. reflexivity.
  - destruct (is_ws c); [exact IH|]. change (c :: s ++ b) with ((c :: s) ++ b). apply trim_end_ws. exact H.
Qed.

Section Trip.
  Context {U : UnicodeTables} {CT : CaseTables} (p : path).

  Lemma kept_get k m : osorted m ->
    oget k (filter kept m) =
    match oget k m with Some v => if kept (k, v) then Some v else None | None => None end.
  Proof.
    intros HS. destruct (oget k m) as [v|] eqn:E.
    - apply oget_Some_In in E. destruct (kept (k, v)) eqn:K.
      + assert (HI : In (k, v) (filter kept m)) by (apply filter_In; auto).
        destruct (oget k (filter kept m)) as [w|] eqn:F.
        * apply oget_Some_In in F. apply filter_In in F. destruct F as [F _].
          apply (In_oget _ _ _ HS) in F. apply (In_oget _ _ _ HS) in E. congruence.
        * apply oget_None in F. exfalso. apply F. apply (in_map fst) in HI. exact HI.
      + destruct (oget k (filter kept m)) as [w|] eqn:F; [|reflexivity].
        apply oget_Some_In in F. apply filter_In in F. destruct F as [F Kw].
        apply (In_oget _ _ _ HS) in F. apply (In_oget _ _ _ HS) in E. congruence.
    - apply oget_None. apply oget_None in E. intros F. apply E. unfold okeys in *. apply in_map_iff in F.
      destruct F as (e & <- & F). apply filter_In in F. apply in_map. apply F.
  Qed.

  Lemma exportable_parts r : exportable r -> Forall part_ok (origin_part r :: more_parts r).
  Proof.
    intros (H1 & _ & H3 & H4 & H5 & H6 & H7). constructor.
    - cbn [origin_part part_ok]. destruct (scan_origin r H5) as [S1 S2]. split; [exact S1|]. split; [exact S2|].
      split; [discriminate|]. split; [discriminate|]. unfold desc_lines.
      destruct (oget (L "Description") (req_attributes r)) as [d|] eqn:E; [|constructor].
      do 2 (constructor; [left; reflexivity|]). apply Forall_forall. intros l Hl.
      apply oget_Some_In in E. rewrite Forall_forall in H7. specialize (H7 _ E). unfold good_attribute in H7.
      cbn [fst snd] in H7. rewrite eqb_refl in H7. exact (plain_lines d l H7 Hl).
    - unfold more_parts. apply Forall_app. split; [|apply Forall_app; split].
      + unfold link_parts. destruct (req_covers r); constructor; [exact H3|constructor].
      + unfold link_parts. destruct (req_depends r); constructor; [exact H4|constructor].
      + apply Forall_map, Forall_forall. intros [k v] He. apply filter_In in He. destruct He as [He HK].
        rewrite Forall_forall in H7. specialize (H7 _ He). unfold good_attribute, kept in *. cbn [fst snd] in *.
        destruct (eqb k (L "Description")); [discriminate|]. destruct H7 as (N1 & N2 & N3 & N4 & N5).
        cbn [attr_part part_ok fst snd].
        split; [exact (name_no_hash k [NL] N1)|]. split; [exact (scan_name k [NL] N1)|]. split; [exact N2|].
        split; [exact N3|]. apply Forall_forall. intros l Hl. exact (plain_lines _ l N5 Hl).
  Qed.

  (** ** The effect of the blocks *)
  Lemma bullets_back refs : forall nls, Forall good_ref refs -> map snd nls = map md_reference refs ->
    map ref_sig (bullet_refs p nls) = map ref_sig refs.
  Proof.
    induction refs as [|x refs IH]; intros nls HG HM; destruct nls as [|[n l] nls]; try discriminate; [reflexivity|].
    cbn [map snd] in HM. injection HM as -> HM. inversion HG; subst. cbn [bullet_refs flat_map snd fst].
    destruct (reference_is_ref x) as [_ E]; [assumption|]. rewrite E. cbn [ref_sig app map]. f_equal.
    apply IH; assumption.
  Qed.

  Lemma text_blocks es : forall bs r,
    Forall2 block_of (map attr_part es) bs -> NoDup (map fst es) ->
    (forall k, In k (map fst es) -> oget k (req_attributes r) = None) ->
    blocks_err p r bs = [] /\
    req_id (blocks_req p r bs) = req_id r /\ req_title (blocks_req p r bs) = req_title r /\
    req_covers (blocks_req p r bs) = req_covers r /\ req_depends (blocks_req p r bs) = req_depends r /\
    req_tags (blocks_req p r bs) = req_tags r /\
    forall k, option_map trim (oget k (req_attributes (blocks_req p r bs))) =
              match oget k es with
              | Some v => Some (trim v)
              | None => option_map trim (oget k (req_attributes r))
              end.
  Proof.
    induction es as [|[k v] es IH]; intros bs r HB ND HN; cbn [map] in HB; inversion HB as [|x b xs bs' Hb HB' E1 E2]; subst.
    - cbn. repeat split.
    - unfold attr_part in Hb. cbn [fst snd] in Hb. inversion Hb as [k' f' l' ls' n tl Htl|]; subst.
      cbn [blocks_err block_err]. rewrite (HN k) by (left; reflexivity). cbn [app].
      cbn [map fst] in ND. inversion ND as [|? ? Hk ND']; subst.
      unfold blocks_req. cbn [fold_left].
      set (r1 := block_req p r (BText n k [] (split_lines (trim v ++ [NL]) ++ tl))).
      destruct (IH bs' r1 HB' ND') as (I1 & I2 & I3 & I4 & I5 & I6 & I7).
      { intros k' Hk'. unfold r1. cbn [block_req req_attributes]. rewrite oget_oins_other by congruence.
        apply HN. right. exact Hk'. }
      unfold blocks_req in *. split; [exact I1|]. split; [exact I2|]. split; [exact I3|]. split; [exact I4|].
      split; [exact I5|]. split; [exact I6|].
      intros j. rewrite I7. cbn [oget]. unfold r1. cbn [block_req req_attributes]. rewrite oget_oins.
      destruct (eqb_spec j k) as [->|Hj]; [|reflexivity].
      assert (EN : oget k es = None) by (apply oget_None; exact Hk). rewrite EN. cbn [option_map app]. f_equal.
      rewrite concat_app, split_lines_concat, <- app_assoc.
      transitivity (trim (trim v)); [|apply trim_id, trim_trimmed].
      apply trim_app_ws. destruct Htl as [->| ->]; reflexivity.
  Qed.

  Definition one_links (cov : bool) (refs : list reference) (bs : list block) : Prop :=
    Forall2 block_of (link_parts cov refs) bs.
  Lemma links_block cov refs bs r : Forall good_ref refs -> one_links cov refs bs ->
    (if cov then req_covers r else req_depends r) = [] ->
    blocks_err p r bs = [] /\
    let r' := blocks_req p r bs in
    req_id r' = req_id r /\ req_title r' = req_title r /\ req_tags r' = req_tags r /\
    req_attributes r' = req_attributes r /\
    map ref_sig (if cov then req_covers r' else req_depends r') = map ref_sig refs /\
    (if cov then req_depends r' else req_covers r') = if cov then req_depends r else req_covers r.
  Proof.
    intros HG HB HE. unfold one_links, link_parts in HB. destruct refs as [|x refs].
    - inversion HB; subst. cbn. destruct cov; rewrite HE; repeat split; reflexivity.
    - inversion HB as [|y b ys bs' Hb HB' E1 E2]; subst. inversion HB'; subst.
      inversion Hb as [|c rf n nls HM]; subst. pose proof (bullets_back _ nls HG HM) as HS.
      destruct cov; cbn [blocks_err block_err blocks_req fold_left block_req req_id req_title req_tags req_attributes req_covers req_depends];
        rewrite HE; (split; [reflexivity|]); repeat (split; [reflexivity|]); (split; [|reflexivity]);
        unfold block_refs; exact HS.
  Qed.

  Lemma blocks_err_app r b1 b2 : blocks_err p r (b1 ++ b2) = blocks_err p r b1 ++ blocks_err p (blocks_req p r b1) b2.
  Proof.
    revert r. induction b1 as [|b b1 IH]; intros r; [reflexivity|]. cbn [app blocks_err blocks_req fold_left].
    rewrite IH, app_assoc. reflexivity.
  Qed.
  Lemma blocks_req_app r b1 b2 : blocks_req p r (b1 ++ b2) = blocks_req p (blocks_req p r b1) b2.
  Proof. apply fold_left_app. Qed.

  Lemma requirement_back r t n bs : exportable r -> req_title r = Some t ->
    Forall2 block_of (origin_part r :: more_parts r) bs ->
    blocks_err p (blank_req p n (req_id r) t) bs = [] /\
    comes_back r (blocks_req p (blank_req p n (req_id r) t) bs).
  Proof.
    intros HX Et HB. pose proof HX as (H1 & _ & H3 & H4 & H5 & H6 & H7).
    inversion HB as [|x b0 xs bs' Hb0 HB' E1 E2]; subst. clear HB. unfold more_parts in HB'.
    apply Forall2_app_inv_l in HB'. destruct HB' as (bc & bs2 & HC & HB2 & ->).
    apply Forall2_app_inv_l in HB2. destruct HB2 as (bd & ba & HD & HA & ->).
    unfold origin_part in Hb0. inversion Hb0 as [k' f' l' ls' m tl Htl|]; subst.
    set (r0 := blank_req p n (req_id r) t).
    set (b0 := BText m ORIGIN (location_link (req_location r)) (desc_lines r ++ tl)).
    set (r1 := block_req p r0 b0).
    change (b0 :: bc ++ bd ++ ba) with ([b0] ++ bc ++ bd ++ ba).
    rewrite !blocks_err_app, !blocks_req_app. change (blocks_req p r0 [b0]) with r1.
    destruct (links_block true (req_covers r) bc r1 H3 HC eq_refl) as (C1 & C2 & C3 & C4 & C5 & C6 & C7).
    set (r2 := blocks_req p r1 bc) in *.
    destruct (links_block false (req_depends r) bd r2 H4 HD C7) as (D1 & D2 & D3 & D4 & D5 & D6 & D7).
    set (r3 := blocks_req p r2 bd) in *.
    assert (A3 : req_attributes r3 = [(ORIGIN, location_link (req_location r) ++ concat (desc_lines r ++ tl))])
      by (rewrite D5, C5; reflexivity).
    destruct (text_blocks (filter kept (req_attributes r)) ba r3 HA) as (T1 & T2 & T3 & T4 & T5 & T6 & T7).
    { pose proof (osorted_nodup_keys _ H6) as ND. clear -ND. induction (req_attributes r) as [|e m IH]; [constructor|].
      cbn [okeys map] in ND. inversion ND; subst. cbn [filter]. destruct (kept e); [|apply IH; assumption].
      cbn [map]. constructor; [|apply IH; assumption]. intros X. apply in_map_iff in X.
      destruct X as (e' & E & X). apply filter_In in X. destruct X as [X _]. apply H1. rewrite <- E. apply in_map. exact X. }
    { intros k Hk. rewrite A3. cbn [oget]. apply in_map_iff in Hk. destruct Hk as ([k0 v0] & <- & He).
      apply filter_In in He. destruct He as [He HK]. cbn [fst]. rewrite Forall_forall in H7. specialize (H7 _ He).
      unfold good_attribute, kept in *. cbn [fst snd] in *. destruct (eqb k0 (L "Description")); [discriminate|].
      destruct H7 as (_ & _ & _ & N4 & _). destruct (eqb_spec k0 ORIGIN) as [->|]; [congruence|reflexivity]. }
    split.
    - rewrite C1, D1, T1. cbn [blocks_err block_err b0 r0 blank_req req_attributes oget app]. reflexivity.
    - constructor.
      + rewrite T2, D2, C2. reflexivity.
      + rewrite T3, D3, C3. exact (eq_sym Et).
      + rewrite T4, D7. exact C6.
      + rewrite T5. exact D6.
      + rewrite T6, D4, C4. reflexivity.
      + intros k Hk. rewrite T7, A3, (kept_get k _ H6). cbn [oget].
        destruct (eqb_spec k ORIGIN) as [|_]; [congruence|]. cbn [option_map].
        destruct (oget k (req_attributes r)) as [v|]; cbn [kept fst snd];
          [|destruct (eqb k (L "Description")); reflexivity].
        unfold kept. cbn [fst snd]. destruct (eqb k (L "Description")); cbn [orb negb]; [reflexivity|].
        destruct (trim v) as [|c w] eqn:ET; cbn [is_nil negb option_map]; rewrite ?ET; reflexivity.
      + rewrite T7, A3, (kept_get ORIGIN _ H6). cbn [oget]. rewrite eqb_refl. cbn [option_map].
        destruct (oget ORIGIN (req_attributes r)) as [v|] eqn:EO.
        { apply oget_Some_In in EO. rewrite Forall_forall in H7. specialize (H7 _ EO). unfold good_attribute in H7.
          cbn [fst snd] in H7. change (eqb ORIGIN (L "Description")) with false in H7. cbv iota in H7.
          destruct H7 as (_ & _ & _ & N4 & _). congruence. }
        f_equal. rewrite concat_app. unfold desc_lines. destruct (oget (L "Description") (req_attributes r)) as [d|].
        * cbn [concat]. rewrite split_lines_concat.
          transitivity (trim ((location_link (req_location r) ++ [NL; NL] ++ d) ++ ([NL] ++ concat tl))).
          { f_equal. rewrite <- !app_assoc. reflexivity. }
          apply trim_app_ws. destruct Htl as [->| ->]; reflexivity.
        * cbn [concat app]. rewrite app_nil_r. apply trim_app_ws. destruct Htl as [->| ->]; reflexivity.
  Qed.

  (** ** Sections *)
  Lemma sections_app_plain a ls :
    (forall x, In x a -> heading_of (snd x) = None) ->
    sections (a ++ ls) = (a ++ fst (sections ls), snd (sections ls)).
  Proof.
    induction a as [|[n l] a IH]; intros H; cbn [app]; [destruct (sections ls); reflexivity|].
    cbn [sections]. rewrite IH by (intros x Hx; apply H; right; exact Hx).
    pose proof (H (n, l) (or_introl eq_refl)) as E. cbn [snd] in E. rewrite E. reflexivity.
  Qed.

  Lemma part_no_heading x l : part_ok x -> In l (part_lines x) -> heading_of l = None.
  Proof.
    intros HO Hl. apply no_hash_no_heading. destruct x as [k f line ls|cov refs]; cbn [part_ok part_lines] in *.
    - destruct HO as ([H1 _] & _ & _ & _ & H5). destruct Hl as [<-|Hl]; [exact H1|].
      rewrite Forall_forall in H5. destruct (H5 _ Hl) as [->|[[H _] _]]; [reflexivity|exact H].
    - destruct Hl as [<-|Hl]; [destruct cov; reflexivity|]. apply in_map_iff in Hl. destruct Hl as (x & <- & _).
      unfold md_reference. destruct (ref_title x); reflexivity.
  Qed.
  Lemma inner_no_heading r l : exportable r -> In l (inner r) -> heading_of l = None.
  Proof.
    intros HX. pose proof (exportable_parts r HX) as HP. inversion HP as [|? ? P1 P2]; subst.
    intros [<-|Hl]; [reflexivity|]. apply in_app_or in Hl. destruct Hl as [Hl|Hl]; [exact (part_no_heading _ _ P1 Hl)|].
    apply in_flat_map in Hl. destruct Hl as (x & Hx & [<-|Hl]); [reflexivity|]. rewrite Forall_forall in P2.
    exact (part_no_heading x l (P2 x Hx) Hl).
  Qed.

  Definition section_of (r : requirement) (s : section) : Prop :=
    exists n t body tail, s = (n, req_id r, t, body) /\ req_title r = Some t /\
      (tail = [] \/ tail = [[NL]]) /\ map snd body = inner r ++ tail.

  Lemma export_sections reqs : Forall exportable reqs -> forall nls,
    map snd nls = flat_map rlines reqs ->
    (map snd (fst (sections nls)) = [] \/ map snd (fst (sections nls)) = [[NL]]) /\
    Forall2 section_of reqs (snd (sections nls)).
  Proof.
    intros HX. induction HX as [|r reqs Hr HX IH]; intros nls HM; cbn [flat_map] in HM.
    - destruct nls; [|discriminate]. cbn. split; [left; reflexivity|constructor].
    - unfold rlines in HM at 1. cbn [app] in HM. destruct nls as [|[n0 l0] nls]; [discriminate|].
      destruct nls as [|[n1 l1] nls]; [discriminate|]. cbn [map snd] in HM. injection HM as -> -> HM.
      assert (HM' : map snd nls = inner r ++ flat_map rlines reqs) by exact HM. clear HM. rename HM' into HM.
      apply map_eq_app in HM. destruct HM as (body & rest & -> & HB & HM).
      destruct (IH rest HM) as [I1 I2].
      pose proof Hr as (G1 & (t & Et & G2) & _).
      cbn [sections]. rewrite sections_app_plain.
      2:{ intros x Hx. apply (inner_no_heading r _ Hr). rewrite <- HB. apply in_map. exact Hx. }
      rewrite (head_heading r t G1 Et G2).
      assert (EN : heading_of [NL] = None) by reflexivity. rewrite EN.
      cbn [fst snd map]. split; [right; reflexivity|]. constructor; [|exact I2].
      exists n1, t, (body ++ fst (sections rest)), (map snd (fst (sections rest))).
      split; [reflexivity|]. split; [exact Et|]. split; [exact I1|]. rewrite map_app, HB. reflexivity.
  Qed.

  Lemma section_back r s : exportable r -> section_of r s ->
    exists bs, section_ok s (bs, Open) /\ section_err p s (bs, Open) = [] /\ comes_back r (section_req p s bs).
  Proof.
    intros HX (n & t & body & tail & -> & Et & HT & HM).
    unfold inner in HM. cbn [app] in HM. destruct body as [|[n0 l0] body]; [discriminate|].
    cbn [map snd] in HM. injection HM as -> HM. rewrite <- app_assoc in HM.
    destruct (parts_attrs tail HT (more_parts r) (origin_part r) body (exportable_parts r HX) HM)
      as (bs & m & l & A & _ & _ & HA & HB).
    exists bs. destruct (requirement_back r t n bs HX Et HB) as [R1 R2].
    split; [|split; [|exact R2]].
    - unfold section_ok. cbn [fst snd]. apply (bo_attrs [(n0, [NL])]); [|exact HA].
      intros x [<-|[]]. reflexivity.
    - cbn [section_err fst snd ending_err]. rewrite R1. reflexivity.
  Qed.

  Lemma sections_back reqs : Forall exportable reqs -> forall ss, Forall2 section_of reqs ss ->
    exists bes, Forall2 section_ok ss bes /\ zip_errs p ss bes = [] /\
      Forall2 comes_back reqs (zip_reqs p ss bes) /\ forallb (fun be => is_open (snd be)) bes = true.
  Proof.
    intros HX. induction HX as [|r reqs Hr HX IH]; intros ss HF; inversion HF as [|? s ? ss' Hs HF' E1 E2]; subst.
    - exists []. repeat split; constructor.
    - destruct (IH ss' HF') as (bes & B1 & B2 & B3 & B4). destruct (section_back r s Hr Hs) as (bs & S1 & S2 & S3).
      exists ((bs, Open) :: bes). split; [constructor; assumption|]. split; [cbn [zip_errs]; rewrite S2, B2; reflexivity|].
      split; [cbn [zip_reqs fst]; constructor; assumption|]. exact B4.
  Qed.

  (** An export ends in a line feed. *)
  Definition nl_end (s : str) : Prop := s = [] \/ exists a, s = a ++ [NL].
  Lemma nl_end_app a b : nl_end a -> nl_end b -> nl_end (a ++ b).
  Proof.
    intros Ha [->|(x & ->)]; [rewrite app_nil_r; exact Ha|]. right. exists (a ++ x). apply app_assoc.
  Qed.
  Lemma nl_end_flat {A} (f : A -> str) l : (forall x, nl_end (f x)) -> nl_end (flat_map f l).
  Proof.
    intros H. induction l as [|x l IH]; [left; reflexivity|]. cbn [flat_map]. apply nl_end_app; [apply H|exact IH].
  Qed.
  Lemma nl_end_snoc a : nl_end (a ++ [NL]).
  Proof. right. exists a. reflexivity. Qed.
  Lemma export_ends reqs : nl_end (flat_map md_requirement reqs).
  Proof.
    apply nl_end_flat. intros r. unfold md_requirement.
    assert (H1 : nl_end (md_description r)).
    { unfold md_description. destruct (oget (L "Description") (req_attributes r)) as [d|]; [|left; reflexivity].
      rewrite app_assoc. apply nl_end_snoc. }
    assert (HR : forall h refs, nl_end (md_references h refs)).
    { intros h refs. unfold md_references. destruct refs; [left; reflexivity|].
      rewrite !app_assoc. apply nl_end_app; [apply nl_end_snoc|apply nl_end_flat; intros x].
      unfold md_reference. destruct (ref_title x); rewrite !app_assoc; apply nl_end_snoc. }
    assert (HA : forall e, nl_end (md_attribute e)).
    { intros [k v]. unfold md_attribute. destruct (eqb k (L "Description")); [left; reflexivity|].
      destruct (trim v) as [|c w]; [left; reflexivity|]. rewrite !app_assoc. apply nl_end_snoc. }
    rewrite !app_assoc. apply nl_end_app; [|apply nl_end_flat, HA].
    apply nl_end_app; [|apply HR]. apply nl_end_app; [|apply HR]. apply nl_end_app; [|exact H1]. apply nl_end_snoc.
  Qed.

  Theorem round_trip reqs : Forall exportable reqs ->
    forallb scalar (flat_map md_requirement reqs) = true ->
    exists reqs', md_parse p (mkReader (encode (flat_map md_requirement reqs)) None) = Done (reqs', []) /\
      Forall2 comes_back reqs reqs'.
  Proof.
    intros HX HS. set (text := flat_map md_requirement reqs) in *. set (rd := mkReader (encode text) None).
    pose proof (read_text text HS) as HR.
    assert (EL : doc_lines rd = number 0 (split_lines text)).
    { unfold doc_lines, rd. rewrite HR. f_equal. generalize (split_lines text). induction l as [|x l IH]; [reflexivity|].
      cbn [map ok_lines]. rewrite IH. reflexivity. }
    assert (EE : doc_error rd = None).
    { unfold doc_error, rd. rewrite HR. generalize (split_lines text). induction l as [|x l IH]; [reflexivity|]. exact IH. }
    assert (EN : forall ls n, map snd (number n ls) = ls).
    { induction ls as [|x ls IH]; intros n; [reflexivity|]. cbn [number map snd]. rewrite IH. reflexivity. }
    destruct (export_sections reqs HX (doc_lines rd)) as [_ HF].
    { rewrite EL, EN. unfold text. apply split_export. exact HX. }
    destruct (sections_back reqs HX _ HF) as (bes & B1 & B2 & B3 & B4).
    exists (zip_reqs p (doc_sections rd) bes). split; [|exact B3].
    rewrite (md_exact p rd bes B1).
    - unfold last_lost, io_error, doc_sections. rewrite EE, B2.
      assert (EC : last (map closed bes) false = false).
      { clear -B4. induction bes as [|be bes IH]; [reflexivity|]. cbn [forallb] in B4. apply andb_true_iff in B4.
        destruct B4 as [B4 B5]. cbn [map]. destruct bes as [|be' bes]; [cbn; unfold closed; rewrite B4; reflexivity|].
        cbn [map last] in *. apply IH. exact B5. }
      rewrite EC. reflexivity.
    - intros HP. apply md_panic_bytes in HP. destruct HP as [_ (pre & b & E & _ & _ & Hb & _)].
      unfold rd in E. cbn [rd_bytes] in E.
      destruct (export_ends reqs) as [E0|(s & E0)]; fold text in E0; rewrite E0 in E.
      + destruct pre; discriminate.
      + rewrite encode_app in E. change (encode [NL]) with [NL] in E. apply app_inj_tail in E.
        destruct E as [_ E]. congruence.
  Qed.
End Trip.
