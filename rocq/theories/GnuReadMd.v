(** What is read from Markdown files keeps the GNU report readable. *)
From Verif Require Import Base OMap Models Unicode Utf8 Location Show MdSyntax MdLex MdParser MdSpec MdFacts MdLines MdCor MdCor2
  MdExact MdAttr MdRefs FmtSpec GnuReadSpec.
Open Scope N_scope.

Section MdReadable.
  Context {U : UnicodeTables} (p : path) (FP : file_ok p) (PN : p <> []).

  Lemma at_line_ok n : location_ok (at_line p n).
  Proof. unfold location_ok, at_line, new_with_line_no. cbn [loc_file loc_in_file]. auto. Qed.

  Lemma valid_id_line id : valid_id id -> one_line id.
  Proof.
    intros (c & w & -> & Hc & _ & Hw) [->|H].
    - apply xid_start_continue, xid_continue_not_ws in Hc. discriminate.
    - rewrite forallb_forall in Hw. apply Hw, xid_continue_not_ws in H. discriminate.
  Qed.

  Lemma chomp_app_in a b c : In c (chomp b) -> In c (chomp (a ++ b)).
  Proof. apply chomp_suffix_in. Qed.

  Lemma attribute_one_line l a v : proper l -> scan_attribute l = Some (a, v) -> one_line a /\ one_line v.
  Proof.
    unfold scan_attribute. intros HP H. destruct l as [|u w]; [discriminate|].
    destruct (is_upper_ascii u) eqn:Eu; [|discriminate].
    destruct (span is_lower_ascii w) as [b r] eqn:Es. destruct b as [|b0 b]; [discriminate|].
    destruct r as [|c r]; [discriminate|]. destruct (c =? COLON); [|discriminate]. injection H as <- <-.
    pose proof (span_eq is_lower_ascii w) as Hw. rewrite Es in Hw. cbn [fst snd] in Hw.
    split.
    - intros [->|H]; [discriminate|].
      assert (HA : forallb is_lower_ascii (b0 :: b) = true) by (pose proof (span_all is_lower_ascii w) as X; rewrite Es in X; exact X).
      rewrite forallb_forall in HA. apply HA in H. discriminate.
    - intros H. apply HP. destruct (trim_start_suffix r) as (s & Er).
      replace (u :: w) with ((u :: (b0 :: b) ++ c :: s) ++ trim_start r).
      + apply chomp_suffix_in. exact H.
      + cbn [app]. rewrite <- Hw. cbn [app]. rewrite <- app_assoc. cbn [app]. rewrite <- Er. reflexivity.
  Qed.

  Lemma block_from s be b : section_ok s be -> In b (fst be) ->
    match b with
    | BDesc _ => True
    | BText _ a v _ => exists x, In x (snd s) /\ scan_attribute (snd x) = Some (a, v)
    | BLinks _ c v _ => exists x, In x (snd s) /\ scan_attribute (snd x) = Some (link_name c, v)
    end.
  Proof.
    intros Hok Hb. unfold section_ok in Hok. destruct be as [bs e]. cbn [fst snd] in *.
    assert (G : forall ls bs e, attrs ls bs e -> In b bs ->
      match b with
      | BDesc _ => True
      | BText _ a v _ => exists x, In x ls /\ scan_attribute (snd x) = Some (a, v)
      | BLinks _ c v _ => exists x, In x ls /\ scan_attribute (snd x) = Some (link_name c, v)
      end).
    { intros ls bs0 e0 HA H. destruct b as [d|n a v ts|n c v rs]; [exact I| |].
      - exact (proj1 attr_blocks_all _ _ _ HA _ H).
      - exact (proj1 link_blocks_all _ _ _ HA _ _ _ _ H). }
    destruct Hok as [blanks rest bs e HB HA|blanks n' l ls ts rest bs e HB Hn HD HA].
    - specialize (G _ _ _ HA Hb). destruct b; [exact I| |]; destruct G as (x & Hx & E); exists x;
        (split; [apply in_or_app; right; exact Hx|exact E]).
    - destruct Hb as [<-|Hb]; [exact I|]. specialize (G _ _ _ HA Hb).
      destruct b; [exact I| |]; destruct G as (x & Hx & E); exists x; (split; [|exact E]);
        apply in_or_app; right; right; (eapply sublist_in; [eapply desc_rest; exact HD|exact Hx]).
  Qed.

  Lemma split_on_in c s x y : In x (split_on c s) -> In y x -> In y s.
  Proof.
    revert x. induction s as [|z s IH]; intros x; cbn [split_on].
    - intros [<-|[]] [].
    - destruct (z =? c).
      + intros [<-|H] Hy; [destruct Hy|right; exact (IH x H Hy)].
      + destruct (split_on c s) as [|q qs].
        * intros [<-|[]] [<-|[]]. left. reflexivity.
        * intros [<-|H] Hy.
          -- destruct Hy as [<-|Hy]; [left; reflexivity|right; apply (IH q); [left; reflexivity|exact Hy]].
          -- right. apply (IH x); [right; exact H|exact Hy].
  Qed.

  Lemma block_refs_ok n first refs : one_line first -> Forall reference_ok (block_refs p n first refs).
  Proof.
    intros HF. apply Forall_forall. intros x Hx. unfold block_refs in Hx. apply in_app_or in Hx. destruct Hx as [Hx|Hx].
    - unfold inline_refs in Hx. apply in_flat_map in Hx. destruct Hx as (q & Hq & Hx).
      destruct (trim q) as [|c w] eqn:Et; [destruct Hx|]. destruct Hx as [<-|[]]. split; [|apply at_line_ok].
      cbn [ref_id]. rewrite <- Et. intros H. apply trim_in in H. apply HF. apply trim_in.
      exact (split_on_in _ _ _ _ Hq H).
    - unfold bullet_refs in Hx. apply in_flat_map in Hx. destruct Hx as (y & Hy & Hx).
      destruct (scan_ref (snd y)) as [[id t]|] eqn:E; [|destruct Hx]. destruct Hx as [<-|[]].
      apply scan_ref_wf in E. split; [|apply at_line_ok]. apply valid_id_line. apply E.
  Qed.

  Lemma body_broken ls bs e : body ls bs e -> forall n m, e = Broken n m -> m = msg_no_attr \/ m = msg_no_ref.
  Proof.
    assert (G : (forall ls bs e, attrs ls bs e -> forall n m, e = Broken n m -> m = msg_no_attr \/ m = msg_no_ref) /\
                (forall ls bs e, after_links ls bs e -> forall n m, e = Broken n m -> m = msg_no_attr \/ m = msg_no_ref) /\
                (forall ls bs e, next_attr ls bs e -> forall n m, e = Broken n m -> m = msg_no_attr \/ m = msg_no_ref)).
    { apply attrs_mutind; intros; try discriminate; eauto.
      - match goal with H : Broken _ _ = Broken _ _ |- _ => injection H as <- <- end. auto.
      - match goal with H : Broken _ _ = Broken _ _ |- _ => injection H as <- <- end. auto. }
    intros HB. destruct HB as [blanks rest bs e _ HA|blanks n' l ls ts rest bs e _ _ _ HA]; exact (proj1 G _ _ _ HA).
  Qed.

  Theorem md_readable r reqs errs :
    md_parse p r = Done (reqs, errs) -> (forall m, doc_error r = Some m -> one_line m) ->
    (forall q, In q reqs -> requirement_ok q) /\ (forall e, In e errs -> error_ok e).
  Proof.
    intros HD HE.
    assert (HL : forall s be k, In s (doc_sections r) -> section_ok s be ->
      forall first refs cov, In (BLinks k cov first refs) (fst be) -> one_line first).
    { intros s be k Hs Hok first refs cov Hb. destruct (block_from _ _ _ Hok Hb) as (x & Hx & E).
      apply attribute_one_line in E; [apply E|]. apply (doc_proper r). exact (section_in_doc _ _ _ Hs Hx). }
    assert (HT : forall s be k, In s (doc_sections r) -> section_ok s be ->
      forall a v ls, In (BText k a v ls) (fst be) -> one_line a).
    { intros s be k Hs Hok a v ls Hb. destruct (block_from _ _ _ Hok Hb) as (x & Hx & E).
      apply attribute_one_line in E; [apply E|]. apply (doc_proper r). exact (section_in_doc _ _ _ Hs Hx). }
    assert (HI : forall s, In s (doc_sections r) -> one_line (snd (fst (section_head s)))).
    { intros s Hs. assert (Hs' := Hs). apply sections_split in Hs'. destruct Hs' as (a & l & b & E & Hl & _).
      assert (Hp : proper l).
      { apply (doc_proper r (fst (fst (section_head s)), l)). rewrite E. apply in_or_app. right. left. reflexivity. }
      destruct (heading_wf _ _ _ Hp Hl) as (H1 & _). apply valid_id_line. exact H1. }
    split.
    - intros q Hq. destruct (md_in_req p _ _ _ _ HD Hq) as (s & be & Hs & Hok & ->).
      pose proof (section_req_head p s (fst be)) as Hh. specialize (HI s Hs).
      unfold requirement_ok.
      assert (Hc : forall c, Forall reference_ok (links_in c (section_req p s (fst be)))).
      { destruct s as [[[n id] t] ls] eqn:Es. cbn [section_req]. rewrite <- Es in *. intros [|]; cbn [links_in].
        - destruct (blocks_req_covers p (fst be) (blank_req p n id t)) as [H|(k & first & refs & Hb & H)]; rewrite H;
            [constructor|]. apply block_refs_ok. eapply HL; eassumption.
        - destruct (blocks_req_depends p (fst be) (blank_req p n id t)) as [H|(k & first & refs & Hb & H)]; rewrite H;
            [constructor|]. apply block_refs_ok. eapply HL; eassumption. }
      unfold head, head_of in Hh. destruct s as [[[n id] t] ls] eqn:Es. cbn [section_head fst snd] in Hh, HI.
      rewrite <- Es in *. injection Hh as H1 H2 H3. rewrite H1, H2.
      split; [exact HI|]. split; [apply at_line_ok|]. split; [exact (Hc true)|exact (Hc false)].
    - intros e He. destruct (md_in_err p _ _ _ _ HD He) as [(s & be & Hs & Hok & H)|(m & Hm & ->)].
      + pose proof (section_err_line p _ _ _ Hok H) as (n & _ & HS).
        destruct HS as [(m & -> & Eb)|(a & id & ->)].
        * split; [apply at_line_ok|]. unfold section_ok in Hok. destruct (body_broken _ _ _ Hok _ _ Eb) as [->| ->];
            intros X; vm_compute in X; repeat (destruct X as [X|X]; [discriminate|]); exact X.
        * assert (HD2 := proj1 (md_duplicates p _ _ _ _ _ _ HD) He).
          destruct HD2 as (s' & be' & bs1 & b & bs2 & Hs' & Hok' & Eb & Hr & _ & ->).
          cbn [error_ok]. split; [apply at_line_ok|]. split; [|apply HI; exact Hs'].
          assert (Hb : In b (fst be')) by (rewrite Eb; apply in_or_app; right; left; reflexivity).
          unfold repeats in Hr. destruct b as [d|k a' v ts|k c v rs].
          -- contradiction.
          -- destruct Hr as [-> _]. eapply HT; eassumption.
          -- destruct c; destruct Hr as [-> _]; intros X; vm_compute in X; repeat (destruct X as [X|X]; [discriminate|]); exact X.
      + cbn [error_ok]. split; [exact FP|]. apply HE. exact Hm.
  Qed.
End MdReadable.
