(** The model of the MonoRequirement parser computes its specification. *)
From Verif Require Import Base OMap Models Unicode Regex Utf8 MdLex MdSyntax MdLexFacts ReadFacts
  Paths PathFacts MonoParser MonoSpec.
Open Scope N_scope.

Lemma strip_line_nl a : strip_line (a ++ [NL]) = strip_cr a.
Proof.
  unfold strip_line, strip_cr. rewrite rev_app_distr. cbn [rev app]. rewrite N.eqb_refl.
  destruct (rev a) as [|c r] eqn:E; [reflexivity|].
  destruct (c =? 13); [reflexivity|]. rewrite <- E, rev_involutive. reflexivity.
Qed.

Lemma strip_line_free s : ~ In NL s -> strip_line s = s.
Proof.
  intros H. unfold strip_line. destruct (rev s) as [|c r] eqn:E.
  - apply (f_equal (@rev N)) in E. rewrite rev_involutive in E. symmetry. exact E.
  - destruct (N.eqb_spec c NL) as [->|]; [|reflexivity].
    elim H. apply in_rev. rewrite E. left. reflexivity.
Qed.

Lemma lines_split text :
  map strip_line (split_lines text) = content_lines text.
Proof.
  unfold content_lines.
  assert (G : split_lines text = map (fun a => a ++ [NL]) (removelast (split_on NL text)) ++
                match last (split_on NL text) [] with [] => [] | w => [w] end).
  { induction text as [|c s IH]; [reflexivity|]. cbn [split_lines split_on]. fold NL.
    change (c =? 10) with (c =? NL).
    destruct (N.eqb_spec c NL) as [->|Hc].
    - destruct (split_on NL s) as [|x xs] eqn:E; [destruct (split_on_nil _ _ E)|].
      rewrite IH. reflexivity.
    - rewrite IH. destruct (split_on NL s) as [|x xs] eqn:E; [destruct (split_on_nil _ _ E)|].
      destruct xs as [|y ys]; [cbn; destruct x; reflexivity|]. reflexivity. }
  assert (F : Forall (fun a => ~ In NL a) (split_on NL text)).
  { clear G. induction text as [|c s IH]; [constructor; [intros []|constructor]|]. cbn [split_on].
    destruct (N.eqb_spec c NL) as [->|Hc]; [constructor; [intros []|exact IH]|].
    destruct (split_on NL s) as [|x xs] eqn:E; [destruct (split_on_nil _ _ E)|].
    inversion IH as [|? ? Hx Hxs]; subst. constructor; [|exact Hxs].
    intros [H|H]; [exact (Hc H)|exact (Hx H)]. }
  rewrite G, map_app, map_map. f_equal.
  - apply map_ext. apply strip_line_nl.
  - assert (H : ~ In NL (last (split_on NL text) [])).
    { clear G. induction F as [|x xs Hx Hxs IH]; [intros []|]. destruct xs; [exact Hx|exact IH]. }
    destruct (last (split_on NL text) []) as [|c w]; [reflexivity|].
    cbn [map]. rewrite strip_line_free by exact H. reflexivity.
Qed.

Section MonoFacts.
  Context {U : UnicodeTables}.

  Lemma arrow_here_regex pos w :
    proper w ->
    match bm MONO_REF_LINK (mkMst pos w []) Some with Some s => Some (m_caps s) | None => None end =
    option_map ref_caps (scan_arrow_here w).
  Proof.
    intros HP. unfold MONO_REF_LINK. rewrite bm_seq, chr_spec. unfold scan_arrow_here.
    destruct w as [|e w]; [reflexivity|]. destruct (e =? 61) eqn:Ee.
    2:{ destruct w; reflexivity. }
    rewrite bm_seq, chr_spec. destruct w as [|g w]; [reflexivity|].
    cbn [andb]. destruct (g =? 62); [|reflexivity].
    assert (HPw := proper_cons _ _ (proper_cons _ _ HP)).
    set (K2 := fun s => bm (Seq (Opt (Seq (Chr COLON) (Seq re_ws (Grp 2 (Plus false (Cls dot))))))
                                (Seq re_ws Eol)) s Some).
    match goal with
    | |- match ?lhs with _ => _ end = _ =>
      change lhs with (bm re_ws (mkMst (S (S pos)) w []) (fun s => bm (Grp 1 re_id) s K2))
    end.
    assert (HK2 : forall pos r caps,
      K2 (mkMst pos r caps) =
      orelse (bm (Chr COLON) (mkMst pos r caps)
                (fun s => bm re_ws s (fun s => bm (Grp 2 (Plus false (Cls dot))) s tail_end)))
             (tail_end (mkMst pos r caps))) by reflexivity.
    rewrite ws_spec.
    - rewrite id_spec.
      + destruct (scan_id (trim_start w)) as [[id r]|] eqn:Eid; [|reflexivity].
        rewrite HK2, chr_spec, tail_end_spec.
        assert (HPr : proper r).
        { apply scan_id_eq in Eid. destruct (trim_start_decomp w) as (p & Hp & _).
          rewrite Hp, Eid in HPw. apply proper_app, proper_app in HPw. exact HPw. }
        destruct r as [|x r]; [reflexivity|].
        destruct (N.eqb_spec x COLON) as [->|Hx].
        * assert (HPr' := proper_cons _ _ HPr). rewrite title_spec by exact HPr'.
          destruct (scan_title r); reflexivity.
        * cbn [orelse]. destruct (forallb is_ws (x :: r)); reflexivity.
      + intros p0 x y z Hx. rewrite HK2, chr_spec, tail_end_spec. cbn [forallb].
        rewrite (xid_continue_not_ws _ Hx). cbn [andb].
        destruct (N.eqb_spec x COLON) as [->|]; [|reflexivity].
        rewrite xid_continue_colon in Hx. discriminate.
    - intros p0 x y z Hx. apply (id_fails_on is_ws); [apply ws_not_start|exact Hx].
  Qed.

  Theorem arrow_regex w :
    proper w -> captures MONO_REF_LINK w = option_map ref_caps (scan_arrow w).
  Proof.
    unfold captures. generalize 0%nat. induction w as [|c w IH]; intros pos HP.
    - cbn [search]. pose proof (arrow_here_regex pos [] HP) as H.
      cbn [scan_arrow scan_arrow_here option_map] in *.
      destruct (bm MONO_REF_LINK (mkMst pos [] []) Some); [discriminate|]. reflexivity.
    - cbn [search scan_arrow]. pose proof (arrow_here_regex pos (c :: w) HP) as H.
      destruct (bm MONO_REF_LINK (mkMst pos (c :: w) []) Some) as [s|] eqn:E;
        destruct (scan_arrow_here (c :: w)) as [x|]; cbn [option_map orelse] in *; try discriminate;
        [exact H|].
      apply IH. exact (proper_cons _ _ HP).
  Qed.

  Lemma ref_caps_groups x : group 1 (ref_caps x) = Some (fst x) /\ group 2 (ref_caps x) = snd x.
  Proof. destruct x as [id [t|]]; split; reflexivity. Qed.

  Context (p : path).

  Lemma mono_loop_rest ws : forall no t deps,
    Forall (fun w => ~ In NL (strip_line w)) ws ->
    mono_loop p no (Some t) deps (map ROk ws) =
    Done (Some t, deps ++ arrows p (no + 1) (map strip_line ws)).
  Proof.
    induction ws as [|w ws IH]; intros no t deps H; cbn [map mono_loop arrows].
    - rewrite app_nil_r. reflexivity.
    - inversion H as [|? ? H1 H2]; subst.
      rewrite arrow_regex by (apply proper_no_nl; exact H1).
      destruct (scan_arrow (strip_line w)) as [x|]; cbn [option_map].
      + destruct (ref_caps_groups x) as [-> ->]. cbn [unwrap obind].
        rewrite IH by exact H2. destruct x as [id tt]. cbn [fst snd].
        rewrite <- app_assoc. reflexivity.
      + apply IH. exact H2.
  Qed.

  Lemma strip_line_sub w c : In c (strip_line w) -> In c (chomp w).
  Proof.
    unfold strip_line, chomp. destruct (rev w) as [|d r] eqn:E; [intros []|].
    destruct (d =? NL); [|tauto]. destruct r as [|e r']; [intros []|].
    destruct (e =? 13); [|tauto]. cbn [rev]. intros H. apply in_or_app. left. exact H.
  Qed.

  Lemma split_lines_proper bs : Forall proper (split_lines bs).
  Proof.
    pose proof (split_lines_wf bs) as H. induction H as [|s H1 H2|a l H1 H2 IH]; constructor;
      try constructor; try exact IH; [apply proper_no_nl|apply proper_nl]; assumption.
  Qed.

  Lemma decode_split bs text : decode bs = Some text ->
    read_lines (mkReader bs None) = map ROk (split_lines text).
  Proof. intros H. apply decode_sound in H. destruct H as [-> H]. apply read_text. exact H. Qed.

  (** A file that can be read. *)
  Theorem mono_exact bs text :
    decode bs = Some text ->
    mono_parse p (mkReader bs None) =
    Done ([mono_requirement p text],
          match file_stem p with
          | Some _ => []
          | None => [EConfig (L "file for 'MonoReq' parser `" ++ p ++ L " has no stem")]
          end).
  Proof.
    intros H. unfold mono_parse. rewrite (decode_split _ _ H).
    unfold mono_requirement. rewrite <- lines_split.
    assert (F : Forall (fun w => ~ In NL (strip_line w)) (split_lines text)).
    { eapply Forall_impl; [|apply split_lines_proper]. intros w Hw HI. apply Hw.
      apply strip_line_sub. exact HI. }
    destruct (split_lines text) as [|w ws].
    - cbn. destruct (file_stem p); reflexivity.
    - inversion F as [|? ? F1 F2]; subst. cbn [map mono_loop hd_error tl].
      rewrite mono_loop_rest by exact F2. cbn [obind app].
      destruct (file_stem p); reflexivity.
  Qed.

  Theorem mono_id bs text :
    decode bs = Some text ->
    exists r errs, mono_parse p (mkReader bs None) = Done ([r], errs) /\
      (forall s, stem p s -> req_id r = s /\ errs = []) /\
      ((~ exists s, stem p s) ->
       req_id r = L "README" /\ errs = [EConfig (L "file for 'MonoReq' parser `" ++ p ++ L " has no stem")]).
  Proof.
    intros H. rewrite (mono_exact _ _ H). eexists. eexists. split; [reflexivity|].
    unfold mono_requirement. cbn [req_id]. split.
    - intros s Hs. apply file_stem_exact in Hs. rewrite Hs. auto.
    - intros Hs. apply no_stem in Hs. rewrite Hs. auto.
  Qed.

  Lemma mono_loop_err l : forall no t deps,
    (exists m, In (RErr m) l) -> mono_loop p no t deps l = Panic.
  Proof.
    induction l as [|x l IH]; intros no t deps [m H]; [destruct H|]. cbn [mono_loop].
    destruct x as [w|m']; [|reflexivity]. destruct H as [H|H]; [discriminate|].
    assert (E : exists m, In (RErr m) l) by eauto.
    destruct t as [t|]; [|apply IH; exact E].
    destruct (captures MONO_REF_LINK (strip_line w)) as [caps|]; [|apply IH; exact E].
    destruct (group 1 caps); [|reflexivity]. apply IH. exact E.
  Qed.

  (** A file that cannot be read. *)
  Theorem mono_panics r :
    mono_parse p r = Panic <-> rd_fail r <> None \/ decode (rd_bytes r) = None.
  Proof.
    destruct r as [bs f]. cbn [rd_fail rd_bytes]. split.
    - intros H. destruct f as [m|]; [left; discriminate|]. right.
      destruct (decode bs) as [t|] eqn:E; [|reflexivity].
      rewrite (mono_exact _ _ E) in H. discriminate.
    - intros H. unfold mono_parse. rewrite mono_loop_err; [reflexivity|].
      destruct (existsb (fun x => match x with RErr _ => true | _ => false end) (read_lines (mkReader bs f))) eqn:E.
      + apply existsb_exists in E. destruct E as (x & Hx & Ex). destruct x; [discriminate|]. eauto.
      + exfalso. destruct (read_lines_complete (mkReader bs f)) as (Hf & ls & _ & Hd).
        * intros m Hm.
          assert (E' : existsb (fun x => match x with RErr _ => true | _ => false end) (read_lines (mkReader bs f)) = true)
            by (apply existsb_exists; exists (RErr m); split; [exact Hm|reflexivity]). congruence.
        * cbn [rd_fail rd_bytes] in *. destruct H as [H|H]; congruence.
  Qed.
End MonoFacts.

(** ** What [scan_arrow] accepts *)
Section Arrow.
  Context {U : UnicodeTables}.
  Definition arrow : str := [61; 62].

  (** No arrow, no reference. *)
  Lemma scan_arrow_none w :
    (forall a b, w <> a ++ arrow ++ b) -> scan_arrow w = None.
  Proof.
    induction w as [|c w IH]; intros H; [reflexivity|]. cbn [scan_arrow].
    replace (scan_arrow_here (c :: w)) with (@None (str * option str)).
    - apply IH. intros a b E. apply (H (c :: a) b). cbn. rewrite E. reflexivity.
    - unfold scan_arrow_here. destruct w as [|g w]; [reflexivity|].
      destruct (N.eqb_spec c 61) as [->|]; [|reflexivity].
      destruct (N.eqb_spec g 62) as [->|]; [|reflexivity].
      exfalso. apply (H [] w). reflexivity.
  Qed.

  Lemma scan_arrow_skip a w :
    (forall x y, a <> x ++ arrow ++ y) ->
    scan_arrow (a ++ arrow ++ w) =
    match scan_arrow_here (arrow ++ w) with Some x => Some x | None => scan_arrow (62 :: w) end.
  Proof.
    induction a as [|c a IH]; intros H.
    - reflexivity.
    - cbn [app scan_arrow].
      replace (scan_arrow_here (c :: a ++ arrow ++ w)) with (@None (str * option str)).
      + apply IH. intros x y E. apply (H (c :: x) y). cbn. rewrite E. reflexivity.
      + destruct a as [|g a]; cbn [app scan_arrow_here arrow].
        * cbn. rewrite andb_false_r. reflexivity.
        * destruct (N.eqb_spec c 61) as [->|]; [|reflexivity].
          destruct (N.eqb_spec g 62) as [->|]; [|reflexivity].
          exfalso. apply (H [] a). reflexivity.
  Qed.

  Definition is_id (id : str) : Prop :=
    exists c s, id = c :: s /\ s <> [] /\ xid_start c = true /\ forallb xid_continue s = true.

  Lemma scan_id_stop id r :
    is_id id -> match r with [] => True | c :: _ => xid_continue c = false end ->
    scan_id (id ++ r) = Some (id, r).
  Proof.
    intros (c & s & -> & Hs & Hc & Hall) Hr. cbn [app scan_id]. rewrite Hc.
    rewrite span_app by (auto; destruct r; auto).
    destruct s; [elim Hs; reflexivity|reflexivity].
  Qed.

  Lemma trim_start_id id r : is_id id -> trim_start (id ++ r) = id ++ r.
  Proof.
    intros (c & s & -> & _ & Hc & _). cbn [app trim_start]. rewrite (xid_start_not_ws _ Hc). reflexivity.
  Qed.

  (** `text => ID` and `text => ID: title`, with any white space, are references. *)
  Theorem scan_arrow_plain a ws id ws' :
    (forall x y, a <> x ++ arrow ++ y) -> forallb is_ws ws = true -> is_id id -> forallb is_ws ws' = true ->
    scan_arrow (a ++ arrow ++ ws ++ id ++ ws') = Some (id, None).
  Proof.
    intros Ha Hw Hid Hw'. rewrite scan_arrow_skip by exact Ha.
    unfold arrow. cbn [app scan_arrow_here N.eqb Pos.eqb andb].
    rewrite trim_start_ws by exact Hw.
    rewrite (trim_start_id id ws' Hid).
    rewrite scan_id_stop; [|exact Hid|].
    - destruct ws' as [|c ws']; [reflexivity|].
      destruct (N.eqb_spec c COLON) as [->|]; [discriminate Hw'|]. rewrite Hw'. reflexivity.
    - destruct ws' as [|c ws']; [exact I|]. cbn in Hw'. apply andb_true_iff in Hw'.
      destruct (xid_continue c) eqn:E; [|reflexivity].
      apply xid_continue_not_ws in E. destruct Hw'. congruence.
  Qed.

  Theorem scan_arrow_titled a ws id ws' t ws'' :
    (forall x y, a <> x ++ arrow ++ y) -> forallb is_ws ws = true -> is_id id ->
    forallb is_ws ws' = true -> t <> [] -> trimmed t -> forallb is_ws ws'' = true ->
    ~ In NL (ws' ++ t ++ ws'') ->
    scan_arrow (a ++ arrow ++ ws ++ id ++ COLON :: ws' ++ t ++ ws'') = Some (id, Some t).
  Proof.
    intros Ha Hw Hid Hw' Ht Htr Hw'' HN. rewrite scan_arrow_skip by exact Ha.
    unfold arrow. cbn [app scan_arrow_here N.eqb Pos.eqb andb].
    rewrite trim_start_ws by exact Hw. rewrite (trim_start_id id _ Hid).
    rewrite scan_id_stop; [|exact Hid|apply xid_continue_colon].
    rewrite N.eqb_refl. unfold scan_title. rewrite chomp_no_nl by exact HN.
    assert (E : trim (ws' ++ t ++ ws'') = t).
    { unfold trim. rewrite trim_start_ws by exact Hw'.
      replace (trim_start (t ++ ws'')) with (t ++ ws'').
      - rewrite trim_end_ws by exact Hw''. rewrite <- (trim_id t Htr) at 2. unfold trim.
        f_equal. destruct t as [|c t]; [reflexivity|]. cbn. rewrite (proj1 Htr). reflexivity.
      - destruct t as [|c t]; [elim Ht; reflexivity|]. cbn. rewrite (proj1 Htr). reflexivity. }
    destruct (ws' ++ t ++ ws'') as [|c w].
    - cbn in E. elim Ht. symmetry. exact E.
    - rewrite E. destruct t; [elim Ht; reflexivity|reflexivity].
  Qed.
End Arrow.
