(** Lemmas behind PropsDoc.v: where the user documentation and the program differ, and what
    holds instead. *)
From Verif Require Import Base OMap Models Unicode Utf8 Paths MdSyntax MdParser MdSpec MdMachine MdFacts MdRefine MdCor
  MdExact MdLines MdLexFacts MdCor2 ReadFacts MdShift MonoParser MonoSpec MonoFacts RustParser RustSpec RustFacts.
Open Scope N_scope.

Section Md.
  Context {U : UnicodeTables} (p : path).

  Lemma text_run pre : text_lines pre -> exists ls,
    read_lines (mkReader pre None) = map ROk ls /\ lines_of pre = number 0 ls /\
    ok_lines (read_lines (mkReader pre None)) = ls /\ read_error (read_lines (mkReader pre None)) = None /\
    existsb one_byte ls = false /\ length ls = length (split_lines pre) /\
    forall doc f, read_lines (mkReader (pre ++ doc) f) = map ROk ls ++ read_lines (mkReader doc f).
  Proof.
    intros HT. destruct (read_lines_cat pre [] None HT) as (ls & E1 & Hnl & Hlen & _).
    assert (Eok : ok_lines (read_lines (mkReader pre None)) = ls).
    { rewrite E1, <- (app_nil_r (map ROk ls)), ok_lines_app. apply app_nil_r. }
    exists ls. split; [exact E1|]. split; [unfold lines_of, doc_lines; rewrite Eok; reflexivity|].
    split; [exact Eok|]. split; [|split; [|split]].
    - rewrite E1, <- (app_nil_r (map ROk ls)), read_error_app. reflexivity.
    - apply existsb_terminated. exact Hnl.
    - exact Hlen.
    - intros doc f. destruct (read_lines_cat pre doc f HT) as (ls' & E1' & _ & _ & E2).
      rewrite E2. f_equal. rewrite E1 in E1'. symmetry. exact E1'.
  Qed.

  (** A line that is not UTF-8 ends the document: what was pending is lost. *)
  Lemma bad_line pre bad :
    text_lines pre -> ~ In NL bad -> decode (bad ++ [NL]) = None ->
    exists reqs errs extra,
      md_parse p (mkReader pre None) = Done (reqs ++ extra, errs) /\
      map head reqs = removelast (map (head_of p) (headings (lines_of pre))) /\
      forall rest f, md_parse p (mkReader (pre ++ bad ++ [NL] ++ rest) f) =
                     Done (reqs, errs ++ [EIo p invalid_utf8]).
  Proof.
    intros HT Hb Hd. destruct (text_run pre HT) as (ls & E1 & En & Eok & Eer & Hob & Hlen & Ecat).
    assert (Ebad : forall rest f, read_lines (mkReader (bad ++ [NL] ++ rest) f) = [RErr invalid_utf8]).
    { intros rest f. unfold read_lines. cbn [rd_bytes rd_fail].
      assert (Es : split_lines (bad ++ [NL] ++ rest) = (bad ++ [NL]) :: split_lines rest).
      { rewrite app_assoc. rewrite split_lines_cat by eauto.
        assert (E : split_lines (bad ++ [NL]) = [bad ++ [NL]]).
        { clear -Hb. induction bad as [|x bad IH]; [reflexivity|]. cbn [app split_lines].
          destruct (x =? 10) eqn:Ex; [apply N.eqb_eq in Ex; subst; elim Hb; left; reflexivity|].
          rewrite IH; [reflexivity|]. intros H. apply Hb. right. exact H. }
        rewrite E. reflexivity. }
      rewrite Es, read_results_line, Hd. reflexivity. }
    assert (Hall : forall rest f, md_parse p (mkReader (pre ++ bad ++ [NL] ++ rest) f) =
       Done (snd (fst (mrun p (Idle None) 0 ls)), snd (mrun p (Idle None) 0 ls) ++ [EIo p invalid_utf8])).
    { intros rest f. rewrite md_parse_spec, Ecat, Ebad. unfold one_byte_tail.
      rewrite ok_lines_app, read_error_app, existsb_app, Hob. cbn. rewrite app_nil_r. unfold mresult.
      destruct (mrun p (Idle None) 0 ls) as [[c rs] es]. reflexivity. }
    exists (snd (fst (mrun p (Idle None) 0 ls))), (snd (mrun p (Idle None) 0 ls)),
           (finish (fst (fst (mrun p (Idle None) 0 ls)))).
    split; [|split; [|exact Hall]].
    - rewrite md_parse_spec. unfold one_byte_tail. rewrite Eok, Eer, Hob. unfold mresult.
      destruct (mrun p (Idle None) 0 ls) as [[c rs] es]. reflexivity.
    - destruct (md_headings p _ _ _ (Hall [] None)) as [H _].
      assert (Edl : doc_lines (mkReader (pre ++ bad ++ [NL] ++ []) None) = lines_of pre).
      { unfold doc_lines. rewrite Ecat, Ebad, ok_lines_app. cbn [ok_lines]. rewrite app_nil_r. symmetry. exact En. }
      rewrite Edl in H. apply H. left. unfold doc_error. rewrite Ecat, Ebad, read_error_app. discriminate.
  Qed.

  (** After a plain heading the lines up to the next requirement heading do not matter. *)
  Definition no_req_headings (bs : list N) : Prop := forall x, In x (lines_of bs) -> heading_of (snd x) = None.

  Lemma run_skipped x mid n : text_lines mid -> no_req_headings mid -> forall ls,
    lines_of mid = number 0 ls -> mrun p (Idle x) n ls = (Idle x, [], []).
  Proof.
    intros _ HN ls En. rewrite mrun_number. apply run_idle. intros [m l] Hin. cbn [snd].
    assert (Hs : In l ls).
    { rewrite <- (number_snd ls n). apply in_map_iff. exists (m, l). auto. }
    unfold no_req_headings in HN. rewrite En in HN.
    rewrite <- (number_snd ls 0) in Hs. apply in_map_iff in Hs. destruct Hs as ([m' l'] & <- & Hs).
    exact (HN _ Hs).
  Qed.

  Lemma skipped_lines pre mid1 mid2 doc f n h :
    text_lines pre -> last (lines_of pre) (0, []) = (n, h) -> plain_heading h ->
    text_lines mid1 -> no_req_headings mid1 -> text_lines mid2 -> no_req_headings mid2 ->
    length (split_lines mid1) = length (split_lines mid2) ->
    md_parse p (mkReader (pre ++ mid1 ++ doc) f) = md_parse p (mkReader (pre ++ mid2 ++ doc) f).
  Proof.
    intros HT Hl Hh H1 N1 H2 N2 HL.
    destruct (text_run pre HT) as (ls & E1 & En & Eok & Eer & Hob & Hlen & Ecat).
    destruct (text_run mid1 H1) as (l1 & _ & En1 & _ & _ & Hob1 & Hlen1 & Ecat1).
    destruct (text_run mid2 H2) as (l2 & _ & En2 & _ & _ & Hob2 & Hlen2 & Ecat2).
    rewrite !md_parse_spec, !Ecat, Ecat1, Ecat2. unfold one_byte_tail.
    rewrite !ok_lines_app, !read_error_app, !existsb_app, Hob, Hob1, Hob2. cbn [orb].
    destruct (existsb one_byte (ok_lines (read_lines (mkReader doc f)))); [reflexivity|]. unfold mresult.
    assert (Hi : exists x rs es, mrun p (Idle None) 0 ls = (Idle x, rs, es)).
    { rewrite En in Hl. destruct ls as [|l0 ls0] using rev_ind.
      - cbn in Hl. inversion Hl; subst. destruct Hh as [_ Hh]. discriminate.
      - clear IHls0. rewrite number_app in Hl. cbn [number] in Hl. rewrite last_last in Hl.
        inversion Hl; subst. rewrite mrun_cat.
        destruct (mrun p (Idle None) 0 ls0) as [[c rs] es]. cbn [mrun].
        rewrite (step_heading p c _ _ Hh). eauto. }
    destruct Hi as (x & rs & es & Ei).
    rewrite (mrun_cat p ls), (mrun_cat p ls), Ei.
    assert (Em : forall mid lm, text_lines mid -> no_req_headings mid -> lines_of mid = number 0 lm ->
       forall rest, mrun p (Idle x) (N.of_nat (length ls)) (lm ++ rest) =
         mrun p (Idle x) (N.of_nat (length ls) + N.of_nat (length lm)) rest).
    { intros mid lm Ht Hn Hnum rest. rewrite mrun_number, number_app, mrunN_app, <- mrun_number.
      rewrite (run_skipped x mid _ Ht Hn lm Hnum), <- mrun_number.
      destruct (mrun p (Idle x) (N.of_nat (length ls) + N.of_nat (length lm)) rest) as [[c r] e]. reflexivity. }
    rewrite (Em mid1 l1 H1 N1 En1), (Em mid2 l2 H2 N2 En2), Hlen1, Hlen2, HL. reflexivity.
  Qed.

  (** Tags. *)
  Lemma md_no_tags r reqs errs : md_parse p r = Done (reqs, errs) -> forall q, In q reqs -> req_tags q = [].
  Proof.
    rewrite md_parse_spec. destruct (one_byte_tail _); [discriminate|]. intros H. injection H as H. revert H.
    unfold mresult.
    set (good := fun c : cfg => match c with Idle x => Forall (fun q => req_tags q = []) (olist x)
                                | Active q _ => req_tags q = [] end).
    assert (HC : forall q ph, req_tags (commit q ph) = req_tags q) by (intros q [| | | | |[] v]; reflexivity).
    assert (HP : forall c, good c -> Forall (fun q => req_tags q = []) (olist (pending c))).
    { intros [x|q ph] Hg; cbn in *; [exact Hg|]. constructor; [rewrite HC; exact Hg|constructor]. }
    assert (HS : forall c n l, good c ->
       good (fst (fst (mstep p c n l))) /\ Forall (fun q => req_tags q = []) (snd (fst (mstep p c n l)))).
    { intros c n l Hg. unfold mstep. destruct (classify l) as [id t| | |]; cbn [fst snd].
      - split; [reflexivity|apply HP; exact Hg].
      - split; [apply HP; exact Hg|constructor].
      - destruct c as [x|q ph]; cbn [fst snd]; (split; [|constructor]); [exact Hg|].
        cbn in Hg. destruct ph as [| | | | |[] v]; exact Hg.
      - destruct c as [x|q ph]; cbn [fst snd]; [split; [exact Hg|constructor]|].
        destruct (line_step p q ph n l) as [c' es] eqn:E. cbn [fst snd]. split; [|constructor].
        cbn in Hg. unfold line_step in E.
        destruct ph as [|d|d| |a v|cov refs];
          repeat match type of E with
          | context [match ?x with _ => _ end] => destruct x eqn:?
          end; inversion E; subst; cbn; try exact Hg; try (constructor; [|constructor]); rewrite ?HC; try exact Hg;
          destruct cov; exact Hg. }
    assert (HR : forall ls c n, good c ->
       good (fst (fst (mrun p c n ls))) /\ Forall (fun q => req_tags q = []) (snd (fst (mrun p c n ls)))).
    { induction ls as [|l ls IH]; intros c n Hg; cbn [mrun fst snd]; [split; [exact Hg|constructor]|].
      destruct (HS c (n + 1) l Hg) as [Ha Hb]. destruct (mstep p c (n + 1) l) as [[c1 rs] es]. cbn [fst snd] in *.
      destruct (IH c1 (n + 1) Ha) as [Hc Hd]. destruct (mrun p c1 (n + 1) ls) as [[c2 rs'] es']. cbn [fst snd] in *.
      split; [exact Hc|]. apply Forall_app. auto. }
    destruct (HR (ok_lines (read_lines r)) (Idle None) 0 (Forall_nil _)) as [Ha Hb].
    destruct (mrun p (Idle None) 0 (ok_lines (read_lines r))) as [[c rs] es]. cbn [fst snd] in *.
    assert (HF : Forall (fun q => req_tags q = []) (rs ++ finish c)).
    { apply Forall_app. split; [exact Hb|]. destruct c as [x|q ph]; cbn [finish]; [constructor|].
      apply (HP (Active q ph) Ha). }
    destruct (read_error (read_lines r)); intros H q Hq; inversion H; subst;
      [exact (proj1 (Forall_forall _ _) Hb q Hq)|exact (proj1 (Forall_forall _ _) HF q Hq)].
  Qed.

  Lemma mono_no_tags r reqs errs : mono_parse p r = Done (reqs, errs) -> forall q, In q reqs -> req_tags q = [].
  Proof.
    destruct r as [bs f]. intros H q Hq. destruct f as [m|].
    - assert (E : mono_parse p (mkReader bs (Some m)) = Panic) by (apply mono_panics; left; discriminate). congruence.
    - destruct (decode bs) as [t|] eqn:E.
      + rewrite (mono_exact p bs t E) in H. inversion H; subst. destruct Hq as [<-|[]]. reflexivity.
      + assert (E' : mono_parse p (mkReader bs None) = Panic) by (apply mono_panics; right; exact E). congruence.
  Qed.
End Md.

Lemma rust_no_tags syn dbg p r reqs errs :
  rust_parse syn dbg p r = Done (reqs, errs) -> forall q, In q reqs -> req_tags q = [].
Proof.
  intros H q Hq. destruct (read_to_string r) as [src|m] eqn:E1.
  - destruct (syn src) as [file|[a0 e]] eqn:E2.
    + destruct (rust_exact dbg p syn r src file reqs errs E1 E2 H) as (gs & HF & _). clear H.
      induction HF as [|g x gs xs Hg HF IH]; [destruct Hq|]. destruct Hq as [<-|Hq]; [|exact (IH Hq)].
      destruct Hg as (m & y & ms & a & sc & _ & _ & _ & ->). reflexivity.
    + unfold rust_parse in H. rewrite E1, E2 in H. inversion H; subst. destruct Hq.
  - unfold rust_parse in H. rewrite E1 in H. inversion H; subst. destruct Hq.
Qed.

(** ** Ids are copied *)
Section Verbatim.
  Context {U : UnicodeTables} (p : path).

  Lemma heading_copies l id t : heading_of l = Some (id, t) -> exists a b, l = a ++ id ++ COLON :: b.
  Proof.
    unfold heading_of. destruct (scan_requirement l) as [[[h id'] t']|] eqn:E; [|discriminate].
    intros H. inversion H; subst id' t. clear H. unfold scan_requirement in E.
    destruct (span_suffix (N.eqb HASH) l) as (s1 & El).
    destruct (span (N.eqb HASH) l) as [hh w1]. cbn [snd] in El. destruct hh as [|h0 hh]; [discriminate|].
    destruct (trim_start_suffix w1) as (s2 & Ew).
    destruct (scan_id (trim_start w1)) as [[id2 [|c r]]|] eqn:Ei; [discriminate| |discriminate].
    destruct (c =? COLON) eqn:Ec; [|discriminate]. destruct (scan_title r) as [t2|]; [|discriminate].
    inversion E; subst id2. apply scan_id_eq in Ei. apply N.eqb_eq in Ec. subst c.
    exists (s1 ++ s2), r. rewrite <- app_assoc, <- Ei, <- Ew. exact El.
  Qed.

  Lemma md_ids_copied r reqs errs q : md_parse p r = Done (reqs, errs) -> In q reqs ->
    exists n l a b, In (n, l) (doc_lines r) /\ req_location q = at_line p n /\ l = a ++ req_id q ++ COLON :: b.
  Proof.
    intros H Hq. destruct (md_in_req p _ _ _ _ H Hq) as (s & be & Hs & _ & ->).
    pose proof (section_req_head p s (fst be)) as Hh.
    apply sections_split in Hs. destruct Hs as (a & l & b & E & Hl & _).
    destruct (heading_copies _ _ _ Hl) as (x & y & El).
    unfold head, head_of in Hh. destruct (section_head s) as [[n id] t]. cbn [fst snd] in *.
    injection Hh as Hloc Hid _. exists n, l, x, y. split; [|split].
    - rewrite E. apply in_or_app. right. left. reflexivity.
    - exact Hloc.
    - rewrite Hid. exact El.
  Qed.

  (** Every reference of a mono file follows an arrow. *)
  Lemma arrow_here_copies w id t : scan_arrow_here w = Some (id, t) ->
    exists ws b, w = arrow ++ ws ++ id ++ b /\ forallb is_ws ws = true.
  Proof.
    unfold scan_arrow_here. destruct w as [|e [|g w]]; try discriminate.
    destruct ((e =? 61) && (g =? 62)) eqn:E; [|discriminate]. apply andb_true_iff in E. destruct E as [E1 E2].
    apply N.eqb_eq in E1. apply N.eqb_eq in E2. subst.
    destruct (trim_start_decomp w) as (ws & Ew & Hws). intros H.
    destruct (scan_id (trim_start w)) as [[id' r]|] eqn:Ei; [|discriminate].
    assert (id' = id).
    { destruct r as [|c r]; [congruence|]. destruct (c =? COLON); [destruct (scan_title r); cbn in H; congruence|].
      destruct (forallb is_ws (c :: r)); congruence. }
    subst id'. apply scan_id_eq in Ei. exists ws, r. rewrite Ei in Ew. split; [rewrite Ew; reflexivity|exact Hws].
  Qed.

  Lemma arrow_copies w id t : scan_arrow w = Some (id, t) ->
    exists a ws b, w = a ++ arrow ++ ws ++ id ++ b /\ forallb is_ws ws = true.
  Proof.
    induction w as [|c w IH]; [discriminate|]. cbn [scan_arrow].
    destruct (scan_arrow_here (c :: w)) as [x|] eqn:E.
    - intros H. inversion H; subst. destruct (arrow_here_copies _ _ _ E) as (ws & b & -> & Hw). exists [], ws, b. auto.
    - intros H. destruct (IH H) as (a & ws & b & -> & Hw). exists (c :: a), ws, b. auto.
  Qed.

  Lemma arrows_copied no ls x : In x (arrows p no ls) ->
    exists w a ws b, In w ls /\ w = a ++ arrow ++ ws ++ ref_id x ++ b /\ forallb is_ws ws = true.
  Proof.
    revert no. induction ls as [|w ls IH]; intros no H; [destruct H|]. cbn [arrows] in H.
    apply in_app_or in H. destruct H as [H|H].
    - destruct (scan_arrow w) as [[id t]|] eqn:E; [|destruct H]. destruct H as [<-|[]].
      destruct (arrow_copies _ _ _ E) as (a & ws & b & Ew & Hw). exists w, a, ws, b. split; [left; reflexivity|]. auto.
    - destruct (IH _ H) as (w' & a & ws & b & H1 & H2). exists w', a, ws, b. split; [right; exact H1|exact H2].
  Qed.
End Verbatim.
