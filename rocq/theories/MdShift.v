(** Concatenating Markdown documents: line numbers shift, requirements do not influence each
    other. *)
From Verif Require Import Base OMap Models Unicode Regex Utf8 MdLex MdSyntax MdLexFacts ReadFacts
  MdParser MdSpec MdMachine MdRefine MdExact MdFacts MdLines MdCor.
Open Scope N_scope.

(** ** Shifting line numbers by [k] *)
Definition shift_loc (k : N) (l : location) : location :=
  match loc_in_file l with
  | Some (Line n) => mkLocation (loc_file l) (Some (Line (n + k)))
  | _ => l
  end.
Definition shift_ref (k : N) (x : reference) : reference :=
  mkReference (ref_id x) (ref_title x) (shift_loc k (ref_location x)).
Definition shift_req (k : N) (r : requirement) : requirement :=
  mkRequirement (req_id r) (req_title r) (shift_loc k (req_location r))
    (map (shift_ref k) (req_covers r)) (map (shift_ref k) (req_depends r)) (req_tags r) (req_attributes r).
(** for the errors the Markdown parser reports *)
Definition shift_err (k : N) (e : error) : error :=
  match e with
  | EFormat l m => EFormat (shift_loc k l) m
  | EDuplicateAttribute l a id => EDuplicateAttribute (shift_loc k l) a id
  | e => e
  end.

(** Text that can be followed by further lines: valid UTF-8, and the last line is terminated. *)
Definition text_lines (bs : list N) : Prop :=
  decode bs <> None /\ (bs = [] \/ exists a, bs = a ++ [NL]).

Lemma split_lines_cat a b : (a = [] \/ exists a', a = a' ++ [NL]) ->
  split_lines (a ++ b) = split_lines a ++ split_lines b.
Proof.
  induction a as [|x a IH]; intros H; [reflexivity|].
  assert (Ha : a = [] \/ exists a', a = a' ++ [NL]).
  { destruct H as [H|([|y a'] & E)]; [discriminate| |]; inversion E; subst; eauto. }
  cbn [app split_lines]. destruct (x =? 10) eqn:E; [rewrite IH by exact Ha; reflexivity|].
  rewrite IH by exact Ha. destruct (split_lines a) as [|l ls] eqn:El; [|reflexivity].
  exfalso. pose proof (split_lines_concat a) as Hc. rewrite El in Hc. cbn in Hc. subst a.
  destruct H as [H|([|y a'] & E')]; [discriminate| |].
  - inversion E'; subst. discriminate.
  - inversion E' as [[E1 E2]]. destruct a'; discriminate.
Qed.

(** Reading such a text gives terminated lines, reading on gives the lines of the rest. *)
Lemma read_lines_cat a b f : text_lines a ->
  exists ls, read_lines (mkReader a None) = map ROk ls /\
    Forall (fun l => exists x, l = x ++ [NL]) ls /\
    length ls = length (split_lines a) /\
    read_lines (mkReader (a ++ b) f) = map ROk ls ++ read_lines (mkReader b f).
Proof.
  intros [Hd HN]. unfold read_lines. cbn [rd_bytes rd_fail]. rewrite split_lines_cat by exact HN.
  pose proof (split_lines_concat a) as Hc.
  assert (Hnl : Forall (fun l => exists x, l = x ++ [NL] /\ ~ In NL x) (split_lines a)).
  { pose proof (split_lines_wf a) as HW. revert Hc. generalize HN. clear HN Hd.
    remember (split_lines a) as ls. clear Heqls. revert a.
    induction HW as [|s Hne Hn|x l Hx Hl IH]; intros a HN Hc.
    - constructor.
    - exfalso. cbn in Hc. rewrite app_nil_r in Hc. subst a. destruct HN as [HN|(y & ->)]; [exact (Hne HN)|].
      apply Hn. apply in_or_app. right. left. reflexivity.
    - constructor; [eauto|]. cbn [concat] in Hc. apply (IH (concat l)); [|reflexivity].
      destruct (concat l) as [|z w] using rev_ind; [auto|]. right.
      destruct HN as [->|(y & ->)]; [destruct x; discriminate|].
      rewrite app_assoc in Hc. apply app_inj_tail in Hc. destruct Hc as [_ ->]. eauto. }
  revert Hnl. rewrite <- Hc in Hd. clear Hc HN. revert Hd. generalize (split_lines a). intros ls Hd Hnl.
  induction Hnl as [|l ls (x & -> & Hx) Hnl IH].
  - exists []. cbn. repeat split. constructor.
  - cbn [concat] in Hd.
    assert (Hd1 : decode (x ++ [NL]) <> None /\ decode (concat ls) <> None).
    { pose proof (decode_app_nl (x ++ [NL]) (concat ls) (or_intror (ex_intro _ x eq_refl))) as Hq.
      split; intros H; apply Hd; (etransitivity; [exact Hq|]); rewrite H; [reflexivity|].
      destruct (decode (x ++ [NL])); reflexivity. }
    destruct Hd1 as [Hd1 Hd2]. destruct (IH Hd2) as (ts & E1 & Hts & Hlen & E2).
    destruct (decode (x ++ [NL])) as [s|] eqn:E; [|elim (Hd1 eq_refl)].
    exists (s :: ts). cbn [app]. rewrite !read_results_line, E, E1, E2. split; [reflexivity|].
    split; [|split; [cbn; congruence|reflexivity]]. constructor; [|exact Hts].
    apply decode_nl_end in E; [|exact Hx]. destruct E as (t & -> & _). eauto.
Qed.

Lemma ok_lines_app a rs : ok_lines (map ROk a ++ rs) = a ++ ok_lines rs.
Proof. induction a as [|l a IH]; cbn; [reflexivity|]. rewrite IH. reflexivity. Qed.
Lemma read_error_app a rs : read_error (map ROk a ++ rs) = read_error rs.
Proof. induction a as [|l a IH]; cbn; [reflexivity|exact IH]. Qed.

Section Shift.
  Context {U : UnicodeTables} (p : path) (k : N).

  Definition shift_phase (ph : phase) : phase :=
    match ph with PLinks cov refs => PLinks cov (map (shift_ref k) refs) | ph => ph end.
  Definition shift_cfg (c : cfg) : cfg :=
    match c with
    | Idle x => Idle (option_map (shift_req k) x)
    | Active r ph => Active (shift_req k r) (shift_phase ph)
    end.

  Lemma shift_line n : shift_loc k (new_with_line_no p n) = new_with_line_no p (n + k).
  Proof. reflexivity. Qed.

  Lemma shift_commit r ph : commit (shift_req k r) (shift_phase ph) = shift_req k (commit r ph).
  Proof. destruct ph as [| | | | |[] v]; reflexivity. Qed.

  Lemma shift_short n v : short_list p (n + k) v = map (shift_ref k) (short_list p n v).
  Proof.
    unfold short_list. induction (split_on COMMA (trim v)) as [|q qs IH]; [reflexivity|].
    cbn [flat_map]. rewrite IH, map_app. f_equal. destruct (trim q); reflexivity.
  Qed.

  Lemma shift_start n r a v :
    start_attr p (n + k) (shift_req k r) a v =
    (shift_phase (fst (start_attr p n r a v)), map (shift_err k) (snd (start_attr p n r a v))).
  Proof.
    unfold start_attr. destruct (eqb a ATTR_COVERS); [|destruct (eqb a ATTR_DEPENDS)]; cbn [fst snd shift_phase].
    - rewrite shift_short. cbn [shift_req req_covers]. destruct (req_covers r); reflexivity.
    - rewrite shift_short. cbn [shift_req req_depends]. destruct (req_depends r); reflexivity.
    - cbn [shift_req req_attributes]. destruct (oget a (req_attributes r)); reflexivity.
  Qed.

  Lemma shift_line_step r ph n l :
    line_step p (shift_req k r) (shift_phase ph) (n + k) l =
    (shift_cfg (fst (line_step p r ph n l)), map (shift_err k) (snd (line_step p r ph n l))).
  Proof.
    unfold line_step. rewrite shift_commit.
    assert (HA : forall other other' : cfg * list error,
      other' = (shift_cfg (fst other), map (shift_err k) (snd other)) ->
      match scan_attribute l with
      | Some (a, v) => let '(ph', es) := start_attr p (n + k) (shift_req k (commit r ph)) a v in
                       (Active (shift_req k (commit r ph)) ph', es)
      | None => other' end =
      (shift_cfg (fst match scan_attribute l with
         | Some (a, v) => let '(ph', es) := start_attr p n (commit r ph) a v in (Active (commit r ph) ph', es)
         | None => other end),
       map (shift_err k) (snd match scan_attribute l with
         | Some (a, v) => let '(ph', es) := start_attr p n (commit r ph) a v in (Active (commit r ph) ph', es)
         | None => other end))).
    { intros other other' ->. destruct (scan_attribute l) as [[a v]|]; [|reflexivity].
      rewrite shift_start. destruct (start_attr p n (commit r ph) a v) as [ph' es]. reflexivity. }
    destruct ph as [|d|d| |a v|cov refs]; cbn [shift_phase]; try (apply HA; reflexivity).
    - reflexivity.
    - destruct (scan_ref l) as [[id t]|].
      + cbn [fst snd shift_cfg shift_phase]. rewrite map_app. reflexivity.
      + destruct (trim l); reflexivity.
  Qed.

  Lemma shift_empty r ph : empty_step (shift_req k r) (shift_phase ph) = shift_cfg (empty_step r ph).
  Proof. destruct ph as [| | | | |[] v]; reflexivity. Qed.

  Lemma shift_pending c : pending (shift_cfg c) = option_map (shift_req k) (pending c).
  Proof. destruct c as [x|r ph]; cbn; [reflexivity|]. rewrite shift_commit. reflexivity. Qed.
  Lemma shift_olist (x : option requirement) : olist (option_map (shift_req k) x) = map (shift_req k) (olist x).
  Proof. destruct x; reflexivity. Qed.

  Definition shift_out (x : cfg * list requirement * list error) : cfg * list requirement * list error :=
    let '(c, rs, es) := x in (shift_cfg c, map (shift_req k) rs, map (shift_err k) es).

  Lemma shift_mstep c n l : mstep p (shift_cfg c) (n + k) l = shift_out (mstep p c n l).
  Proof.
    unfold mstep. destruct (classify l) as [id t| | |].
    - cbn [shift_out]. rewrite shift_pending, shift_olist. reflexivity.
    - cbn [shift_out shift_cfg]. rewrite shift_pending. reflexivity.
    - destruct c as [x|r ph]; cbn [shift_cfg shift_out]; [reflexivity|]. rewrite shift_empty. reflexivity.
    - destruct c as [x|r ph]; cbn [shift_cfg shift_out]; [reflexivity|]. rewrite shift_line_step.
      destruct (line_step p r ph n l) as [c' es]. reflexivity.
  Qed.

  Lemma shift_mrun ls : forall c n, mrun p (shift_cfg c) (n + k) ls = shift_out (mrun p c n ls).
  Proof.
    induction ls as [|l ls IH]; intros c n; [reflexivity|]. cbn [mrun].
    replace (n + k + 1) with (n + 1 + k) by lia. rewrite shift_mstep.
    destruct (mstep p c (n + 1) l) as [[c1 rs] es]. cbn [shift_out]. rewrite IH.
    destruct (mrun p c1 (n + 1) ls) as [[c2 rs2] es2]. cbn [shift_out]. rewrite !map_app. reflexivity.
  Qed.

  Lemma shift_finish c : finish (shift_cfg c) = map (shift_req k) (finish c).
  Proof. destruct c as [x|r ph]; cbn; [reflexivity|]. rewrite shift_commit. reflexivity. Qed.
End Shift.

Definition shift_result (k : N) (x : outcome (list requirement * list error)) : outcome (list requirement * list error) :=
  match x with
  | Panic => Panic
  | Done (rs, es) => Done (map (shift_req k) rs, map (shift_err k) es)
  end.

Section Concat.
  Context {U : UnicodeTables} (p : path).

  Lemma existsb_terminated ls : Forall (fun l : str => exists x, l = x ++ [NL]) ls -> existsb one_byte ls = false.
  Proof.
    induction 1 as [|l ls (x & ->) _ IH]; [reflexivity|]. cbn. rewrite (one_byte_nl x), IH. reflexivity.
  Qed.

  Definition lines_of (bs : list N) : list nline := doc_lines (mkReader bs None).

  Lemma lines_of_length bs : text_lines bs -> length (lines_of bs) = length (split_lines bs).
  Proof.
    intros H. destruct (read_lines_cat bs [] None H) as (ls & E & _ & Hl & _).
    unfold lines_of, doc_lines. rewrite E. rewrite <- (app_nil_r (map ROk ls)), ok_lines_app. cbn [ok_lines].
    rewrite app_nil_r, <- Hl. etransitivity; [symmetry; exact (map_length snd (number 0 ls))|].
    f_equal. apply number_snd.
  Qed.

  (** Running over the first text, then over the second. *)
  Lemma mrun_cat a b c : mrun p c 0 (a ++ b) =
    let '(c1, rs, es) := mrun p c 0 a in
    let '(c2, rs', es') := mrun p c1 (N.of_nat (length a)) b in (c2, rs ++ rs', es ++ es').
  Proof.
    rewrite !mrun_number, number_app, mrunN_app. rewrite N.add_0_l.
    destruct (mrunN p c (number 0 a)) as [[c1 rs] es]. rewrite mrun_number. reflexivity.
  Qed.

  Theorem md_preamble pre doc f :
    text_lines pre -> (forall x, In x (lines_of pre) -> heading_of (snd x) = None) ->
    md_parse p (mkReader (pre ++ doc) f) =
    shift_result (N.of_nat (length (split_lines pre))) (md_parse p (mkReader doc f)).
  Proof.
    intros HT HN. destruct (read_lines_cat pre doc f HT) as (ls & E1 & Hnl & Hlen & E2).
    rewrite !md_parse_spec, E2. unfold one_byte_tail. rewrite ok_lines_app, existsb_app, read_error_app.
    rewrite (existsb_terminated ls Hnl). cbn [orb].
    destruct (existsb one_byte (ok_lines (read_lines (mkReader doc f)))); [reflexivity|].
    unfold mresult. rewrite mrun_cat.
    assert (Ei : mrun p (Idle None) 0 ls = (Idle None, [], [])).
    { rewrite mrun_number. apply run_idle. unfold lines_of, doc_lines in HN. rewrite E1 in HN.
      rewrite <- (app_nil_r (map ROk ls)), ok_lines_app in HN. cbn [ok_lines] in HN. rewrite app_nil_r in HN. exact HN. }
    rewrite Ei, Hlen. pose proof (shift_mrun p (N.of_nat (length (split_lines pre))) (ok_lines (read_lines (mkReader doc f))) (Idle None) 0) as Hs.
    cbn [shift_cfg option_map] in Hs. rewrite N.add_0_l in Hs. rewrite Hs.
    destruct (mrun p (Idle None) 0 (ok_lines (read_lines (mkReader doc f)))) as [[c rs] es].
    cbn [shift_out app shift_result].
    destruct (read_error (read_lines (mkReader doc f))); cbn [shift_result].
    - rewrite map_app. reflexivity.
    - rewrite map_app, shift_finish. reflexivity.
  Qed.

  (** A document starts with a requirement heading. *)
  Definition starts_with_heading (doc : list N) (f : option str) : Prop :=
    match doc_lines (mkReader doc f) with
    | x :: _ => heading_of (snd x) <> None
    | [] => False
    end.

  Theorem md_concat pre doc f :
    text_lines pre -> starts_with_heading doc f ->
    exists reqs errs extra,
      md_parse p (mkReader pre None) = Done (reqs, errs) /\
      map head (reqs ++ extra) = map (head_of p) (headings (lines_of pre)) /\
      md_parse p (mkReader (pre ++ doc) f) =
      match shift_result (N.of_nat (length (split_lines pre))) (md_parse p (mkReader doc f)) with
      | Panic => Panic
      | Done (reqs2, errs2) => Done (reqs ++ extra ++ reqs2, errs ++ errs2)
      end.
  Proof.
    intros HT HH. destruct (read_lines_cat pre doc f HT) as (ls & E1 & Hnl & Hlen & E2).
    assert (Eok : ok_lines (read_lines (mkReader pre None)) = ls).
    { rewrite E1, <- (app_nil_r (map ROk ls)), ok_lines_app. apply app_nil_r. }
    assert (Eer : read_error (read_lines (mkReader pre None)) = None).
    { rewrite E1, <- (app_nil_r (map ROk ls)), read_error_app. reflexivity. }
    rewrite !md_parse_spec, E2. unfold one_byte_tail. rewrite ok_lines_app, existsb_app, read_error_app.
    rewrite Eok, Eer, (existsb_terminated ls Hnl). cbn [orb].
    unfold mresult. rewrite mrun_cat.
    destruct (md_blocks_exist (mkReader pre None)) as (bes & HF).
    destruct (run_sections p (lines_of pre) bes HF (Idle None)) as (c2 & rs & R1 & R2 & R3 & R4).
    assert (Enum : lines_of pre = number 0 ls) by (unfold lines_of, doc_lines; rewrite Eok; reflexivity).
    pose proof (sections_no_reqs (lines_of pre)) as [HNp _].
    rewrite (run_idle p None _ HNp) in R1, R2, R3, R4. cbn [fst snd app pending olist idle] in *.
    rewrite Enum in R1. rewrite <- mrun_number in R1. rewrite R1.
    exists (rs ++ finish c2), (zip_errs p (snd (sections (number 0 ls))) bes),
           (if idle c2 then olist (pending c2) else []).
    split; [reflexivity|]. split.
    - assert (E : (rs ++ finish c2) ++ (if idle c2 then olist (pending c2) else []) = rs ++ olist (pending c2)).
      { destruct c2 as [x|r ph]; cbn; [rewrite app_nil_r; reflexivity|rewrite app_nil_r; reflexivity]. }
      rewrite E, R2. rewrite headings_sections. apply zip_heads. exact HF.
    - destruct (existsb one_byte (ok_lines (read_lines (mkReader doc f)))); [reflexivity|].
      unfold starts_with_heading, doc_lines in HH.
      destruct (ok_lines (read_lines (mkReader doc f))) as [|l0 ls0]; [destruct HH|].
      cbn [number] in HH. cbn [snd] in HH.
      destruct (heading_of l0) as [[id t]|] eqn:Eh; [|congruence].
      pose proof (shift_mrun p (N.of_nat (length ls)) (l0 :: ls0) (Idle None) 0) as Hs.
      cbn [shift_cfg option_map] in Hs. rewrite N.add_0_l in Hs.
      assert (Hc : mrun p c2 (N.of_nat (length ls)) (l0 :: ls0) =
                   let '(c, rs, es) := mrun p (Idle None) (N.of_nat (length ls)) (l0 :: ls0) in
                   (c, olist (pending c2) ++ rs, es)).
      { cbn [mrun]. unfold mstep. rewrite (classify_req l0 id t Eh). cbn [pending olist].
        destruct (mrun p (Active (mkRequirement id (Some t) (new_with_line_no p (N.of_nat (length ls) + 1)) [] [] [] []) PStart)
                    (N.of_nat (length ls) + 1) ls0) as [[c rs'] es']. reflexivity. }
      rewrite Hc, Hs. destruct (mrun p (Idle None) 0 (l0 :: ls0)) as [[c rs'] es']. cbn [shift_out].
      rewrite Hlen.
      assert (E : forall Y : list requirement,
        rs ++ olist (pending c2) ++ Y = (rs ++ finish c2) ++ (if idle c2 then olist (pending c2) else []) ++ Y).
      { intros Y. destruct c2 as [x|r ph]; cbn; [rewrite app_nil_r; reflexivity|rewrite <- app_assoc; reflexivity]. }
      destruct (read_error (read_lines (mkReader doc f))); cbn [shift_result].
      + rewrite E, map_app. rewrite <- !app_assoc. reflexivity.
      + rewrite <- !app_assoc, E, map_app, shift_finish. rewrite <- !app_assoc. reflexivity.
  Qed.
End Concat.
