(** Line ends of Windows and byte order marks. *)
From Verif Require Import Base OMap Models Unicode Regex Utf8 MdLex MdSyntax MdLexFacts ReadFacts
  MdParser MdSpec MdMachine MdRefine MdExact MdFacts MdLines MdCor MdCor2 MdShift
  Paths MonoParser RustParser Show Sort Serialize Tags MdFmt Formatters Controller SerdeJson.
Open Scope N_scope.

Definition CR : chr := 13.
(** The text with CR LF in place of LF. *)
Definition crlf (t : str) : str := flat_map (fun c => if c =? NL then [CR; NL] else [c]) t.
(** U+FEFF in UTF-8 *)
Definition BOM : list N := [239; 187; 191].

Lemma crlf_no_nl a : ~ In NL a -> crlf a = a.
Proof.
  induction a as [|c a IH]; intros H; [reflexivity|]. cbn [crlf flat_map]. fold (crlf a).
  destruct (N.eqb_spec c NL) as [->|_]; [destruct H; left; reflexivity|]. rewrite IH; [reflexivity|].
  intros Hi. apply H. right. exact Hi.
Qed.
Lemma crlf_app a b : crlf (a ++ b) = crlf a ++ crlf b.
Proof. apply flat_map_app. Qed.

Lemma split_crlf t : split_lines (crlf t) = map crlf (split_lines t).
Proof.
  induction t as [|c t IH]; [reflexivity|]. cbn [split_lines crlf flat_map]. fold (crlf t).
  destruct (N.eqb_spec c NL) as [->|Hc].
  - cbn [app]. cbn [split_lines]. change (CR =? 10) with false. change (NL =? 10) with true. cbn iota. rewrite IH. reflexivity.
  - cbn [app split_lines]. destruct (N.eqb_spec c 10) as [->|_]; [destruct Hc; reflexivity|]. rewrite IH.
    assert (Ec : forall l, crlf (c :: l) = c :: crlf l).
    { intros l. cbn [crlf flat_map]. destruct (N.eqb_spec c NL); [congruence|reflexivity]. }
    destruct (split_lines t) as [|l ls]; cbn [map]; rewrite Ec; reflexivity.
Qed.

Lemma crlf_scalar t : forallb scalar t = true -> forallb scalar (crlf t) = true.
Proof.
  induction t as [|c t IH]; intros H; [reflexivity|]. cbn [forallb crlf flat_map] in *. fold (crlf t).
  apply andb_true_iff in H. destruct H as [H1 H2]. destruct (c =? NL); cbn [app forallb]; rewrite IH by exact H2; [reflexivity|].
  rewrite H1. reflexivity.
Qed.

Section LineEnds.
  Context {U : UnicodeTables}.

  Lemma text_doc t : forallb scalar t = true -> doc_lines (mkReader (encode t) None) = number 0 (split_lines t).
  Proof.
    intros H. unfold doc_lines. rewrite read_text by exact H. f_equal.
    induction (split_lines t) as [|l ls IH]; [reflexivity|]. cbn. rewrite IH. reflexivity.
  Qed.

  (** ** Headings *)
  Lemma span_app_stop q a x : match x with [] => True | c :: _ => q c = false end ->
    span q (a ++ x) = (fst (span q a), snd (span q a) ++ x).
  Proof.
    intros Hx. induction a as [|c a IH]; cbn [app span].
    - destruct x as [|c x]; [reflexivity|]. cbn. rewrite Hx. reflexivity.
    - destruct (q c); [|reflexivity]. rewrite IH. destruct (span q a). reflexivity.
  Qed.
  Lemma trim_start_app w x : forallb is_ws x = true ->
    trim_start (w ++ x) = match trim_start w with [] => [] | t => t ++ x end.
  Proof.
    intros Hx. induction w as [|c w IH]; cbn [app trim_start]; [apply trim_start_all; exact Hx|].
    destruct (is_ws c); [exact IH|reflexivity].
  Qed.

  (** Hashes, id and what follows the colon. *)
  Definition head_part (a : str) : option (str * str * str) :=
    match span (N.eqb HASH) a with
    | ([], _) => None
    | (h, w1) => match scan_id (trim_start w1) with
                 | Some (id, c :: r) => if c =? COLON then Some (h, id, r) else None
                 | _ => None
                 end
    end.

  Lemma scan_id_app w x : match x with [] => True | c :: _ => is_ws c = true end ->
    scan_id (w ++ x) = match scan_id w with Some (id, r) => Some (id, r ++ x) | None => None end.
  Proof.
    intros Hx. destruct w as [|c w]; cbn [app scan_id].
    - destruct x as [|c x]; [reflexivity|]. cbn. rewrite (ws_not_start _ Hx). reflexivity.
    - destruct (xid_start c); [|reflexivity]. rewrite span_app_stop.
      + destruct (span xid_continue w) as [[|u a] b]; reflexivity.
      + destruct x as [|d x]; [exact I|]. destruct (xid_continue d) eqn:E; [|reflexivity].
        apply xid_continue_not_ws in E. congruence.
  Qed.

  Lemma scan_requirement_app a x : forallb is_ws x = true ->
    scan_requirement (a ++ x) =
    match head_part a with
    | Some (h, id, r) => match scan_title (r ++ x) with Some t => Some (h, id, t) | None => None end
    | None => None
    end.
  Proof.
    intros Hx. assert (H1 : match x with [] => True | c :: _ => is_ws c = true end).
    { destruct x as [|c x]; [exact I|]. cbn in Hx. apply andb_true_iff in Hx. apply Hx. }
    unfold scan_requirement, head_part. rewrite span_app_stop.
    2:{ destruct x as [|c x]; [exact I|]. destruct (N.eqb_spec HASH c) as [<-|_]; [discriminate|reflexivity]. }
    destruct (span (N.eqb HASH) a) as [[|h0 h] w1]; cbn [fst snd]; [reflexivity|].
    rewrite trim_start_app by exact Hx. destruct (trim_start w1) as [|c w2] eqn:E; [reflexivity|].
    rewrite scan_id_app by exact H1. destruct (scan_id (c :: w2)) as [[id [|d r]]|]; [| |reflexivity].
    - cbn [app]. destruct x as [|d x]; [reflexivity|]. destruct (N.eqb_spec d COLON) as [->|_]; [discriminate|reflexivity].
    - cbn [app]. destruct (d =? COLON); reflexivity.
  Qed.

  Lemma trim_app_ws w x : forallb is_ws x = true -> trim (w ++ x) = trim w.
  Proof.
    intros Hx. unfold trim. rewrite trim_start_app by exact Hx. destruct (trim_start w) as [|c t]; [reflexivity|].
    apply trim_end_ws. exact Hx.
  Qed.
  Lemma title_crlf r : r <> [] -> ~ In NL r ->
    option_map trim (scan_title (r ++ [CR; NL])) = option_map trim (scan_title (r ++ [NL])).
  Proof.
    intros Hr Hn. unfold scan_title. change [CR; NL] with ([CR] ++ [NL]). rewrite app_assoc, !chomp_nl.
    destruct r as [|c r]; [congruence|]. cbn [app].
    change (c :: r ++ [CR]) with ((c :: r) ++ [CR]). rewrite trim_app_ws by reflexivity.
    destruct (trim (c :: r)) as [|d t] eqn:E; [|reflexivity]. cbn [option_map]. f_equal.
    rewrite last_last. assert (Hw : is_ws (last r c) = true).
    { assert (HA : forallb is_ws (c :: r) = true).
      { unfold trim in E. destruct (trim_start (c :: r)) as [|e u] eqn:E1; [apply trim_start_nil; exact E1|].
        exfalso. pose proof (trim_start_first (c :: r)) as HF. rewrite E1 in HF. 
        destruct (trim_end_decomp (e :: u)) as (b & Eb & Hb). rewrite E in Eb. cbn [app] in Eb. subst b.
        cbn in Hb. rewrite HF in Hb. discriminate. }
      rewrite forallb_forall in HA. apply HA. destruct r as [|x r] using rev_ind; [left; reflexivity|].
      rewrite last_last. right. apply in_or_app. right. left. reflexivity. }
    unfold trim. cbn [trim_start]. rewrite Hw. reflexivity.
  Qed.

  (** A heading without title and blanks: `# ID:`. *)
  Definition bare (l : str) : Prop := starts_with_c HASH l = true /\ exists a, l = a ++ [COLON; NL].

  Lemma head_part_suffix a h id r : head_part a = Some (h, id, r) -> exists b, a = b ++ COLON :: r /\ starts_with_c HASH a = true.
  Proof.
    unfold head_part. pose proof (span_eq (N.eqb HASH) a) as E. pose proof (span_all (N.eqb HASH) a) as HA.
    destruct (span (N.eqb HASH) a) as [[|h0 h'] w1]; [discriminate|]. cbn [fst snd] in *.
    destruct (trim_start_decomp w1) as (ws & Ew & _).
    destruct (scan_id (trim_start w1)) as [[id' [|c r']]|] eqn:ES; try discriminate.
    destruct (N.eqb_spec c COLON) as [->|_]; [|discriminate]. intros HE. inversion HE; subst h id' r'.
    apply scan_id_eq in ES. exists (h0 :: h' ++ ws ++ id). split.
    - rewrite <- E, Ew, ES. cbn [app]. rewrite <- !app_assoc. reflexivity.
    - rewrite <- E. cbn in HA |- *. apply andb_true_iff in HA. destruct HA as [HA _]. rewrite N.eqb_sym. exact HA.
  Qed.

  Lemma heading_crlf l : proper l -> ~ bare l -> heading_of (crlf l) = heading_of l.
  Proof.
    intros HP HB. destruct (proper_cases l HP) as (a & Ha & _ & [->| ->]); [rewrite crlf_no_nl by exact Ha; reflexivity|].
    rewrite crlf_app, crlf_no_nl by exact Ha. change (crlf [NL]) with [CR; NL].
    unfold heading_of. rewrite !scan_requirement_app by reflexivity.
    destruct (head_part a) as [[[h id] r]|] eqn:E; [|reflexivity].
    destruct (head_part_suffix a h id r E) as (b & Eb & Hh).
    assert (Hr : r <> []).
    { intros ->. apply HB. split.
      - destruct a as [|c a]; [discriminate|]. exact Hh.
      - exists b. rewrite Eb, <- app_assoc. reflexivity. }
    assert (Hn : ~ In NL r).
    { intros Hi. apply Ha. rewrite Eb. apply in_or_app. right. right. exact Hi. }
    pose proof (title_crlf r Hr Hn) as HT.
    destruct (scan_title (r ++ [CR; NL])) as [t|], (scan_title (r ++ [NL])) as [t'|]; cbn in HT; congruence.
  Qed.

  Lemma split_lines_proper t l : In l (split_lines t) -> proper l.
  Proof.
    induction (split_lines_wf t) as [|s _ Hn|a ls Ha _ IH].
    - intros [].
    - intros [<-|[]]. apply proper_no_nl. exact Hn.
    - intros [<-|H]; [apply proper_nl; exact Ha|auto].
  Qed.

  Theorem crlf_headings t : forallb scalar t = true -> (forall l, In l (split_lines t) -> ~ bare l) ->
    headings (doc_lines (mkReader (encode (crlf t)) None)) = headings (doc_lines (mkReader (encode t) None)).
  Proof.
    intros Hs Hb. rewrite !text_doc, split_crlf by (try apply crlf_scalar; exact Hs).
    assert (G : forall ls n, (forall l, In l ls -> proper l /\ ~ bare l) ->
              headings (number n (map crlf ls)) = headings (number n ls)).
    { induction ls as [|l ls IH]; intros n H; [reflexivity|]. cbn [map number]. unfold headings in *. cbn [flat_map snd fst].
      rewrite IH by (intros l' Hl'; apply H; right; exact Hl').
      destruct (H l (or_introl eq_refl)) as [H1 H2]. rewrite heading_crlf by assumption. reflexivity. }
    apply G. intros l Hl. split; [exact (split_lines_proper t l Hl)|exact (Hb l Hl)].
  Qed.

  (** ** Nothing but a description *)
  Lemma desc_no_blank b ls ts rest : desc_block b ls ts rest -> b = false -> (forall x, In x ls -> ~ blank (snd x)) ->
    match rest with [] => True | x :: _ => plain_heading (snd x) end.
  Proof.
    induction 1 as [b|b n l ls H|n l ls H|b n l ls ts rest H HD IH|n l ls ts rest H HD IH|n l ls ts rest H HD IH]; intros Hb HN.
    - exact I.
    - exact H.
    - discriminate.
    - destruct (HN (n, l) (or_introl eq_refl) H).
    - apply IH; [reflexivity|]. intros x Hx. apply HN. right. exact Hx.
    - discriminate.
  Qed.
  Lemma attrs_heading ls bs e : attrs ls bs e -> match ls with [] => True | x :: _ => plain_heading (snd x) end -> bs = [].
  Proof.
    intros H Hh. destruct H as [|n l ls H|n l ls name first ts rest bs e Hc Ha _ _ _ _|n l ls cov first refs rest bs e Hc Ha _ _];
      try reflexivity; cbn [snd] in Hh; destruct Hh as [_ Hh]; destruct Hc as [Hc _]; congruence.
  Qed.
  Lemma body_no_blank ls bs e : body ls bs e -> (forall x, In x ls -> ~ blank (snd x)) ->
    match ls with [] => True | x :: _ => scan_attribute (snd x) = None end ->
    bs = [] \/ exists d, bs = [BDesc d].
  Proof.
    intros H HN HA. destruct H as [blanks rest bs e Hb H|blanks n l ls ts rest bs e Hb Hl HD H].
    - left. assert (blanks = []) as ->.
      { destruct blanks as [|x bl]; [reflexivity|]. destruct (HN x (or_introl eq_refl)). apply Hb. left. reflexivity. }
      cbn [app] in *. destruct H as [|n l ls H|n l ls name first ts rest bs e Hc Ha _ _ _ _|n l ls cov first refs rest bs e Hc Ha _ _];
        try reflexivity; cbn [snd] in HA; congruence.
    - right. assert (blanks = []) as ->.
      { destruct blanks as [|x bl]; [reflexivity|]. destruct (HN x (or_introl eq_refl)). apply Hb. left. reflexivity. }
      cbn [app] in *. exists (l :: ts). f_equal. eapply attrs_heading; [exact H|].
      eapply desc_no_blank; [exact HD|reflexivity|]. intros x Hx. apply HN. right. exact Hx.
  Qed.

  Theorem swallowed p r reqs errs s req :
    md_parse p r = Done (reqs, errs) -> In s (doc_sections r) ->
    (forall x, In x (snd s) -> snd x <> [NL]) ->
    match snd s with [] => True | x :: _ => scan_attribute (snd x) = None end ->
    In req reqs -> req_location req = at_line p (fst (fst (section_head s))) ->
    req_covers req = [] /\ req_depends req = [] /\ forall a v, oget a (req_attributes req) = Some v -> a = DESCRIPTION.
  Proof.
    intros HD Hs HN HA Hin Hloc. destruct (md_blocks_exist r) as (bes & HF).
    assert (exists be, section_ok s be) as (be & Hbe).
    { clear - HF Hs. induction HF as [|s0 b ss bes H _ IH]; [destruct Hs|]. destruct Hs as [->|Hs]; [exists b; exact H|auto]. }
    rewrite (md_section_req p r reqs errs s be req HD Hs Hbe Hin Hloc).
    destruct (body_no_blank _ _ _ Hbe HN HA) as [E|(d & E)]; rewrite E; destruct s as [[[n id] t] ls]; cbn.
    - split; [reflexivity|]. split; [reflexivity|]. discriminate.
    - split; [reflexivity|]. split; [reflexivity|]. intros a v H.
      match type of H with context [eqb ?x ?y] => destruct (eqb_spec x y) as [E1|] end; [exact E1|discriminate].
  Qed.

  Lemma crlf_not_blank t x : forallb scalar t = true ->
    In x (doc_lines (mkReader (encode (crlf t)) None)) -> snd x <> [NL].
  Proof.
    intros Hs. rewrite text_doc, split_crlf by (apply crlf_scalar; exact Hs).
    assert (G : forall ls n, In x (number n (map crlf ls)) -> exists l, In l ls /\ snd x = crlf l).
    { induction ls as [|l ls IH]; intros n; cbn [map number]; [intros []|]. intros [<-|H]; [exists l; split; [left|]; reflexivity|].
      destruct (IH _ H) as (l' & H1 & H2). exists l'. split; [right; exact H1|exact H2]. }
    intros H. destruct (G _ _ H) as (l & Hl & E). rewrite E. intros EN.
    destruct (proper_cases l (split_lines_proper t l Hl)) as (a & Ha & _ & [->| ->]).
    - rewrite crlf_no_nl in EN by exact Ha. apply Ha. rewrite EN. left. reflexivity.
    - rewrite crlf_app, crlf_no_nl in EN by exact Ha. change (crlf [NL]) with [CR; NL] in EN.
      destruct a as [|c [|d a]]; discriminate.
  Qed.

  Theorem crlf_heads p t reqs errs reqs' errs' :
    forallb scalar t = true -> (forall l, In l (split_lines t) -> ~ bare l) ->
    md_parse p (mkReader (encode t) None) = Done (reqs, errs) ->
    md_parse p (mkReader (encode (crlf t)) None) = Done (reqs', errs') ->
    ~ loses_last p (mkReader (encode t) None) errs -> ~ loses_last p (mkReader (encode (crlf t)) None) errs' ->
    map head reqs' = map head reqs.
  Proof.
    intros Hs Hb H1 H2 N1 N2. rewrite (proj2 (md_headings p _ _ _ H1) N1), (proj2 (md_headings p _ _ _ H2) N2).
    rewrite crlf_headings by assumption. reflexivity.
  Qed.

  Theorem crlf_swallowed p t reqs errs s req :
    forallb scalar t = true -> md_parse p (mkReader (encode (crlf t)) None) = Done (reqs, errs) ->
    In s (doc_sections (mkReader (encode (crlf t)) None)) ->
    match snd s with [] => True | x :: _ => scan_attribute (snd x) = None end ->
    In req reqs -> req_location req = at_line p (fst (fst (section_head s))) ->
    req_covers req = [] /\ req_depends req = [] /\ forall a v, oget a (req_attributes req) = Some v -> a = DESCRIPTION.
  Proof.
    intros Ht HD Hs HA. apply (swallowed p _ reqs errs s req HD Hs); [|exact HA].
    intros x Hx. apply (crlf_not_blank t x Ht). exact (section_in_doc _ s x Hs Hx).
  Qed.

  (** ** Byte order mark *)
  Theorem bom_line p line rest f : decode line <> None -> ~ In NL line ->
    md_parse p (mkReader (BOM ++ line ++ [NL] ++ rest) f) = shift_result 1 (md_parse p (mkReader rest f)).
  Proof.
    intros Hd Hn. destruct (decode line) as [w|] eqn:E; [|congruence]. clear Hd.
    pose proof (decode_nl_end_ok _ _ E) as E1.
    assert (E2 : decode (BOM ++ line ++ [NL]) = Some (65279 :: w ++ [NL])).
    { destruct (decode_sound _ _ E1) as [-> HV]. change BOM with (encode_char 65279).
      rewrite decode_char by reflexivity. rewrite decode_encode by exact HV. reflexivity. }
    replace (BOM ++ line ++ [NL] ++ rest) with ((BOM ++ line ++ [NL]) ++ rest) by (rewrite <- !app_assoc; reflexivity).
    assert (HS : split_lines (BOM ++ line ++ [NL]) = [BOM ++ line ++ [NL]]).
    { rewrite app_assoc. rewrite split_lines_app; [reflexivity|discriminate|].
      intros H. apply in_app_or in H. destruct H as [H|H]; [|exact (Hn H)]. cbn in H. intuition discriminate. }
    rewrite md_preamble.
    - rewrite HS. reflexivity.
    - split; [rewrite E2; discriminate|]. right. exists (BOM ++ line). rewrite app_assoc. reflexivity.
    - intros x Hx. unfold lines_of, doc_lines, read_lines in Hx. cbn [rd_bytes rd_fail] in Hx. rewrite HS in Hx.
      cbn [read_results] in Hx. rewrite E2 in Hx. destruct (last (BOM ++ line ++ [NL]) 0 =? 10); destruct Hx as [<-|[]]; reflexivity.
  Qed.
End LineEnds.

Lemma json_bom {I : Inputs} (serde : forall r, in_json r = from_reader r) p bs f :
  json_parse p (mkReader (BOM ++ bs) f) = ([], [EFormat (new_with_no_pos p) (in_json_error (mkReader (BOM ++ bs) f))]).
Proof.
  unfold json_parse. rewrite serde. unfold from_reader, read_to_string. cbn [rd_fail rd_bytes].
  destruct f as [m|]; [reflexivity|].
  destruct (decode (BOM ++ bs)) as [s|] eqn:E; [|reflexivity].
  assert (exists w, s = 65279 :: w) as (w & ->).
  { change BOM with (encode_char 65279) in E. rewrite decode_char in E by reflexivity.
    destruct (decode bs) as [w|]; [|discriminate]. exists w. cbn in E. inversion E. reflexivity. }
  reflexivity.
Qed.

(** ** Mono requirements *)
Lemma strip_crlf l : proper l -> ~ In CR l -> strip_line (crlf l) = strip_line l.
Proof.
  intros HP HC. destruct (proper_cases l HP) as (a & Ha & _ & [->| ->]); [rewrite crlf_no_nl by exact Ha; reflexivity|].
  rewrite crlf_app, crlf_no_nl by exact Ha. change (crlf [NL]) with [CR; NL]. unfold strip_line.
  rewrite !rev_app_distr. cbn. destruct (rev a) as [|c r] eqn:E; [reflexivity|].
  destruct (N.eqb_spec c 13) as [->|_]; [|reflexivity]. exfalso. apply HC. apply in_or_app. left.
  apply in_rev. rewrite E. left. reflexivity.
Qed.

Theorem mono_crlf {U : UnicodeTables} p t : forallb scalar t = true -> ~ In CR t ->
  mono_parse p (mkReader (encode (crlf t)) None) = mono_parse p (mkReader (encode t) None).
Proof.
  intros Hs HC. unfold mono_parse. rewrite !read_text, split_crlf by (try apply crlf_scalar; exact Hs).
  assert (G : forall ls no title deps, (forall l, In l ls -> proper l /\ ~ In CR l) ->
            mono_loop p no title deps (map ROk (map crlf ls)) = mono_loop p no title deps (map ROk ls)).
  { induction ls as [|l ls IH]; intros no title deps H; [reflexivity|].
    destruct (H l (or_introl eq_refl)) as [H1 H2]. cbn [map mono_loop]. rewrite strip_crlf by assumption.
    assert (H' : forall l', In l' ls -> proper l' /\ ~ In CR l') by (intros l' Hl'; apply H; right; exact Hl').
    destruct title as [ti|]; [|apply IH; exact H'].
    destruct (captures MONO_REF_LINK (strip_line l)) as [caps|]; [|apply IH; exact H'].
    destruct (unwrap (group 1 caps)) as [id|]; [|reflexivity]. cbn [obind]. apply IH. exact H'. }
  rewrite G; [reflexivity|]. intros l Hl. split; [exact (split_lines_proper t l Hl)|].
  intros Hi. apply HC. rewrite <- (split_lines_concat t). apply in_concat. eauto.
Qed.
