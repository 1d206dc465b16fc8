(** Properties C17 - C25, C51, C52: the Markdown parser.
    Vocabulary: Utf8.v (files), MdSyntax.v and MdSpec.v (syntax), MdFacts.v, MdCor.v, MdCor2.v,
    MdShift.v (small notions); model: MdParser.v. *)
From Coq Require Import Sorting.Sorted.
From Verif Require Import Base OMap Models Unicode Utf8 MdSyntax MdParser MdSpec MdRefine MdExact
  MdFacts MdLines MdCor MdCor2 MdShift MdExamples.
Open Scope N_scope.

Definition swallowed : string := "# REQ_A: t
Covers: REQ_B
Depends: REQ_C, REQ_D
".

(** C17: the parser panics exactly if the file can be read to its end and ends in a line of one
    byte without line feed.  ([ends_in_one_byte bs]: [bs = pre ++ [b]], [b < 128] not a line
    feed, [pre] valid UTF-8 and empty or terminated.) *)
Theorem C17_panic_exact : forall {U : UnicodeTables} p r,
  md_parse p r = Panic <-> rd_fail r = None /\ ends_in_one_byte (rd_bytes r).
Proof. intros U p r. exact (md_panic_bytes p r). Qed.
Print Assumptions C17_panic_exact.

Example C17_example_panic : md "## REQ_A: t
x" = Panic.
Proof. vm_compute. reflexivity. Qed.
Example C17_example_done : exists x, md "## REQ_A: t
xy" = Done x.
Proof. vm_compute. eexists. reflexivity. Qed.

(** C18: requirements and headings correspond; the last one may be lost. *)
Theorem C18_headings : forall {U : UnicodeTables} p r reqs errs,
  md_parse p r = Done (reqs, errs) ->
  (loses_last p r errs -> map head reqs = removelast (map (head_of p) (headings (doc_lines r)))) /\
  (~ loses_last p r errs -> map head reqs = map (head_of p) (headings (doc_lines r))).
Proof. intros U p r reqs errs. exact (md_headings p r reqs errs). Qed.
Print Assumptions C18_headings.

(** So the unconditional claim is false. *)
Theorem C18_all_headings_refuted :
  ~ forall (U : UnicodeTables) p r reqs errs, md_parse p r = Done (reqs, errs) -> doc_error r = None ->
      map head reqs = map (head_of p) (headings (doc_lines r)).
Proof.
  intros H. specialize (H ascii_tables sample_path (file "# REQ_A: t

# Appendix
") [] []).
  assert (E : map head ([] : list requirement) <> map (head_of sample_path) (headings (doc_lines (file "# REQ_A: t

# Appendix
")))) by (vm_compute; discriminate).
  apply E, H; vm_compute; reflexivity.
Qed.
Print Assumptions C18_all_headings_refuted.

Example C18_example :
  headings (doc_lines (file sample)) =
  [(5, L "REQ_A", L "First requirement"); (16, L "REQ_B", L "Second requirement")].
Proof. vm_compute. reflexivity. Qed.

(** C19 *)
Theorem C19_preamble_ignored : forall {U : UnicodeTables} p pre doc fail,
  text_lines pre -> (forall x, In x (lines_of pre) -> heading_of (snd x) = None) ->
  md_parse p (mkReader (pre ++ doc) fail) =
  shift_result (N.of_nat (length (split_lines pre))) (md_parse p (mkReader doc fail)).
Proof. intros U p. exact (md_preamble p). Qed.
Print Assumptions C19_preamble_ignored.

Example C19_example : let pre := L "# Introduction
Comment: this
* REQ_X

" in
  text_lines pre /\ (forall x, In x (lines_of pre) -> heading_of (snd x) = None) /\
  exists x, md_parse sample_path (mkReader (pre ++ L sample) None) = Done x /\ fst x <> [].
Proof.
  cbn zeta. split; [|split].
  - split; [vm_compute; discriminate|]. right. eexists (L "# Introduction
Comment: this
* REQ_X
"). vm_compute. reflexivity.
  - intros x H. vm_compute in H. repeat (destruct H as [<-|H]; [reflexivity|]). destruct H.
  - eexists. split; [vm_compute; reflexivity|]. discriminate.
Qed.

(** C20: [extra] is the last requirement of the first part if that was lost at its end. *)
Theorem C20_independent : forall {U : UnicodeTables} p pre doc fail,
  text_lines pre -> starts_with_heading doc fail ->
  exists reqs errs extra,
    md_parse p (mkReader pre None) = Done (reqs, errs) /\
    map head (reqs ++ extra) = map (head_of p) (headings (lines_of pre)) /\
    md_parse p (mkReader (pre ++ doc) fail) =
    match shift_result (N.of_nat (length (split_lines pre))) (md_parse p (mkReader doc fail)) with
    | Panic => Panic
    | Done (reqs2, errs2) => Done (reqs ++ extra ++ reqs2, errs ++ errs2)
    end.
Proof. intros U p. exact (md_concat p). Qed.
Print Assumptions C20_independent.

Example C20_example :
  text_lines (L sample) /\ starts_with_heading (L "## REQ_C: Third
") None /\
  exists x, md_parse sample_path (mkReader (L sample ++ L "## REQ_C: Third
") None) = Done x /\ map req_id (fst x) = [L "REQ_A"; L "REQ_B"; L "REQ_C"].
Proof.
  split; [|split].
  - split; [vm_compute; discriminate|]. right. exists (removelast (L sample)). vm_compute. reflexivity.
  - vm_compute. discriminate.
  - eexists. split; vm_compute; reflexivity.
Qed.

(** C21 *)
Theorem C21_wellformed : forall {U : UnicodeTables} p r reqs errs req,
  md_parse p r = Done (reqs, errs) -> In req reqs ->
  valid_id (req_id req) /\
  (exists t, req_title req = Some t /\ trimmed t /\ ~ In NL t) /\
  (forall x, In x (req_covers req ++ req_depends req) -> bullet_ref_wf x \/ inline_ref_wf x).
Proof. intros U p. exact (md_wellformed p). Qed.
Print Assumptions C21_wellformed.

(** C22 *)
Theorem C22_locations : forall {U : UnicodeTables} p r reqs errs,
  md_parse p r = Done (reqs, errs) ->
  (forall req, In req reqs -> exists n, req_location req = at_line p n /\
     located p (doc_lines r) n (req_covers req) /\ located p (doc_lines r) n (req_depends req)) /\
  (forall e, In e errs ->
     (exists n, 1 <= n <= N.of_nat (length (doc_lines r)) /\
        ((exists m, e = EFormat (at_line p n) m) \/ (exists a id, e = EDuplicateAttribute (at_line p n) a id))) \/
     (exists m, doc_error r = Some m /\ e = EIo p m)).
Proof. intros U p. exact (md_locations p). Qed.
Print Assumptions C22_locations.

Example C21_C22_example : exists reqs errs req,
  md sample = Done (reqs, errs) /\ In req reqs /\ length (req_covers req) = 3%nat /\ errs <> [].
Proof. do 3 eexists. split; [vm_compute; reflexivity|]. split; [left; reflexivity|]. split; [reflexivity|discriminate]. Qed.

(** C23: a description without blank lines is kept verbatim (with the empty lines after it). *)
Theorem C23_description_verbatim : forall {U : UnicodeTables} p r reqs errs s req blanks d ds nls tail,
  md_parse p r = Done (reqs, errs) -> In s (doc_sections r) ->
  snd s = blanks ++ (d :: ds) ++ nls ++ tail ->
  all_blank blanks -> all_blank nls ->
  scan_attribute (snd d) = None -> (forall x, In x (d :: ds) -> content (snd x)) ->
  (tail = [] \/ (exists x t, tail = x :: t /\ plain_heading (snd x)) \/
   (nls <> [] /\ exists x t, tail = x :: t /\ is_attr (snd x))) ->
  (forall x v, In x tail -> scan_attribute (snd x) <> Some (DESCRIPTION, v)) ->
  In req reqs -> req_location req = at_line p (fst (fst (section_head s))) ->
  oget DESCRIPTION (req_attributes req) = Some (concat (map snd ((d :: ds) ++ nls))).
Proof. intros U p. exact (md_description p). Qed.
Print Assumptions C23_description_verbatim.

Definition two_lines : string := "# REQ_A: t

one
two

Covers: REQ_X
".
Example C23_example : exists reqs errs req,
  md two_lines = Done (reqs, errs) /\ In req reqs /\
  oget DESCRIPTION (req_attributes req) = Some (L "one
two

").
Proof.
  do 3 eexists. split; [vm_compute; reflexivity|]. split; [left; reflexivity|].
  refine (C23_description_verbatim sample_path (file two_lines) _ _
    (1, L "REQ_A", L "t", _) _ [(2, [NL])] (3, L "one" ++ [NL]) [(4, L "two" ++ [NL])] [(5, [NL])]
    [(6, L "Covers: REQ_X" ++ [NL])] _ _ _ _ _ _ _ _ _ _ _).
  - vm_compute. reflexivity.
  - left. vm_compute. reflexivity.
  - reflexivity.
  - intros x [<-|[]]. reflexivity.
  - intros x [<-|[]]. reflexivity.
  - reflexivity.
  - intros x [<-|[<-|[]]]; split; vm_compute; congruence.
  - right. right. split; [discriminate|]. do 2 eexists. split; [reflexivity|].
    split; [split|]; vm_compute; congruence.
  - intros x v [<-|[]]. vm_compute. congruence.
  - left. reflexivity.
  - reflexivity.
Qed.

Definition three_lines : string := "one

two
three
".

(** In general the text is not kept: of each later paragraph the first line is lost, silently.
    ([text] is everything between the heading's empty line and the end of the file.) *)
Theorem C23_description_preserved_refuted :
  ~ forall (U : UnicodeTables) p text reqs errs req,
      (forall l, In l (split_lines text) -> l = [NL] \/ (content l /\ scan_attribute l = None)) ->
      md_parse p (mkReader (L "# REQ_A: t" ++ [NL; NL] ++ text) None) = Done (reqs, errs) ->
      In req reqs -> oget DESCRIPTION (req_attributes req) = Some text.
Proof.
  intros H.
  assert (E : exists reqs errs req,
    @md_parse ascii_tables sample_path (mkReader (L "# REQ_A: t" ++ [NL; NL] ++ L three_lines) None) = Done (reqs, errs) /\
    In req reqs /\ oget DESCRIPTION (req_attributes req) <> Some (L three_lines)).
  { do 3 eexists. split; [vm_compute; reflexivity|]. split; [left; reflexivity|vm_compute; discriminate]. }
  destruct E as (reqs & errs & req & E1 & E2 & E3). apply E3. refine (H _ _ _ _ _ _ _ E1 E2).
  intros l Hl. vm_compute in Hl.
  repeat (destruct Hl as [<-|Hl];
    [first [left; reflexivity | right; split; [split; vm_compute; congruence|vm_compute; reflexivity]]|]).
  destruct Hl.
Qed.
Print Assumptions C23_description_preserved_refuted.

(** C24 *)
Theorem C24_duplicates_reported : forall {U : UnicodeTables} p r reqs errs loc a id,
  md_parse p r = Done (reqs, errs) ->
  (In (EDuplicateAttribute loc a id) errs <->
   exists s be bs1 b bs2, In s (doc_sections r) /\ section_ok s be /\ fst be = bs1 ++ b :: bs2 /\
     repeats p bs1 b a /\ loc = at_line p (block_line b) /\ id = snd (fst (section_head s))).
Proof. intros U p. exact (md_duplicates p). Qed.
Print Assumptions C24_duplicates_reported.

(** The later value replaces the earlier one ([value], [current]: the last block's). *)
Theorem C24_last_wins : forall {U : UnicodeTables} p r reqs errs s be req,
  md_parse p r = Done (reqs, errs) -> In s (doc_sections r) -> section_ok s be ->
  In req reqs -> req_location req = at_line p (fst (fst (section_head s))) ->
  (forall a, oget a (req_attributes req) = value a (fst be)) /\
  req_covers req = current p true (fst be) /\ req_depends req = current p false (fst be) /\ req_tags req = [].
Proof. intros U p. exact (md_last_wins p). Qed.
Print Assumptions C24_last_wins.

Example C24_example :
  result "# REQ_A: t
Comment: one
Comment: two
Covers:

Covers: REQ_X

Covers: REQ_Y
" =
  Some ([(L "REQ_A", Some (L "t"), Some (Line 1), [(L "REQ_Y", None, Some (Line 8))], [],
          [(L "Comment", L "two")])],
        [EDuplicateAttribute (new_with_line_no sample_path 3) (L "Comment") (L "REQ_A");
         EDuplicateAttribute (new_with_line_no sample_path 8) (L "Covers") (L "REQ_A")]).
Proof. vm_compute. reflexivity. Qed.

(** C25: a line of white space is not an empty line.  After the heading it starts a description
    that swallows the following attribute ... *)
Theorem C25_whitespace_lines_refuted :
  ~ forall (U : UnicodeTables) p a w b, forallb is_ws w = true -> ~ In NL w ->
      (a = [] \/ exists a', a = a' ++ [NL]) ->
      md_parse p (mkReader (encode (a ++ w ++ [NL] ++ b)) None) =
      md_parse p (mkReader (encode (a ++ [NL] ++ b)) None).
Proof.
  intros H. specialize (H ascii_tables sample_path (L "# REQ_A: t" ++ [NL]) [13] (L "Covers: REQ_X" ++ [NL])).
  assert (E : md_parse sample_path (mkReader (encode ((L "# REQ_A: t" ++ [NL]) ++ [13] ++ [NL] ++ (L "Covers: REQ_X" ++ [NL]))) None) <>
              md_parse sample_path (mkReader (encode ((L "# REQ_A: t" ++ [NL]) ++ [NL] ++ (L "Covers: REQ_X" ++ [NL]))) None))
    by (vm_compute; discriminate).
  apply E, H; [reflexivity| |right; eexists; reflexivity]. intros [H1|[]]. discriminate.
Qed.
Print Assumptions C25_whitespace_lines_refuted.

(** ... and the references are gone without an error; ... *)
Example C25_covers_swallowed :
  result "# REQ_A: t
 
Covers: REQ_X
" =
  Some ([(L "REQ_A", Some (L "t"), Some (Line 1), [], [],
          [(L "Description", L " 
Covers: REQ_X
")])], []).
Proof. vm_compute. reflexivity. Qed.
(** ... between attributes it is an error and the requirement is lost. *)
Example C25_requirement_lost :
  result "# REQ_A: t
Covers: REQ_X

 
Comment: c
" =
  Some ([], [EFormat (new_with_line_no sample_path 4) (L "Expected an Attribute line like `Comment:`")]).
Proof. vm_compute. reflexivity. Qed.

(** C51: an attribute directly after Covers or Depends is not lost silently - false: the line
    `Depends: REQ_C, REQ_D` ends like a reference and is taken as one. *)
Theorem C51_attribute_after_links_refuted :
  ~ forall (U : UnicodeTables) p r reqs errs n l a v,
      md_parse p r = Done (reqs, errs) -> In (n, l) (doc_lines r) -> content l ->
      scan_attribute l = Some (a, v) -> (a = COVERS \/ a = DEPENDS) -> errs = [] ->
      (* some list of this kind has references *)
      exists req, In req reqs /\ (if eqb a COVERS then req_covers req else req_depends req) <> [].
Proof.
  intros H.
  assert (E : exists reqs, @md_parse ascii_tables sample_path (file swallowed) = Done (reqs, []) /\
                forall req, In req reqs -> req_depends req = []).
  { eexists. split; [vm_compute; reflexivity|]. intros req [<-|[]]. reflexivity. }
  destruct E as (reqs & E & Hd).
  destruct (H ascii_tables sample_path (file swallowed) reqs [] 3 (L "Depends: REQ_C, REQ_D" ++ [NL]) DEPENDS (L "REQ_C, REQ_D") E)
    as (req & Hin & Hne).
  - vm_compute. auto 6.
  - split; vm_compute; congruence.
  - vm_compute. reflexivity.
  - right. reflexivity.
  - reflexivity.
  - apply Hne. change (eqb DEPENDS COVERS) with false. cbn iota. apply Hd, Hin.
Qed.
Print Assumptions C51_attribute_after_links_refuted.

Example C51_example :
  result swallowed =
  Some ([(L "REQ_A", Some (L "t"), Some (Line 1),
          [(L "REQ_B", None, Some (Line 2)); (L "REQ_D", None, Some (Line 3))], [], [])], []).
Proof. vm_compute. reflexivity. Qed.

(** C52: the block grammar of MdSpec.v is total, and determines the result exactly. *)
Theorem C52_grammar_total : forall {U : UnicodeTables} r,
  exists bes, Forall2 section_ok (doc_sections r) bes.
Proof. intros U. exact md_blocks_exist. Qed.
Print Assumptions C52_grammar_total.

Theorem C52_grammar_exact : forall {U : UnicodeTables} p r bes,
  Forall2 section_ok (doc_sections r) bes ->
  md_parse p r <> Panic ->
  md_parse p r =
  Done (if last_lost r bes then removelast (zip_reqs p (doc_sections r) bes) else zip_reqs p (doc_sections r) bes,
        zip_errs p (doc_sections r) bes ++ io_error p r).
Proof. intros U p. exact (md_exact p). Qed.
Print Assumptions C52_grammar_exact.

Example C52_example : exists bes,
  Forall2 section_ok (doc_sections (file sample)) bes /\ length bes = 2%nat /\ last_lost (file sample) bes = true.
Proof.
  destruct (C52_grammar_total (file sample)) as (bes & HF). exists bes. split; [exact HF|].
  assert (HP : md_parse sample_path (file sample) <> Panic) by (vm_compute; discriminate).
  pose proof (C52_grammar_exact sample_path (file sample) bes HF HP) as E.
  assert (Hl : length bes = 2%nat) by (rewrite <- (Forall2_length _ _ _ HF); vm_compute; reflexivity).
  split; [exact Hl|]. destruct (last_lost (file sample) bes); [reflexivity|].
  exfalso. assert (E' : match md_parse sample_path (file sample) with Done x => length (fst x) | Panic => 0%nat end = 2%nat).
  { rewrite E. cbn [fst]. rewrite zip_reqs_map, map_length, combine_length, Hl. vm_compute. reflexivity. }
  vm_compute in E'. discriminate.
Qed.
