(** Property C88: line ends of Windows and byte order marks.
    Vocabulary: Utf8.v (files), MdSyntax.v, MdSpec.v, LineEnds.v ([crlf], [BOM], [bare]); models: MdParser.v, SerdeJson.v. *)
From Verif Require Import Base OMap Models Unicode Utf8 MdSyntax MdParser MdSpec MdFacts MdLines MdCor MdShift MdExamples
  LineEnds Paths MonoParser RustParser Show Sort Serialize Tags MdFmt Formatters Controller SerdeJson CtlExamples.
Open Scope N_scope.

#[local] Existing Instance ascii_tables.

(** C88: CR LF in place of LF leaves ids, titles and lines of the requirements as they are, if the last one is lost in
    neither file.  ([bare]: a line `# ID:` without title; [loses_last]: see C18.) *)
Theorem C88_crlf : forall {U : UnicodeTables} p t reqs errs reqs' errs',
  forallb scalar t = true -> (forall l, In l (split_lines t) -> ~ bare l) ->
  md_parse p (mkReader (encode t) None) = Done (reqs, errs) ->
  md_parse p (mkReader (encode (crlf t)) None) = Done (reqs', errs') ->
  ~ loses_last p (mkReader (encode t) None) errs -> ~ loses_last p (mkReader (encode (crlf t)) None) errs' ->
  map head reqs' = map head reqs.
Proof. intros U. exact crlf_heads. Qed.
Print Assumptions C88_crlf.

(** But a requirement whose text does not start with an attribute has no references and no attributes but its
    description. *)
Theorem C88_swallowed : forall {U : UnicodeTables} p t reqs errs s req,
  forallb scalar t = true -> md_parse p (mkReader (encode (crlf t)) None) = Done (reqs, errs) ->
  In s (doc_sections (mkReader (encode (crlf t)) None)) ->
  match snd s with [] => True | x :: _ => scan_attribute (snd x) = None end ->
  In req reqs -> req_location req = at_line p (fst (fst (section_head s))) ->
  req_covers req = [] /\ req_depends req = [] /\ forall a v, oget a (req_attributes req) = Some v -> a = DESCRIPTION.
Proof. intros U. exact crlf_swallowed. Qed.
Print Assumptions C88_swallowed.

Definition usual : string := "# REQ_A: t

Text.

Covers: REQ_B
".
Example C88_example :
  forallb scalar (L usual) = true /\ (forall l, In l (split_lines (L usual)) -> ~ bare l) /\
  match md_parse sample_path (mkReader (encode (L usual)) None), md_parse sample_path (mkReader (encode (crlf (L usual))) None) with
  | Done (reqs, errs), Done (reqs', errs') =>
      map head reqs = map head reqs' /\ (errs, errs') = ([], []) /\ length reqs = 1%nat /\
      map (fun r => map ref_id (req_covers r)) reqs = [[L "REQ_B"]] /\
      map req_covers reqs' = [[]]
  | _, _ => False
  end /\
  exists s, doc_sections (mkReader (encode (crlf (L usual))) None) = [s] /\
    match snd s with [] => True | x :: _ => scan_attribute (snd x) = None end.
Proof.
  split; [reflexivity|]. split.
  - intros l Hl [Hh (a & E)]. vm_compute in Hl. destruct a as [|c a]; [inversion E; subst; discriminate|].
    repeat (destruct Hl as [<-|Hl]; [first [discriminate Hh | apply (f_equal (@rev chr)) in E; rewrite rev_app_distr in E; vm_compute in E; discriminate]|]). destruct Hl.
  - split; [vm_compute; repeat split; reflexivity|]. eexists. split; vm_compute; reflexivity.
Qed.

(** So the line ends matter: references are lost, without an error; ... *)
Theorem C88_crlf_refuted :
  ~ forall p t reqs errs reqs' errs',
      md_parse p (mkReader (encode t) None) = Done (reqs, errs) ->
      md_parse p (mkReader (encode (crlf t)) None) = Done (reqs', errs') -> errs = [] -> errs' = [] ->
      map (fun r => map ref_id (req_covers r)) reqs' = map (fun r => map ref_id (req_covers r)) reqs.
Proof.
  intros H.
  destruct (md_parse sample_path (mkReader (encode (L usual)) None)) as [[reqs errs]|] eqn:E; [|vm_compute in E; discriminate].
  destruct (md_parse sample_path (mkReader (encode (crlf (L usual))) None)) as [[reqs' errs']|] eqn:E'; [|vm_compute in E'; discriminate].
  specialize (H _ _ _ _ _ _ E E'). vm_compute in E, E'. inversion E; inversion E'; subst.
  specialize (H eq_refl eq_refl). vm_compute in H. discriminate.
Qed.
Print Assumptions C88_crlf_refuted.

(** ... and a heading without title becomes a requirement. *)
Theorem C88_bare_refuted :
  ~ forall p t reqs errs reqs' errs',
      md_parse p (mkReader (encode t) None) = Done (reqs, errs) ->
      md_parse p (mkReader (encode (crlf t)) None) = Done (reqs', errs') -> errs = [] -> errs' = [] ->
      map head reqs' = map head reqs.
Proof.
  intros H. set (t := L "# Note:
").
  destruct (md_parse sample_path (mkReader (encode t) None)) as [[reqs errs]|] eqn:E; [|vm_compute in E; discriminate].
  destruct (md_parse sample_path (mkReader (encode (crlf t)) None)) as [[reqs' errs']|] eqn:E'; [|vm_compute in E'; discriminate].
  specialize (H _ _ _ _ _ _ E E'). vm_compute in E, E'. inversion E; inversion E'; subst.
  specialize (H eq_refl eq_refl). vm_compute in H. discriminate.
Qed.
Print Assumptions C88_bare_refuted.

(** Mono artefacts are read as before. *)
Theorem C88_mono : forall {U : UnicodeTables} p t, forallb scalar t = true -> ~ In CR t ->
  mono_parse p (mkReader (encode (crlf t)) None) = mono_parse p (mkReader (encode t) None).
Proof. intros U. exact mono_crlf. Qed.
Print Assumptions C88_mono.

Example C88_mono_example : let t := L "Title
see => REQ_A
" in
  forallb scalar t = true /\ ~ In CR t /\
  match mono_parse (L "X.txt") (mkReader (encode (crlf t)) None) with
  | Done ([r], []) => req_title r = Some (L "Title") /\ map ref_id (req_depends r) = [L "REQ_A"]
  | _ => False
  end.
Proof. cbn zeta. split; [reflexivity|]. split; [vm_compute; intuition discriminate|]. vm_compute. split; reflexivity. Qed.

(** After a byte order mark the first line does not count, even if it is the heading of a requirement. *)
Theorem C88_bom : forall {U : UnicodeTables} p line rest f, decode line <> None -> ~ In NL line ->
  md_parse p (mkReader (BOM ++ line ++ [NL] ++ rest) f) = shift_result 1 (md_parse p (mkReader rest f)).
Proof. intros U. exact bom_line. Qed.
Print Assumptions C88_bom.

(** So a byte order mark matters: the requirement of the first line is lost, without an error. *)
Theorem C88_bom_refuted :
  ~ forall p bs f, md_parse p (mkReader (BOM ++ bs) f) = md_parse p (mkReader bs f).
Proof. intros H. specialize (H sample_path (L usual) None). vm_compute in H. discriminate. Qed.
Print Assumptions C88_bom_refuted.

Example C88_bom_example :
  md_parse sample_path (mkReader (BOM ++ L usual) None) = Done ([], []).
Proof. vm_compute. reflexivity. Qed.

(** A JSON file with a byte order mark is not read: one error. *)
Theorem C88_json_bom : forall {I : Inputs} (serde : forall r, in_json r = from_reader r) p bs f,
  json_parse p (mkReader (BOM ++ bs) f) = ([], [EFormat (new_with_no_pos p) (in_json_error (mkReader (BOM ++ bs) f))]).
Proof. intros I. exact json_bom. Qed.
Print Assumptions C88_json_bom.
