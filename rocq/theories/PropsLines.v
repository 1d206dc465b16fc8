(** Property C89: what headings, attributes and references look like.
    Vocabulary: LineSpec.v (shapes of lines), LineFiles.v (lines of a text); models: MdLex.v, MdParser.v, MonoParser.v, Regex.v. *)
From Verif Require Import Base OMap Models Unicode Utf8 Regex MdSyntax MdLex MdParser MdSpec MdCor MdCor2 MdExamples
  MonoSpec MonoParser LineSpec LineFiles.
Open Scope N_scope.

(** C89: the requirements of a Markdown file are its heading lines, the last one apart if it is lost (C18). *)
Theorem C89_headings : forall {U : UnicodeTables} p text reqs errs,
  forallb scalar text = true -> md_parse p (mkReader (encode text) None) = Done (reqs, errs) ->
  ~ loses_last p (mkReader (encode text) None) errs ->
  forall id t loc, (exists q, In q reqs /\ req_id q = id /\ req_title q = t /\ req_location q = loc) <->
    exists n l t', line_at text n l /\ heading_line l id t' /\ t = Some t' /\ loc = at_line p n.
Proof. intros U. exact heading_lines. Qed.
Print Assumptions C89_headings.

(** The references are stated in lines that end in a reference, or in the list after the colon of an attribute line. *)
Theorem C89_references : forall {U : UnicodeTables} p text reqs errs q,
  forallb scalar text = true -> md_parse p (mkReader (encode text) None) = Done (reqs, errs) -> In q reqs ->
  (forall x, In x (req_covers q) -> stated p text (L "Covers") x) /\
  (forall x, In x (req_depends q) -> stated p text (L "Depends") x).
Proof. intros U. exact reference_lines. Qed.
Print Assumptions C89_references.

(** The references of a MonoRequirement file are its lines with an arrow, from the second line on. *)
Theorem C89_mono : forall {U : UnicodeTables} p bs text reqs errs q,
  decode bs = Some text -> mono_parse p (mkReader bs None) = Done (reqs, errs) -> In q reqs ->
  forall x, In x (req_depends q) <->
    exists n l w, line_at text n l /\ 2 <= n /\ without_end l w /\
      first_at arrow_shape w (ref_id x) (ref_title x) /\ ref_location x = new_with_line_no p n.
Proof. intros U. exact arrow_lines. Qed.
Print Assumptions C89_mono.

(** The four regular expressions match these shapes and nothing else.  ([proper]: no line feed but at the end.) *)
Theorem C89_heading_re : forall {U : UnicodeTables} w, proper w ->
  forall c, captures REQUIREMENT_LINE w = Some c <->
    exists h id t, heading_shape w h id t /\ c = [(3%nat, t); (2%nat, id); (1%nat, h)].
Proof. intros U. exact heading_re. Qed.
Print Assumptions C89_heading_re.
Theorem C89_attribute_re : forall {U : UnicodeTables} w, proper w ->
  forall c, captures ATTRIBUTE_LINE w = Some c <->
    exists name v, attribute_shape w name v /\ c = [(2%nat, v); (1%nat, name)].
Proof. intros U. exact attribute_re. Qed.
Print Assumptions C89_attribute_re.
Theorem C89_reference_re : forall {U : UnicodeTables} w, proper w ->
  forall c, captures REF_LINK_LINE w = Some c <-> exists id t, first_at ref_shape w id t /\ c = captured id t.
Proof. intros U. exact reference_re. Qed.
Print Assumptions C89_reference_re.
Theorem C89_arrow_re : forall {U : UnicodeTables} w, proper w ->
  forall c, captures MONO_REF_LINK w = Some c <-> exists id t, first_at arrow_shape w id t /\ c = captured id t.
Proof. intros U. exact arrow_re. Qed.
Print Assumptions C89_arrow_re.

(** The shapes are inhabited, also in unexpected ways: no space after the hashes, ... *)
#[local] Existing Instance ascii_tables.
Example C89_example_heading : heading_line (L "##REQ_A:t
") (L "REQ_A") (L "t").
Proof. apply heading_iff. vm_compute. reflexivity. Qed.
Example C89_example_short : forall id t, ~ heading_line (L "# R: t
") id t.
Proof. intros id t H. apply heading_iff in H. vm_compute in H. discriminate. Qed.
(** ... a title of white space is no title but the empty text, ... *)
Example C89_example_empty : heading_line (L "# REQ_A: 
") (L "REQ_A") [] /\ heading_shape (L "# REQ_A: 
") (L "#") (L "REQ_A") (L " ").
Proof. split; [apply heading_iff|apply heading_scan]; vm_compute; reflexivity. Qed.
(** ... an attribute has a capital and small letters, ... *)
Example C89_example_attribute : attribute_shape (L "Covers:  A, B 
") (L "Covers") (L "A, B ") /\ (forall n v, ~ attribute_shape (L "TODO: x
") n v) /\ (forall n v, ~ attribute_shape (L "Test case: x
") n v).
Proof.
  split; [apply attribute_scan; vm_compute; reflexivity|].
  split; intros n v H; apply attribute_scan in H; vm_compute in H; discriminate.
Qed.
(** ... and the word that ends a line is a reference. *)
Example C89_example_reference :
  first_at ref_shape (L "* REQ_A: t
") (L "REQ_A") (Some (L "t")) /\
  first_at ref_shape (L "see the tests
") (L "tests") None /\
  (forall id t, ~ first_at ref_shape (L "*REQ_A
") id t) /\
  first_at arrow_shape (L "text =>REQ_A: t") (L "REQ_A") (Some (L "t")).
Proof.
  split; [apply ref_scan; vm_compute; reflexivity|]. split; [apply ref_scan; vm_compute; reflexivity|].
  split; [intros id t H; apply ref_scan in H; vm_compute in H; discriminate|apply arrow_scan; vm_compute; reflexivity].
Qed.

Example C89_example_file : exists reqs q x,
  md "# REQ_A: t
Covers: REQ_B,REQ_C
" = Done (reqs, []) /\ In q reqs /\ In x (req_covers q) /\ ref_id x = L "REQ_C" /\
  ~ loses_last sample_path (file "# REQ_A: t
Covers: REQ_B,REQ_C
") [].
Proof.
  do 3 eexists. split; [vm_compute; reflexivity|]. split; [left; reflexivity|]. split; [right; left; reflexivity|].
  split; [reflexivity|].
  intros [H|[(n & l & Hl & [Hn Hh] & _)|(n & m & [] & _)]]; [apply H; vm_compute; reflexivity|].
  vm_compute in Hl. destruct Hl as [Hl|[Hl|[]]]; inversion Hl; subst; vm_compute in Hn, Hh; discriminate.
Qed.

(** White space is the property White_Space of Unicode: these 25 characters. *)
Theorem C89_white_space : forall c, is_ws c = true <->
  In c [9; 10; 11; 12; 13; 32; 133; 160; 5760; 8192; 8193; 8194; 8195; 8196; 8197; 8198; 8199; 8200; 8201; 8202;
        8232; 8233; 8239; 8287; 12288].
Proof. exact is_ws_listed. Qed.
Print Assumptions C89_white_space.
