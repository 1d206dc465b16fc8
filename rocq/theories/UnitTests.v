(** The unit tests of /repo/src (`#[cfg(test)]`), run on the model.  Like Golden.v these are tests of
    the model, not proofs about it. *)
From Verif Require Import Base OMap Models Unicode Regex Utf8 Paths MdLex MdParser MonoParser RustParser Location.
Open Scope N_scope.

Definition file (s : str) : reader := mkReader s None.
Definition line (s : string) : str := L s ++ [NL].

(** A table with the letters of Latin-1, for the test with such letters. *)
Definition latin1_letter (c : chr) : bool := (192 <=? c) && (c <=? 255) && negb (c =? 215) && negb (c =? 247).
Definition latin1_tables : UnicodeTables.
Proof.
  refine {| xid_start := fun c => is_upper_ascii c || is_lower_ascii c || latin1_letter c;
            xid_continue := fun c => is_upper_ascii c || is_lower_ascii c || is_digit_ascii c || (c =? 95) || latin1_letter c;
            is_nd := is_digit_ascii |}.
  - intros c H. rewrite !orb_true_iff in *. tauto.
  - intros c H. unfold latin1_letter, is_upper_ascii, is_lower_ascii, is_digit_ascii in H.
    assert (Hr : 48 <= c <= 122 \/ 192 <= c <= 255).
    { rewrite !orb_true_iff, !andb_true_iff, !N.leb_le, N.eqb_eq in H. lia. }
    unfold is_ws. destruct Hr as [Hr|Hr];
    [rewrite (proj2 (N.leb_gt c 13)), (proj2 (N.leb_gt 8192 c)) by lia
    |rewrite (proj2 (N.leb_gt c 13)), (proj2 (N.leb_gt 8192 c)) by lia];
    rewrite ?(proj2 (N.eqb_neq c _)) by lia; rewrite andb_false_r; reflexivity.
  - intros c H. unfold latin1_letter. rewrite (proj2 (N.leb_gt 192 c)) by lia. rewrite orb_false_r. reflexivity.
  - intros c H. unfold latin1_letter. rewrite (proj2 (N.leb_gt 192 c)) by lia. rewrite orb_false_r. reflexivity.
  - reflexivity.
Defined.

(** ** parsers/markdown.rs:422-562 *)
Definition caps_of (o : option (list (nat * str))) (n : nat) : option str :=
  match o with Some c => group n c | None => None end.

Example match_id_colon_title :
  let cap := captures REQUIREMENT_LINE (line "## REQ_VCS: Allow Version Control") in
  (caps_of cap 1, caps_of cap 2, caps_of cap 3) = (Some (L "##"), Some (L "REQ_VCS"), Some (L "Allow Version Control")).
Proof. vm_compute. reflexivity. Qed.
Example match_unicode_id_colon_title :
  let id := [196; 197; 201; 203; 222; 220; 218; 205; 211; 214; 193; 208; 70; 71; 72; 207] in
  let cap := captures (@REQUIREMENT_LINE latin1_tables) (L "## " ++ id ++ line ": Allow Unicode IDs") in
  (caps_of cap 1, caps_of cap 2) = (Some (L "##"), Some id).
Proof. vm_compute. reflexivity. Qed.
Example id_with_dash_does_not_match : captures REQUIREMENT_LINE (line "## REQ-ID: No Dash") = None.
Proof. vm_compute. reflexivity. Qed.
Example id_with_pound_does_not_match : captures REQUIREMENT_LINE (line "## REQ#ID: No Dash") = None.
Proof. vm_compute. reflexivity. Qed.
Example id_with_emoji_does_not_match :
  captures REQUIREMENT_LINE (L "## REQ" ++ [127828] ++ line ": No Burgers in requirement ids") = None.
Proof. vm_compute. reflexivity. Qed.
Example match_attribute_with_value :
  let cap := captures ATTRIBUTE_LINE (line "Covers: COV, Cov") in
  (caps_of cap 1, caps_of cap 2) = (Some (L "Covers"), Some (L "COV, Cov")).
Proof. vm_compute. reflexivity. Qed.
Example match_attribute_without_value :
  let cap := captures ATTRIBUTE_LINE (line "Covers: ") in
  (caps_of cap 1, caps_of cap 2) = (Some (L "Covers"), Some []).
Proof. vm_compute. reflexivity. Qed.
Example matches_reference_with_id_and_title :
  let cap := captures REF_LINK_LINE (line "*   REQ: Title of req ") in
  (caps_of cap 1, caps_of cap 2) = (Some (L "REQ"), Some (L "Title of req")).
Proof. vm_compute. reflexivity. Qed.
Example matches_reference_with_id :
  let cap := captures REF_LINK_LINE (line "*   REQ ") in
  (caps_of cap 1, caps_of cap 2) = (Some (L "REQ"), None).
Proof. vm_compute. reflexivity. Qed.

Example document_with_1_requirement :
  let s := [NL] ++ line "## REQ: Title Title" ++ [NL] ++ line "Description" ++ [NL] ++ line "Descriotion" ++ [NL] ++
    line "Covers: COV, Cov" ++ line "*   COV3: Title 3" ++ line "*   COV4" ++ [NL] ++ line "Depends:" ++
    line "*   DEP" ++ line "*   DEP_WT: T" ++ L "        " in
  match md_parse (L "Test.md") (file s) with
  | Done ([req], []) =>
      req_id req = L "REQ" /\ req_title req = Some (L "Title Title") /\
      map (fun r => (ref_id r, ref_title r)) (req_covers req) =
        [(L "COV", None); (L "Cov", None); (L "COV3", Some (L "Title 3")); (L "COV4", None)] /\
      map (fun r => (ref_id r, ref_title r)) (req_depends req) = [(L "DEP", None); (L "DEP_WT", Some (L "T"))]
  | _ => False
  end.
Proof. vm_compute. auto. Qed.
Example requirement_with_cover_attribute_and_no_reflinks :
  let s := [NL] ++ line "## REQ: Title Title" ++ line "Covers:" ++ L "        " in
  match md_parse (L "Test.md") (file s) with
  | Done ([req], []) => req_id req = L "REQ" /\ req_covers req = []
  | _ => False
  end.
Proof. vm_compute. auto. Qed.

(** ** parsers/monoreq.rs:80-126 *)
Example matches_arrow_id :
  let cap := captures MONO_REF_LINK (L "Some text => REQ_ID") in
  (caps_of cap 1, caps_of cap 2) = (Some (L "REQ_ID"), None).
Proof. vm_compute. reflexivity. Qed.
Example matches_arrow_id_colon_title :
  let cap := captures MONO_REF_LINK (L "Some text => REQ_ID:     Req Title        ") in
  (caps_of cap 1, caps_of cap 2) = (Some (L "REQ_ID"), Some (L "Req Title")).
Proof. vm_compute. reflexivity. Qed.
Example small_document_with_both_depend_styles :
  let s := line "First Line" ++ line "            second line" ++ line "            some text => REQ_1" ++
    line "            some more text" ++ line "            another requirement =>REQ_2: title" ++ L "            " in
  match mono_parse (L "path/to/Read_Me.md") (file s) with
  | Done ([r], []) =>
      req_id r = L "Read_Me" /\ req_title r = Some (L "First Line") /\
      map (fun x => (ref_id x, ref_title x)) (req_depends r) = [(L "REQ_1", None); (L "REQ_2", Some (L "title"))]
  | _ => False
  end.
Proof. vm_compute. auto. Qed.

(** ** parsers/rust.rs:267-353, with the trees that syn builds *)
Definition foo_tree (mark : node) : node :=
  NOther [NScope KMod (L "module_name") (2, 16)
    [NImpl (L "Struct") (Some (false, L "Trait")) (3, 31) [NScope KImplMethod (L "foo") (4, 23) [mark]]]].
Definition parse_foo (mark : node) :=
  rust_parse (fun _ => inl (foo_tree mark)) (fun _ => []) (L "src/filename.rs") (file []).
Example cover_link_with_id :
  parse_foo (NExprMacro [(L "requirement_covered", (5, 24))] [TokIdent (L "REQ_ID") (5, 45)]) =
  Done ([mkRequirement (L "module_name::(Struct as Trait)::foo") None
           (new_with_line_and_column (L "src/filename.rs") 4 23)
           [mkReference (L "REQ_ID") None (new_with_line_and_column (L "src/filename.rs") 5 24)] [] [] []], []).
Proof. vm_compute. reflexivity. Qed.
Example cover_link_with_id_and_title :
  parse_foo (NExprMacro [(L "requirement_covered", (10, 32))]
    [TokIdent (L "REQ_ID") (10, 53); TokOther (L ",") (10, 59); TokOther (L """Title String""") (10, 61)]) =
  Done ([mkRequirement (L "module_name::(Struct as Trait)::foo") None
           (new_with_line_and_column (L "src/filename.rs") 4 23)
           [mkReference (L "REQ_ID") (Some (L "Title String")) (new_with_line_and_column (L "src/filename.rs") 10 32)]
           [] [] []], []).
Proof. vm_compute. reflexivity. Qed.

(** ** models.rs, mod test::location_from_string *)
Definition at_ (f : string) (w : option location_in_file) : outcome (location + str) := Done (inl (mkLocation (L f) w)).
Example location_from_string :
  parse_location (L "") = Done (inr (L "Invalid Location")) /\
  parse_location (L "path/to/file.txt") = at_ "path/to/file.txt" None /\
  parse_location (L "path/to/file.txt:42") = at_ "path/to/file.txt" (Some (Line 42)) /\
  parse_location (L "path/to/file.txt:42:67") = at_ "path/to/file.txt" (Some (LineAndColumn 42 67)) /\
  parse_location (L "path/to/file.txt:42:67:111") = at_ "path/to/file.txt:42" (Some (LineAndColumn 67 111)) /\
  parse_location (L "path/to/f ile.txt:42:67") = at_ "path/to/f ile.txt" (Some (LineAndColumn 42 67)) /\
  parse_location (L "C:\path\to\file.txt:42:67") = at_ "C:\path\to\file.txt" (Some (LineAndColumn 42 67)).
Proof. vm_compute. repeat split; reflexivity. Qed.
