(** C99: titles in the messages of the Markdown report.
    Vocabulary: CodeSpec.v (code spans of CommonMark), OutlineSpec.v, EntrySpec.v ([page_lines]); model: MdFmt.v. *)
From Verif Require Import Base OMap Models Unicode Location Show MdFmt EntrySpec GnuReadSpec OutlineSpec CtlExamples CodeSpec Code CodeMsg.
Open Scope N_scope.

(** C99: both titles stand in lines of their own, and are code spans exactly if they are no trouble with backticks and blanks. *)
Theorem C99_titles : forall {D : Debug} {CT : CaseTables} e expected used, error_line e -> wrong_title e expected used ->
  exists s1 s2,
    nth_error (page_lines (md_error e)) 4 = Some (L "        *    " ++ s1) /\
    nth_error (page_lines (md_error e)) 6 = Some (L "        *    " ++ s2) /\
    (code_span s1 = Some (opt_default expected [], []) <-> code_text 4 (opt_default expected [])) /\
    (code_span s2 = Some (used, []) <-> code_text 4 used).
Proof. intros D CT. exact titles_code. Qed.
Print Assumptions C99_titles.

(** In particular texts without backticks that do not begin with a blank. *)
Theorem C99_plain : forall t, t <> [] -> ~ In TICK t -> hd TICK t <> BLANK -> code_text 4 t.
Proof.
  intros t HN H HB. split; [exact HN|]. split; [intros (x & ->); apply H; left; reflexivity|].
  split; [intros (x & ->); apply H; apply in_or_app; right; left; reflexivity|].
  split; [intros (a & b & -> & _); apply H; apply in_or_app; right; left; reflexivity|].
  intros (x & -> & _). apply HB. reflexivity.
Qed.
Print Assumptions C99_plain.

(** For a requirement without title there is no code span. *)
Theorem C99_no_title : forall {D : Debug} {CT : CaseTables} e used, error_line e -> wrong_title e None used ->
  exists s, nth_error (page_lines (md_error e)) 4 = Some (L "        *    " ++ s) /\ code_span s = None.
Proof. intros D CT. exact no_title. Qed.
Print Assumptions C99_no_title.

#[local] Existing Instance ascii_case.
#[local] Existing Instance sample_debug.

Definition place_of (n : N) : location := mkLocation (L "a.md") (Some (Line n)).
Definition titled (t : string) : requirement := mkRequirement (L "R") (Some (L t)) (place_of 1) [] [] [] [].
Definition wrong (t used : string) : error := ECoveredWithWrongTitle (titled t) (titled "low") (L used) (place_of 7).
Definition read_title (e : error) (n : nat) : option (str * str) :=
  match nth_error (page_lines (md_error e)) n with Some l => code_span (skipn 13 l) | None => None end.

Lemma wrong_line : error_line (wrong "The `top` ```` one" "`top`").
Proof.
  unfold wrong, error_line, requirement_line, titled, title_line, location_line, one_line, place_of.
  cbn [req_id req_title req_location req_covers req_depends loc_file loc_in_file].
  repeat first [apply conj | apply Forall_nil | exact I | intros X; vm_compute in X; repeat (destruct X as [X|X]; [discriminate|]); exact X].
Qed.

Example C99_example :
  read_title (wrong "The `top` one" "a ```` b") 4 = Some (L "The `top` one", []) /\
  read_title (wrong "The `top` one" "a ```` b") 6 = Some (L "a ", L " b````") /\
  read_title (wrong "The `top` one" "`top`") 6 = Some (L "top", []) /\
  read_title (wrong "The `top` one" " top ") 6 = Some (L "top", []) /\
  read_title (wrong "The `top` one" "  ") 6 = Some (L "  ", []) /\
  read_title (ECoveredWithWrongTitle (mkRequirement (L "R") None (place_of 1) [] [] [] []) (titled "low") (L "x") (place_of 7)) 4 = None.
Proof. vm_compute. repeat split. Qed.

(** Not every title is shown. *)
Theorem C99_any_title_refuted :
  ~ (forall (D : Debug) (CT : CaseTables) e expected used s2, error_line e -> wrong_title e expected used ->
     nth_error (page_lines (md_error e)) 6 = Some (L "        *    " ++ s2) -> code_span s2 = Some (used, [])).
Proof.
  intros H.
  specialize (H sample_debug ascii_case (wrong "The `top` ```` one" "`top`") (Some (L "The `top` ```` one")) (L "`top`") (L "`````top`````") wrong_line).
  assert (W : wrong_title (wrong "The `top` ```` one" "`top`") (Some (L "The `top` ```` one")) (L "`top`")).
  { exists (titled "The `top` ```` one"), (titled "low"), (place_of 7). left. split; reflexivity. }
  specialize (H W). assert (X : code_span (L "`````top`````") = Some (L "`top`", [])) by (apply H; vm_compute; reflexivity).
  vm_compute in X. discriminate X.
Qed.
Print Assumptions C99_any_title_refuted.
