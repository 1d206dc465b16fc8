(** Property C103: the texts of messages.
    Vocabulary: Templates.v, OutlineSpec.v, EntrySpec.v; models: Show.v, GnuErr.v, MdFmt.v. *)
From Verif Require Import Base OMap Models Unicode Location Show Sort MdFmt TraceSpec AggSpec FmtSpec EntrySpec GnuReadSpec GnuErr OutlineSpec
  CtlExamples TraceExamples Templates.
Open Scope N_scope.

(** C103: the display text of an error is its template, filled with the values. *)
Theorem C103_display : forall e, show_error e = fill (snd (display_template e)) (L (fst (display_template e))).
Proof. exact display_filled. Qed.
Print Assumptions C103_display.

(** So are the messages of the GNU reports and of the Markdown reports, each line with its end. *)
Theorem C103_gnu : forall {D : Debug} e, gnu_error e = fill (snd (gnu_template e)) (with_ends (fst (gnu_template e))).
Proof. intros D. exact gnu_filled. Qed.
Print Assumptions C103_gnu.
Theorem C103_markdown : forall {CT : CaseTables} e, md_error e = fill (snd (md_template e)) (with_ends (fst (md_template e))).
Proof. intros CT. exact md_filled. Qed.
Print Assumptions C103_markdown.

(** If the texts have no line ends, a Markdown message is a list item: its first line begins with an
    asterisk and three blanks, the others with three blanks, and it ends with a line end. *)
Theorem C103_items : forall {CT : CaseTables} e, error_line e -> e <> EEmptyGraph ->
  exists lines, page_lines (md_error e) = lines ++ [[]] /\ item_of_lines lines.
Proof. intros CT. exact message_item. Qed.
Print Assumptions C103_items.

(** False: the message about the empty graph is one. *)
Theorem C103_items_refuted :
  ~ forall (CT : CaseTables) e, error_line e -> exists lines, page_lines (md_error e) = lines ++ [[]] /\ item_of_lines lines.
Proof.
  intros H. destruct (H ascii_case EEmptyGraph I) as (lines & E & first & rest & -> & (x & ->) & _). vm_compute in E. discriminate.
Qed.
Print Assumptions C103_items_refuted.

Example C103_example :
  let e := EDuplicateAttribute (mkLocation (L "a.md") (Some (Line 3))) (L "Comment") (L "REQ") in
  error_line e /\
  show_error e = L "Duplicate Attribute Comment when parsing REQ at a.md:3" /\
  gnu_error (D := sample_debug) e = L "a.md:3: REQ has duplicate Attribute: Comment" ++ [NL] /\
  page_lines (md_error (CT := ascii_case) e) =
    [L "*   Duplicate Attribute: Comment when parsing REQ"; L "    [a.md:3](../a.md?plain=1#L3)"; []] /\
  fill [L "x"; L "y"] (L "{1}{0}{") = L "yx{".
Proof.
  split; [|repeat split; vm_compute; reflexivity].
  repeat split; try exact I; intros X; vm_compute in X; repeat (destruct X as [X|X]; [discriminate|]); exact X.
Qed.
