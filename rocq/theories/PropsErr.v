(** C100: the order of the errors in reports and what their texts say; C101: the texts of relations.
    Vocabulary: ErrText.v, JsonSpec.v, JsonGrammar.v; models: Show.v, Serialize.v, SerdeJson.v, Formatters.v. *)
From Coq Require Import Permutation Sorting.Sorted.
From Verif Require Import Base OMap Models Unicode Location Show Sort Serialize JsonSpec MdFmt Formatters RustParser Controller
  CtlExamples TraceSpec FmtSpec SerdeJson JsonGrammar JsonCor ErrText.
Open Scope N_scope.

(** C100: the errors of a report come in groups. *)
Theorem C100_groups : forall {D : Debug} {US : UnstableSort} {CT : CaseTables} g,
  exists text reqs errs,
    fmt_requirements (J := serde_json) g Json = Done text /\ reads a_parse_report text (0, reqs, errs) /\
    Permutation (all_errors g) errs /\ StronglySorted error_before errs.
Proof.
  intros D US CT g. destruct (parse_text g) as (text & reqs & errs & H1 & H2 & _ & _ & H3 & H4).
  exists text, reqs, errs. auto using errors_in_order.
Qed.
Print Assumptions C100_groups.

(** So for any two errors, whatever the sort does with equal keys. *)
Theorem C100_order : forall x y : error, le (show_error x) (show_error y) -> error_before x y.
Proof. exact text_before. Qed.
Print Assumptions C100_order.

(** What an error text contains. *)
Theorem C100_contents : forall e part, In part (named e) -> contains part (show_error e).
Proof. intros e part. exact (proj1 (Forall_forall _ _) (text_contains e) part). Qed.
Print Assumptions C100_contents.

(** False: the errors of a file are in the order of lines. *)
Definition by_line (x y : error) : Prop :=
  match x, y with
  | EFormat (mkLocation f (Some (Line n))) _, EFormat (mkLocation f' (Some (Line m))) _ => f = f' -> n <= m
  | _, _ => True
  end.
Theorem C100_lines_refuted :
  ~ forall (D : Debug) (US : UnstableSort) (CT : CaseTables) g text reqs errs,
      fmt_requirements (J := serde_json) g Json = Done text -> reads a_parse_report text (0, reqs, errs) ->
      StronglySorted by_line errs.
Proof.
  intros H.
  pose (e := fun n => EFormat (mkLocation (L "a.md") (Some (Line n))) (L "Unexpected Text")).
  pose (g := mkGraph [(L "A", mkArtefact (L "A") [L "a.md"] false false [] [e 2; e 10])] []).
  destruct (parse_text (D := sample_debug) (US := stable_is_unstable) (CT := ascii_case) g)
    as (text & reqs & errs & H1 & H2 & _ & _ & H3 & H4).
  specialize (H sample_debug stable_is_unstable ascii_case g text reqs errs H1 H2).
  change (all_errors g) with [e 2; e 10] in H3. apply Permutation_length_2_inv in H3. destruct H3 as [-> | ->].
  - inversion H4 as [|? ? _ HF]; subst. inversion HF as [|? ? HL _]; subst. apply HL. vm_compute. reflexivity.
  - inversion H as [|? ? _ HF]; subst. inversion HF as [|? ? HL _]; subst. specialize (HL eq_refl). apply HL. reflexivity.
Qed.
Print Assumptions C100_lines_refuted.

(** False: different errors have different texts. *)
Theorem C100_texts_refuted : ~ forall x y, show_error x = show_error y -> x = y.
Proof.
  intros H.
  pose (r := fun n => mkRequirement (L "R") None (mkLocation (L "a.md") (Some (Line n))) [] [] [] []).
  specialize (H (EDuplicateRequirement (r 1) (r 2)) (EDuplicateRequirement (r 1) (r 3)) eq_refl). discriminate H.
Qed.
Print Assumptions C100_texts_refuted.

Example C100_example :
  sort_by show_error
    [EIo (L "b.md") (L "gone"); EFormat (mkLocation (L "a.md") None) (L "x"); EConfig (L "z");
     ERequirementWithoutTitle (mkRequirement (L "R") None (mkLocation (L "a.md") None) [] [] [] [])] =
    [EConfig (L "z"); EIo (L "b.md") (L "gone"); EFormat (mkLocation (L "a.md") None) (L "x");
     ERequirementWithoutTitle (mkRequirement (L "R") None (mkLocation (L "a.md") None) [] [] [] [])] /\
  word (L "REQ-1.2") /\ ~ word (L "REQ 1") /\
  ~ error_before (EIo (L "b") (L "gone")) (EIo (L "a") (L "gone")).
Proof.
  split; [vm_compute; reflexivity|]. split; [repeat constructor|]. split.
  - intros H. do 3 (inversion H as [|? ? _ H']; clear H; rename H' into H; subst). inversion H as [|? ? HL _]. discriminate HL.
  - intros [H|[_ H]]; [discriminate H|]. specialize (H eq_refl). apply H. reflexivity.
Qed.

(** C101: the text of a relation. *)
Theorem C101_text : forall r, show_relation r = rel_upper r ++ L " => [" ++ listed (rel_lower r) ++ L "]".
Proof. exact show_relation_text. Qed.
Print Assumptions C101_text.

Theorem C101_told_apart : forall r r',
  readable_relation r -> readable_relation r' -> show_relation r = show_relation r' -> r = r'.
Proof. exact show_relation_inj. Qed.
Print Assumptions C101_told_apart.

(** False for any names. *)
Theorem C101_any_names_refuted : ~ forall r r', show_relation r = show_relation r' -> r = r'.
Proof. intros H. specialize (H (mkRelation (L "A") [L "B, C"]) (mkRelation (L "A") [L "B"; L "C"]) eq_refl). discriminate H. Qed.
Print Assumptions C101_any_names_refuted.

Example C101_example : let r := mkRelation (L "REQ") [L "SPEC"; L "CODE"] in
  readable_relation r /\ show_relation r = L "REQ => [SPEC, CODE]".
Proof.
  split; [|vm_compute; reflexivity]. split; [intros H; cbn in H; intuition discriminate|].
  repeat constructor; try discriminate; intros H; cbn in H; intuition discriminate.
Qed.
