(** Ids of the requirements of Markdown artefacts. *)
From Verif Require Import Base OMap Models Unicode Utf8 Paths MdSyntax MdParser MdSpec MdFacts MdCor MdCor2
  MonoParser RustParser Tracer TraceSpec Aggregator Show Sort Serialize Tags MdFmt Formatters Controller FmtSpec CtlSpec
  CtlFacts CtlCor.
Open Scope N_scope.

Section DocIds.
  Context {U : UnicodeTables} {D : Debug} {I : Inputs}.

  Lemma markdown_ids cf base c id a ac : controller_new cf base = Done c ->
    oget id (g_artefacts (ctl_graph c)) = Some a -> last_config cf id = Some ac -> ac_parser ac = PMarkdown ->
    forall q, In q (ovalues (art_requirements a)) ->
      valid_id (req_id q) /\
      forall x, In x (req_covers q ++ req_depends q) -> bullet_ref_wf x \/ inline_ref_wf x.
  Proof.
    intros HC Ha Hl HM q Hq. destruct (controller_has cf base c id a HC Ha) as (ac' & El & HB).
    assert (ac' = ac) by congruence. subst ac'.
    destruct HB as (reqs & errs & HS & _ & _ & _ & Hs & Hg & _).
    apply ovalues_In in Hq. destruct Hq as (k & Hq). apply In_oget in Hq; [|exact Hs].
    rewrite Hg in Hq. unfold first_with in Hq. apply find_some in Hq. destruct Hq as [Hq _].
    destruct HS as [p x _ _ H|_ _|_ _|e _ _|files xs Hp _ _ H]; try (destruct Hq; fail); [|congruence].
    rewrite HM in H. inversion H as [| ? r [rs es] Ho Hp | | | |]; subst; [destruct Hq|].
    destruct (md_wellformed _ _ _ _ _ Hp Hq) as (H1 & _ & H3). auto.
  Qed.
End DocIds.
