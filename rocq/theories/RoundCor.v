(** The Markdown report of all requirements parses back. *)
From Coq Require Import Permutation.
From Verif Require Import Base OMap Models Unicode Utf8 MdSyntax MdParser Show Sort Tracer TraceSpec
  Serialize Tags MdFmt Formatters FmtSpec FmtFacts RoundSpec RoundTrip.
Open Scope N_scope.

Lemma report_round {U : UnicodeTables} {D : Debug} {US : UnstableSort} {CT : CaseTables} {J : JsonText} p g :
  (forall a, In a (ovalues (g_artefacts g)) -> art_errors a = []) ->
  Forall exportable (all_reqs g) ->
  exists text, fmt_requirements g Markdown = Done text /\
    (forallb scalar text = true ->
     exists reqs reqs',
       md_parse p (mkReader (encode text) None) = Done (reqs', []) /\
       Permutation (all_reqs g) reqs /\ sorted_by req_id reqs /\ Forall2 comes_back reqs reqs').
Proof.
  intros HE HX. set (reqs := sort_by req_id (all_reqs g)).
  assert (HP : Permutation (all_reqs g) reqs) by apply sort_by_perm.
  exists (flat_map md_requirement reqs). split.
  - cbn [fmt_requirements]. f_equal. rewrite md_requirements_spec. unfold md_export. fold reqs.
    unfold sections.
    assert (EF : filter (fun a => negb (is_nil (map md_error (art_errors a)))) (ovalues (g_artefacts g)) = []).
    { revert HE. generalize (ovalues (g_artefacts g)). induction l as [|a l IH]; intros H; [reflexivity|].
      cbn [filter]. rewrite (H a) by (left; reflexivity). cbn [map is_nil negb]. apply IH. intros b Hb. apply H. right. exact Hb. }
    rewrite EF. reflexivity.
  - intros HS. assert (HR : Forall exportable reqs).
    { apply Forall_forall. intros r Hr. rewrite Forall_forall in HX. apply HX.
      apply (Permutation_in _ (Permutation_sym HP)). exact Hr. }
    destruct (round_trip p reqs HR HS) as (reqs' & E & HF). exists reqs, reqs'.
    split; [exact E|]. split; [exact HP|]. split; [apply sort_by_sorted|exact HF].
Qed.
