(** Property C48: the Markdown export parses back.  Vocabulary: RoundSpec.v; models: MdFmt.v,
    Formatters.v, MdParser.v. *)
From Coq Require Import Permutation.
From Verif Require Import Base OMap Models Unicode Utf8 Location MdSyntax MdParser MdExamples Show Sort Tracer TraceSpec TraceExamples
  Serialize Tags MdFmt Formatters FmtSpec FmtFacts RoundSpec RoundTrip RoundCor CtlExamples.
Open Scope N_scope.
#[local] Existing Instance ascii_case.
#[local] Existing Instance sample_debug.
#[local] Existing Instance sample_json.

(** C48 *)
Theorem C48_round_trip : forall {U : UnicodeTables} {CT : CaseTables} p reqs,
  Forall exportable reqs -> forallb scalar (flat_map md_requirement reqs) = true ->
  exists reqs',
    md_parse p (mkReader (encode (flat_map md_requirement reqs)) None) = Done (reqs', []) /\
    Forall2 comes_back reqs reqs'.
Proof. intros U CT. exact round_trip. Qed.
Print Assumptions C48_round_trip.

(** The whole report: nothing but the requirements of all artefacts, sorted by id. *)
Theorem C48_report : forall {U : UnicodeTables} {D : Debug} {US : UnstableSort} {CT : CaseTables} {J : JsonText} p g,
  (forall a, In a (ovalues (g_artefacts g)) -> art_errors a = []) ->
  Forall exportable (all_reqs g) ->
  exists text, fmt_requirements g Markdown = Done text /\
    (forallb scalar text = true ->
     exists reqs reqs',
       md_parse p (mkReader (encode text) None) = Done (reqs', []) /\
       Permutation (all_reqs g) reqs /\ sorted_by req_id reqs /\ Forall2 comes_back reqs reqs').
Proof. intros U D US CT J. exact report_round. Qed.
Print Assumptions C48_report.

(** What the parser makes of a document, of the export of that, and of the export of that. *)
Definition again (x : outcome (list requirement * list error)) : outcome (list requirement * list error) :=
  match x with
  | Done (reqs, []) => md_parse sample_path (mkReader (encode (flat_map md_requirement reqs)) None)
  | _ => Panic
  end.
Definition shown (x : outcome (list requirement * list error)) :=
  match x with Done (rs, es) => Some (map show rs, es) | Panic => None end.

Definition document : string := "## REQ_A: First

Comment: see below

Covers: REQ_X, REQ_Y

Depends: REQ_Z

## REQ_B: Second
".

Example C48_example :
  (exists reqs, md document = Done (reqs, []) /\ Forall exportable reqs) /\
  shown (again (md document)) =
  Some ([(L "REQ_A", Some (L "First"), Some (Line 2),
          [(L "REQ_X", None, Some (Line 7)); (L "REQ_Y", None, Some (Line 8))],
          [(L "REQ_Z", None, Some (Line 11))],
          [(L "Comment", L "see below" ++ [NL; NL]); (ORIGIN, L "[req.md:1](../req.md?plain=1#L1)" ++ [NL])]);
         (L "REQ_B", Some (L "Second"), Some (Line 16), [], [],
          [(ORIGIN, L "[req.md:9](../req.md?plain=1#L9)")])], []).
Proof.
  split; [|vm_compute; reflexivity].
  assert (H1 : exists reqs, md document = Done (reqs, [])) by (vm_compute; eexists; reflexivity).
  destruct H1 as [reqs H1]. exists reqs. split; [exact H1|]. vm_compute in H1. inversion H1; subst. clear H1.
  assert (HI : forall c w, xid_start c = true -> w <> [] -> forallb xid_continue w = true -> good_id (c :: w))
    by (intros c w; exists c, w; auto).
  repeat match goal with
  | |- Forall _ (_ :: _) => constructor
  | |- Forall _ [] => constructor
  | |- exportable _ => unfold exportable; cbn [req_id req_title req_covers req_depends req_location req_attributes]
  | |- exists t, Some _ = Some t /\ _ => eexists; split; [reflexivity|]
  | |- good_ref _ => split
  | |- good_title _ => split
  | |- _ /\ _ => split
  end.
  all: try (apply HI; [reflexivity|discriminate|reflexivity]).
  all: try exact Logic.I; try reflexivity; try discriminate.
  all: try (vm_compute; intuition discriminate).
  - repeat constructor.
  - unfold good_attribute. cbn [fst snd].
    match goal with |- if ?b then _ else _ => change b with false end. cbv iota.
    split; [eexists _, _; split; [reflexivity|]; split; [reflexivity|]; split; [discriminate|reflexivity]|].
    do 3 (split; [discriminate|]). intros l Hl. vm_compute in Hl. destruct Hl as [<-|[]]. split; vm_compute; reflexivity.
  - repeat constructor.
Qed.

(** Not all that the parser can produce survives.  A description becomes a part of Origin. *)
Theorem C48_description_refuted :
  ~ forall {U : UnicodeTables} {CT : CaseTables} p f reqs reqs',
      md_parse p f = Done (reqs, []) ->
      md_parse p (mkReader (encode (flat_map md_requirement reqs)) None) = Done (reqs', []) ->
      map (fun r => oget (L "Description") (req_attributes r)) reqs' =
      map (fun r => oget (L "Description") (req_attributes r)) reqs.
Proof.
  intros H.
  set (doc := file "## REQ_A: t

It shall work.
").
  assert (H1 : exists reqs, md_parse sample_path doc = Done (reqs, [])) by (vm_compute; eexists; reflexivity).
  destruct H1 as [reqs H1].
  assert (H2 : exists reqs', md_parse sample_path (mkReader (encode (flat_map md_requirement reqs)) None) = Done (reqs', []))
    by (vm_compute in H1; inversion H1; subst; vm_compute; eexists; reflexivity).
  destruct H2 as [reqs' H2]. specialize (H ascii_tables ascii_case sample_path doc reqs reqs' H1 H2).
  vm_compute in H1. inversion H1; subst. vm_compute in H2. inversion H2; subst. vm_compute in H. discriminate.
Qed.
Print Assumptions C48_description_refuted.

(** The export of what came back is not accepted without errors: Origin is there twice. *)
Theorem C48_repeat_refuted :
  ~ forall {U : UnicodeTables} {CT : CaseTables} p f reqs,
      md_parse p f = Done (reqs, []) ->
      exists reqs', md_parse p (mkReader (encode (flat_map md_requirement reqs)) None) = Done (reqs', []).
Proof.
  intros H.
  set (doc := file "## REQ_A: t

Origin: here
").
  assert (H1 : exists reqs, md_parse sample_path doc = Done (reqs, [])) by (vm_compute; eexists; reflexivity).
  destruct H1 as [reqs H1]. destruct (H ascii_tables ascii_case sample_path doc reqs H1) as [reqs' H2].
  vm_compute in H1. inversion H1; subst. vm_compute in H2. discriminate.
Qed.
Print Assumptions C48_repeat_refuted.

(** The value of an attribute can come back as another attribute. *)
Theorem C48_value_refuted :
  ~ forall {U : UnicodeTables} {CT : CaseTables} p f reqs reqs',
      md_parse p f = Done (reqs, []) ->
      md_parse p (mkReader (encode (flat_map md_requirement reqs)) None) = Done (reqs', []) ->
      forall r', In r' reqs' -> forall k, k <> ORIGIN -> k <> L "Description" ->
      oget k (req_attributes r') <> None -> exists r, In r reqs /\ oget k (req_attributes r) <> None.
Proof.
  intros H.
  set (doc := file "## REQ_A: t

Comment: See: there
").
  assert (H1 : exists reqs, md_parse sample_path doc = Done (reqs, [])) by (vm_compute; eexists; reflexivity).
  destruct H1 as [reqs H1].
  assert (H2 : exists r', md_parse sample_path (mkReader (encode (flat_map md_requirement reqs)) None) = Done ([r'], []) /\
                          oget (L "See") (req_attributes r') <> None)
    by (vm_compute in H1; inversion H1; subst; vm_compute; eexists; split; [reflexivity|discriminate]).
  destruct H2 as (r' & H2 & H3).
  destruct (H ascii_tables ascii_case sample_path doc reqs [r'] H1 H2 r' (or_introl eq_refl) (L "See")) as (r & Hr & E);
    [discriminate|discriminate|exact H3|].
  vm_compute in H1. inversion H1; subst. destruct Hr as [<-|[]]. apply E. vm_compute. reflexivity.
Qed.
Print Assumptions C48_value_refuted.
