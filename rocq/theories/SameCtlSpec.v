(** Vocabulary: projects that say the same, with artefacts stored in other forms. *)
From Verif Require Import Base OMap Models Unicode Utf8 Show TraceSpec Controller CtlSpec SameSpec.

Section SameCtlSpec.
  Context {U : UnicodeTables} {D : Debug} {I : Inputs}.

  (** Two lists of requirements define the same. *)
  Definition same_definitions (l m : list requirement) : Prop :=
    forall id, match first_with id l, first_with id m with
               | Some r, Some s => same_requirement r s
               | None, None => True
               | _, _ => False
               end.
  (** An artefact configured in two ways: its files say the same, and both can be read without errors or none. *)
  Definition same_source (base : path) (ac ac' : artefact_config) : Prop :=
    ac_id ac = ac_id ac' /\ ac_ignore_derived ac = ac_ignore_derived ac' /\
    ac_reference_with_title ac = ac_reference_with_title ac' /\
    (ac = ac' \/
     exists files reqs errs files' reqs' errs',
       sources base ac files reqs errs /\ sources base ac' files' reqs' errs' /\ same_definitions reqs reqs' /\
       (errs ++ repeats [] reqs = [] <-> errs' ++ repeats [] reqs' = [])).
  Definition same_project (base : path) (cf cf' : config) : Prop :=
    cf_relations cf = cf_relations cf' /\ Forall2 (same_source base) (cf_artefacts cf) (cf_artefacts cf').

  (** A project with other artefacts. *)
  Definition with_artefacts (cf : config) (acs : list artefact_config) : config :=
    mkConfig (cf_version cf) acs (cf_relations cf) (cf_jobs cf) (cf_default_jobs cf).
  (** A project of one artefact. *)
  Definition alone (ac : artefact_config) : config := mkConfig None [ac] [] None None.
  (** The artefact, read from another file with another parser. *)
  Definition moved (ac : artefact_config) (ps : parser) (file : str) : artefact_config :=
    mkArtefactConfig (ac_id ac) [file] ps (ac_ignore_derived ac) (ac_reference_with_title ac).
End SameCtlSpec.
