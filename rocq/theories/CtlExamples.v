(** A small project for examples. *)
From Verif Require Import Base OMap Models Unicode Utf8 Paths MdParser MonoParser RustParser Tracer
  Show Sort Serialize Tags MdFmt Formatters Controller.
Open Scope N_scope.

Definition sample_debug : Debug := {| debug_str := fun s => s; debug_error := fun _ => L "error" |}.
Definition sample_json : JsonText := {| json_pretty := fun _ => L "json" |}.

Definition sample_file (p : path) : option string :=
  if eqb p (L "/p/a.md") then Some "# REQ_A: Top
"%string else if eqb p (L "/p/b.md") then Some "# REQ_B: Low

Covers: REQ_A
"%string else if eqb p (L "/p/twice.md") then Some "# REQ_A: First

# REQ_B: Other

# REQ_A: Second
"%string else if eqb p (L "/p/bad.md") then Some "# REQ_A: t
x"%string else None.

Definition sample_inputs : Inputs := {|
  in_open := fun p => match sample_file p with
                      | Some s => inl (mkReader (L s) None)
                      | None => inr (L "No such file")
                      end;
  in_glob := fun _ => inl [];
  in_syn := fun _ => inl (NOther []);
  in_debug_tokens := fun _ => [];
  in_json := fun _ => None;
  in_json_error := fun _ => L "no JSON"
|}.
Definition sample_outputs : Outputs := {|
  out_parent := fun _ => Some (L "/p/out");
  out_make_dirs := fun _ _ => None;
  out_create := fun _ p => if eqb p (L "/p/locked") then Some (L "denied") else None;
  out_write := fun _ _ _ => None
|}.

Definition md_artefact_config (id file : string) (titles : option bool) : artefact_config :=
  mkArtefactConfig (L id) [L file] PMarkdown None titles.
Definition a_config := md_artefact_config "A" "a.md" None.
Definition b_config := md_artefact_config "B" "b.md" None.
Definition sample_relation := mkRelation (L "A") [L "B"].

Definition sample_jobs : omap str job := [
  (L "bad", mkJob QTrace Tags (L "tags") None);
  (L "gnu", mkJob QTrace GnuError (L "-") None);
  (L "locked", mkJob QParse Tags (L "locked") None);
  (L "tags", mkJob QParse Tags (L "tags") (Some false))].

Definition sample_config (acs : list artefact_config) (rels : list relation) : config :=
  mkConfig (Some 0) acs rels (Some sample_jobs) (Some [L "tags"; L "gnu"]).
Definition good_config := sample_config [a_config; b_config] [sample_relation].
