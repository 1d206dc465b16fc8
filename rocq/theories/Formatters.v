(** Model of /repo/src/formatters/mod.rs, and of [Format] and [Query] of /repo/src/models.rs. *)
From Verif Require Import Base OMap Models Unicode Show Sort Tracer Aggregator GnuErr Tags Serialize MdFmt.
Open Scope N_scope.

(** models.rs:103-111 *)
Inductive format :=
| GnuError
| Json
| Markdown
| Tags
| TemplateFile (p : path)
| TemplateString (s : str).

(** models.rs:86-93 *)
Inductive query := QParse | QTrace.

(** The text forms of JSON: [serde_json::to_writer_pretty], and what [serde_json::from_reader]
    makes of a file (a value or an error text).  Left open. *)
Class JsonText := {
  json_pretty : json -> str
}.

Section Formatters.
  Context {D : Debug} {US : UnstableSort} {CT : CaseTables} {J : JsonText}.

  (** formatters/mod.rs:21-38 *)
  Definition fmt_requirements (g : graph) (f : format) : outcome str :=
    match f with
    | Tags => Done (tags_requirements g)
    | Markdown => Done (md_requirements g)
    | Json =>
        Done (json_pretty (json_requirements
          (flat_map (fun a => ovalues (art_requirements a)) (ovalues (g_artefacts g)))
          (flat_map art_errors (ovalues (g_artefacts g)))))
    | _ => Panic (* todo!() *)
    end.

  (** formatters/mod.rs:40-57 *)
  Definition fmt_tracing (t : traced_graph) (f : format) : outcome str :=
    match f with
    | GnuError => gnu_tracing t
    | Markdown => let* ag := aggregate t in md_tracing ag
    | Json => Done (json_pretty (json_trace t))
    | _ => Panic (* todo!() *)
    end.
End Formatters.
