(** Reports from which one sees that there is nothing to complain about. *)
From Verif Require Import Base OMap Models Unicode Serialize Controller JsonGrammar GnuReadSpec OutlineSpec JsonSpec.
Open Scope N_scope.

(** No line of the GNU report is a message for a place. *)
Definition gnu_silent (text : str) : Prop :=
  exists es, GnuReadSpec.reads text es /\ forall place message, ~ In (At place message) es.

(** The Markdown trace report has no other headline than that of the list of requirements; the export has none at all. *)
Definition trace_page_silent (text : str) : Prop := forall title, In (1%nat, title) (outline text) <-> title = L "Requirements".
Definition export_page_silent (text : str) : Prop := forall title, ~ In (1%nat, title) (outline text).

(** All lists of the JSON report that are of interest are empty.  [None]: there are no such lists. *)
Definition empty (v : json) : option bool := match v with JArr [] => Some true | JArr _ => Some false | _ => None end.
Definition trace_value_silent : json -> option bool :=
  member "trace" (fun t =>
    let? errs := member "errors" empty t in
    let? arts := member "artefacts" (entries (member "errors" empty)) t in
    let? rels := member "traced_relations" (JsonSpec.elements (member "uncovered" empty)) t in
    let? ders := member "derived" (entries empty) t in
    Some (errs && forallb snd arts && forallb (fun b => b) rels && forallb snd ders)).
Definition export_value_silent : json -> option bool := member "errors" empty.
(** The text is JSON, and this is the answer. *)
Definition json_answer (query : json -> option bool) (text : str) (b : bool) : Prop :=
  (exists v, json_document text v) /\ forall v, json_document text v -> query v = Some b.

(** The text a job has written last: all of it. *)
Definition wrote (h h' : history) (text : str) : Prop := exists ev k, h' = h ++ ev ++ [EvWrite k text None].
