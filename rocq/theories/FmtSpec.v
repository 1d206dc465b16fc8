(** Specification of the reports in terms of the graph. *)
From Verif Require Import Base OMap Models Unicode Location Show Sort TraceSpec Aggregator AggSpec GnuErr MdFmt.
Open Scope N_scope.

(** The requirements not covered along a relation, in id order. *)
Definition uncovered_reqs (g : graph) (rel : relation) : list requirement :=
  filter (fun r => is_nil (links_of g rel r)) (reqs_of g (rel_upper rel)).

(** The requirements of an artefact that cover nothing, in id order; none if derived requirements
    are ignored. *)
Definition covers_along (g : graph) (k : artefact_id) (r : requirement) (rel : relation) : bool :=
  existsb (fun l => eqb (lk_lower_art l) k && eqb (req_id (lk_lower l)) (req_id r)) (links g rel).
Definition derived_reqs (g : graph) (k : artefact_id) (a : artefact) : list requirement :=
  if art_ignore_derived a then []
  else filter (fun r => negb (existsb (covers_along g k r) (g_relations g))) (first_defs g k).

Definition all_errors (g : graph) : list error := flat_map (fun e => art_errors (snd e)) (g_artefacts g).

(** ** GNU errors *)
Section Gnu.
  Context {D : Debug}.

  Definition finding (what : string) (r : requirement) : str :=
    show_location (req_location r) ++ L ": " ++ req_id r ++ L " " ++ L what ++ [NL].

  Definition gnu_report (g : graph) (tracing_errors : list error) : str :=
    L "# Parsing Errors" ++ [NL] ++ flat_map gnu_error (all_errors g) ++
    L "# Tracing Errors" ++ [NL] ++ flat_map gnu_error tracing_errors ++
    L "# Uncovered Requirement" ++ [NL] ++
    flat_map (fun rel => L "## " ++ show_relation rel ++ [NL] ++
                         flat_map (finding "Uncovered") (uncovered_reqs g rel)) (g_relations g) ++
    L "Derived Requirement" ++ [NL] ++
    flat_map (fun e => L "## " ++ fst e ++ [NL] ++
                       flat_map (finding "Derived") (derived_reqs g (fst e) (snd e))) (g_artefacts g).
End Gnu.

(** ** Markdown *)
(** Each element once, where it occurs first. *)
Fixpoint firsts (l : list str) : list str :=
  match l with
  | [] => []
  | x :: l' => x :: filter (fun y => negb (eqb y x)) (firsts l')
  end.

(** A headline with sections; no headline without section, no section without entry. *)
Definition sections {A} (title : string) (name : A -> str) (entries : A -> list str) (l : list A) : str :=
  match filter (fun a => negb (is_nil (entries a))) l with
  | [] => []
  | l' => md_headline title ++ flat_map (fun a => md_subheading (name a) ++ concat (entries a)) l'
  end.

Section MdReport.
  Context {CT : CaseTables}.

  (** The requirement printed for an id: the last definition. *)
  Definition shown (tg : traced_graph) (r : requirement) : requirement :=
    match last_def tg (req_id r) with Some (_, r') => r' | None => r end.
  Definition item (tg : traced_graph) (r : requirement) : str :=
    L "*   " ++ requirement_link (shown tg r) ++ [NL].

  Definition md_report (g : graph) (tg : traced_graph) (ag : aggregated_graph) : str :=
    sections "Input Errors" art_id (fun a => map md_error (art_errors a)) (ovalues (g_artefacts g)) ++
    (if is_nil (tg_errors tg) then []
     else md_headline "Tracing Errors" ++ concat (firsts (map md_error (tg_errors tg)))) ++
    sections "Uncovered Requirements" show_relation (fun rel => map (item tg) (uncovered_reqs g rel))
      (g_relations g) ++
    sections "Derived Requirements" fst (fun e => map (item tg) (derived_reqs g (fst e) (snd e)))
      (g_artefacts g) ++
    md_headline "Requirements" ++
    flat_map (fun a => L "## " ++ art_id a ++ [NL] ++
                flat_map (fun r => match oget (req_id r) (ag_requirements ag) with
                                   | Some t => md_traced_requirement t
                                   | None => []
                                   end) (ovalues (art_requirements a))) (ovalues (g_artefacts g)).

  Definition md_export (g : graph) (reqs : list requirement) : str :=
    sections "Input Errors" art_id (fun a => map md_error (art_errors a)) (ovalues (g_artefacts g)) ++
    flat_map md_requirement reqs.
End MdReport.

(** ** Tags *)
Definition line_of (l : location) : option N :=
  match loc_in_file l with
  | Some (Line n) => Some n
  | Some (LineAndColumn n _) => Some n
  | _ => None
  end.
(** name, file, line and kind, separated by tabulators *)
Definition tag_of (r : requirement) (n : N) : str :=
  req_id r ++ [9] ++ loc_file (req_location r) ++ [9] ++ show_N n ++ L ";" ++ [34] ++ [9] ++ L "r" ++ [NL].
Definition tags_of (l : list requirement) : list str :=
  flat_map (fun r => match line_of (req_location r) with Some n => [tag_of r n] | None => [] end) l.
