(** The outline of a Markdown page: its headings. *)
From Verif Require Import Base OMap Models Unicode Location Show TraceSpec AggSpec FmtSpec EntrySpec GnuReadSpec.
Open Scope N_scope.

(** A line that is an ATX heading (CommonMark 0.30, section 4.2): up to three blanks, one to six `#`, and a blank or tabulator or
    the end of the line.  Its level and the rest of the line. *)
Fixpoint hashes (s : str) : nat * str :=
  match s with
  | [] => (O, [])
  | c :: r => if c =? HASH then let '(n, x) := hashes r in (S n, x) else (O, s)
  end.
Fixpoint unindent (n : nat) (s : str) : str :=
  match n, s with
  | S n', c :: r => if c =? 32 then unindent n' r else s
  | _, _ => s
  end.
Definition heading_line (l : str) : list (nat * str) :=
  let '(n, x) := hashes (unindent 3 l) in
  if Nat.leb 1 n && Nat.leb n 6 then
    match x with
    | [] => [(n, [])]
    | c :: t => if (c =? 32) || (c =? 9) then [(n, t)] else []
    end
  else [].
Definition outline (s : str) : list (nat * str) := flat_map heading_line (page_lines s).

(** The headings to be found in the trace report: groups only if there is something to tell, and the requirements of the artefacts. *)
Definition group {A} (title : string) (name : A -> str) (l : list A) : list (nat * str) :=
  match l with [] => [] | _ => (1%nat, L title) :: map (fun a => (2%nat, name a)) l end.
Definition report_outline (g : graph) (tracing_errors : list error) : list (nat * str) :=
  group "Input Errors" fst (filter (fun e => negb (is_nil (art_errors (snd e)))) (g_artefacts g)) ++
  match tracing_errors with [] => [] | _ => [(1%nat, L "Tracing Errors")] end ++
  group "Uncovered Requirements" show_relation (filter (fun rel => negb (is_nil (uncovered_reqs g rel))) (g_relations g)) ++
  group "Derived Requirements" fst (filter (fun e => negb (is_nil (derived_reqs g (fst e) (snd e)))) (g_artefacts g)) ++
  (1%nat, L "Requirements") ::
  flat_map (fun e => (2%nat, fst e) :: map (fun r => (3%nat, heading_of r)) (ovalues (art_requirements (snd e)))) (g_artefacts g).

(** The headings to be found in the export of the requirements [rs]. *)
Definition export_outline (g : graph) (rs : list requirement) : list (nat * str) :=
  group "Input Errors" fst (filter (fun e => negb (is_nil (art_errors (snd e)))) (g_artefacts g)) ++
  map (fun r => (3%nat, req_id r ++ L ": " ++ opt_default (req_title r) [])) rs.

(** Texts that keep this outline: ids, titles, names and messages of one line; descriptions and values without headings. *)
Definition title_line (t : option str) : Prop := match t with Some t => one_line t | None => True end.
Definition location_line (l : location) : Prop :=
  one_line (loc_file l) /\ match loc_in_file l with Some (LocString s) => one_line s | _ => True end.
Definition reference_line (x : reference) : Prop := one_line (ref_id x) /\ title_line (ref_title x) /\ location_line (ref_location x).
Definition requirement_line (r : requirement) : Prop :=
  one_line (req_id r) /\ title_line (req_title r) /\ location_line (req_location r) /\
  Forall reference_line (req_covers r) /\ Forall reference_line (req_depends r).
Definition body_ok (r : requirement) : Prop :=
  forall k v, In (k, v) (req_attributes r) ->
    if eqb k (L "Description") then outline v = []
    else one_line k /\ heading_line (k ++ L ":") = [] /\ outline (trim v) = [].
Definition relation_line (rel : relation) : Prop := one_line (rel_upper rel) /\ Forall one_line (rel_lower rel).
Definition error_line (e : error) : Prop :=
  match e with
  | EFormat l m => location_line l /\ one_line m
  | EDuplicateRequirement r1 r2 => requirement_line r1 /\ requirement_line r2
  | EDuplicateAttribute l a r => location_line l /\ one_line a /\ one_line r
  | EIo p m => one_line p /\ starts_with_c HASH p = false /\ one_line m
  | ECoveredWithWrongTitle u l t loc | EDependWithWrongTitle u l t loc =>
      requirement_line u /\ requirement_line l /\ one_line t /\ location_line loc
  | EDependOnUnknownRequirement r id loc | ECoversUnknownRequirement r id loc => requirement_line r /\ one_line id /\ location_line loc
  | EReferencedWithoutTitle r loc => requirement_line r /\ location_line loc
  | ERequirementWithoutTitle r => requirement_line r
  | EConfig m => one_line m
  | EDuplicateArtefact a | EUnknownArtefact a => one_line a
  | EUnusedRelation rel => relation_line rel
  | EEmptyGraph => True
  end.
Definition plain_texts (g : graph) : Prop :=
  (forall r, In r (all_reqs g) -> requirement_line r /\ body_ok r) /\
  (forall e, In e (all_errors g) -> error_line e) /\
  (forall rel, In rel (g_relations g) -> relation_line rel) /\
  (forall k, In k (okeys (g_artefacts g)) -> one_line k).
