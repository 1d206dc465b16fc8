(** Model of the functions of /repo/src that the program itself does not use or does not use in full:
    [Controller::run_jobs] as it can be called, [Errors::new], and the helper of the unit tests. *)
From Verif Require Import Base OMap Models Unicode Location Show Sort Serialize MdFmt Formatters RustParser Controller.
Open Scope N_scope.

(** controller.rs:290-317: jobs and names are zipped (log output left out) *)
Definition run_jobs_with_names {D : Debug} {US : UnstableSort} {CT : CaseTables} {J : JsonText} {O : Outputs}
    (c : controller) (jobs : list job) (job_names : list str) (h : history) : history * result job_success :=
  run_jobs c (map fst (combine jobs job_names)) Success h.

(** serialize.rs:36-53: the value made by [Errors::new], encoded by `#[derive(Serialize)]` *)
Definition json_errors {US : UnstableSort} (errs : list error) : json :=
  JObj [(L "version", JNum VERSION); (L "errors", jlist json_error (sort_errors errs))].

(** ** util.rs: [RequirementBuilder] *)
Section Builder.
  Context {U : UnicodeTables}.

  (** util.rs:16-28 *)
  Definition builder_new (id : str) : outcome requirement :=
    let* l := parse_location (L "no Location") in
    match l with
    | inl l => Done (mkRequirement id None l [] [] [] [])
    | inr _ => Panic
    end.

  (** util.rs:30-33 *)
  Definition builder_title (r : requirement) (s : str) : requirement :=
    mkRequirement (req_id r) (Some s) (req_location r) (req_covers r) (req_depends r) (req_tags r) (req_attributes r).

  (** util.rs:35-39; [inr] is an error *)
  Definition builder_location (r : requirement) (s : str) : outcome (requirement + str) :=
    let* l := parse_location s in
    Done (match l with
          | inl l => inl (mkRequirement (req_id r) (req_title r) l (req_covers r) (req_depends r) (req_tags r) (req_attributes r))
          | inr e => inr e
          end).

  (** util.rs:41-57 *)
  Definition builder_covers (r : requirement) (id : str) (title : option str) (s : str) : outcome (requirement + str) :=
    let* l := parse_location s in
    Done (match l with
          | inl l => inl (mkRequirement (req_id r) (req_title r) (req_location r) (req_covers r ++ [mkReference id title l])
                            (req_depends r) (req_tags r) (req_attributes r))
          | inr e => inr e
          end).

  (** util.rs:59-75; the reference is pushed to `covers` there, too *)
  Definition builder_depends (r : requirement) (id : str) (title : option str) (s : str) : outcome (requirement + str) :=
    let* l := parse_location s in
    Done (match l with
          | inl l => inl (mkRequirement (req_id r) (req_title r) (req_location r) (req_covers r ++ [mkReference id title l])
                            (req_depends r) (req_tags r) (req_attributes r))
          | inr e => inr e
          end).

  (** util.rs:77-80 *)
  Definition builder_tag (r : requirement) (tag : str) : requirement :=
    mkRequirement (req_id r) (req_title r) (req_location r) (req_covers r) (req_depends r) (req_tags r ++ [tag]) (req_attributes r).

  (** util.rs:82-85 *)
  Definition builder_attribute (r : requirement) (k v : str) : requirement :=
    mkRequirement (req_id r) (req_title r) (req_location r) (req_covers r) (req_depends r) (req_tags r) (oins k v (req_attributes r)).

  (** A chain of calls, each with `?` if it may fail.  [build] (util.rs:87-89) is the identity. *)
  Inductive call :=
  | CallTitle (s : str)
  | CallLocation (s : str)
  | CallCovers (id : str) (title : option str) (s : str)
  | CallDepends (id : str) (title : option str) (s : str)
  | CallTag (tag : str)
  | CallAttribute (k v : str).
  Definition builder_call (r : requirement) (x : call) : outcome (requirement + str) :=
    match x with
    | CallTitle s => Done (inl (builder_title r s))
    | CallLocation s => builder_location r s
    | CallCovers id t s => builder_covers r id t s
    | CallDepends id t s => builder_depends r id t s
    | CallTag t => Done (inl (builder_tag r t))
    | CallAttribute k v => Done (inl (builder_attribute r k v))
    end.
  Fixpoint builder_calls (r : requirement) (l : list call) : outcome (requirement + str) :=
    match l with
    | [] => Done (inl r)
    | x :: l' =>
        let* r' := builder_call r x in
        match r' with inl r1 => builder_calls r1 l' | inr e => Done (inr e) end
    end.
  Definition builder (id : str) (l : list call) : outcome (requirement + str) :=
    let* r := builder_new id in builder_calls r l.
End Builder.
