(** Data types of /repo/src/models.rs.

    Simplifications: [PathBuf] is a string (its [display()] is the string itself, i.e. paths
    are valid UTF-8), [usize] is [N] (the 64 bit bound is written where it matters:
    Location.v), [Rc<T>] is [T] (values are immutable and only ever shared). *)
From Verif Require Import Base OMap.

(** models.rs:15-54 newtypes around [String] *)
Definition artefact_id := str.
Definition requirement_id := str.
(** [PathBuf] *)
Definition path := str.

(** models.rs:113-118 *)
Inductive location_in_file :=
| Line (line : N)
| LineAndColumn (line column : N)
| LocString (s : str).

(** models.rs:157-161 *)
Record location := mkLocation {
  loc_file : path;
  loc_in_file : option location_in_file
}.

(** models.rs:168-191 *)
Definition new_with_no_pos (file : path) := mkLocation file None.
Definition new_with_line_no (file : path) (line : N) := mkLocation file (Some (Line line)).
Definition new_with_line_and_column (file : path) (line column : N) :=
  mkLocation file (Some (LineAndColumn line column)).
Definition new_with_str (file : path) (pos : str) := mkLocation file (Some (LocString pos)).

(** models.rs:232-237 *)
Record reference := mkReference {
  ref_id : requirement_id;
  ref_title : option str;
  ref_location : location
}.

(** models.rs:239-248 *)
Record requirement := mkRequirement {
  req_id : requirement_id;
  req_title : option str;
  req_location : location;
  req_covers : list reference;
  req_depends : list reference;
  req_tags : list str;
  req_attributes : omap str str
}.

(** models.rs:361-368; [Ord] is derived, i.e. lexicographic on (upper, lower) *)
Record relation := mkRelation {
  rel_upper : artefact_id;
  rel_lower : list artefact_id
}.

#[export] Instance Ord_relation : Ord relation.
Proof.
  refine {| cmp := fun x y => cmp (rel_upper x, rel_lower x) (rel_upper y, rel_lower y) |}.
  - intros [u l] [u' l']. rewrite cmp_eq. cbn. split; congruence.
  - intros [u l] [u' l']. apply cmp_opp.
  - intros x y z. apply cmp_trans.
Defined.

(** models.rs:274-339 *)
Inductive error :=
| EFormat (loc : location) (msg : str)
| EDuplicateRequirement (old new : requirement)
| EDuplicateAttribute (loc : location) (attr : str) (req : requirement_id)
| EIo (p : path) (msg : str)
| EConfig (msg : str)
| EDuplicateArtefact (a : str)
| EUnknownArtefact (a : artefact_id)
| ECoveredWithWrongTitle (upper lower : requirement) (wrong_title : str) (loc : location)
| EDependWithWrongTitle (upper lower : requirement) (wrong_title : str) (loc : location)
| EReferencedWithoutTitle (referenced : requirement) (loc : location)
| ERequirementWithoutTitle (req : requirement)
| EDependOnUnknownRequirement (req : requirement) (id : requirement_id) (loc : location)
| ECoversUnknownRequirement (req : requirement) (id : requirement_id) (loc : location)
| EEmptyGraph
| EUnusedRelation (rel : relation).

(** models.rs:264-272 *)
Record artefact := mkArtefact {
  art_id : artefact_id;
  art_files : list path;
  art_ignore_derived : bool;
  art_reference_with_title : bool;
  art_requirements : omap requirement_id requirement;
  art_errors : list error
}.

(** models.rs:382-389 *)
Record graph := mkGraph {
  g_artefacts : omap artefact_id artefact;
  g_relations : list relation
}.

(** models.rs:391-406 *)
Inductive direction := Upwards | Downwards.
Record coverage := mkCoverage {
  cov_upper : requirement_id;
  cov_lower : requirement_id;
  cov_location : location;
  cov_direction : direction
}.

(** models.rs:408-420 *)
Record traced_relation := mkTracedRelation {
  tr_relation : relation;
  tr_covered : list coverage;
  tr_uncovered : list requirement_id
}.

(** models.rs:428-441 *)
Record traced_graph := mkTracedGraph {
  tg_artefacts : omap artefact_id artefact;
  tg_relations : list traced_relation;
  tg_derived : omap artefact_id (list requirement_id);
  tg_errors : list error
}.

(** What the Rust types and [Controller::new] guarantee about a [Graph]: the two maps are
    [BTreeMap]s (sorted keys), artefacts are stored under their id (controller.rs:241) and
    requirements under theirs (controller.rs:163-171).
    CtlFacts.v proves that every graph built by the controller satisfies it. *)
Definition artefact_wf (a : artefact) : Prop :=
  osorted (art_requirements a) /\
  (forall k r, In (k, r) (art_requirements a) -> req_id r = k).

Definition graph_wf (g : graph) : Prop :=
  osorted (g_artefacts g) /\
  (forall k a, In (k, a) (g_artefacts g) -> art_id a = k /\ artefact_wf a).
