(** Display texts of /repo/src/models.rs. *)
From Verif Require Import Base OMap Models Unicode Location.
Open Scope N_scope.

(** `{:?}` of strings and of errors: left open *)
Class Debug := {
  debug_str : str -> str;
  debug_error : error -> str
}.

(** models.rs:370-380 *)
Definition show_relation (r : relation) : str :=
  rel_upper r ++ L " => [" ++ join (L ", ") (rel_lower r) ++ L "]".

(** models.rs:422-426 *)
Definition show_traced_relation (t : traced_relation) : str := show_relation (tr_relation t).

(** models.rs:252-256 *)
Definition show_requirement (r : requirement) : str := req_id r.

(** models.rs:274-339, the `#[error(..)]` texts *)
Definition show_error (e : error) : str :=
  match e with
  | EFormat l m => L "Invalid Format " ++ show_location l ++ L ": " ++ m
  | EDuplicateRequirement a b => L "Duplicate Requirements: " ++ show_requirement a ++ L " " ++ show_requirement b
  | EDuplicateAttribute l a r =>
      L "Duplicate Attribute " ++ a ++ L " when parsing " ++ r ++ L " at " ++ show_location l
  | EIo p m => L "IO Error: " ++ m ++ L " in " ++ p
  | EConfig m => L "Configuration Error  " ++ m
  | EDuplicateArtefact a => L "Artefact added twice: " ++ a
  | EUnknownArtefact a => L "Unknown Artefact: " ++ a
  | ECoveredWithWrongTitle u l t loc =>
      L "Requirement Covered with Wrong Title " ++ show_requirement u ++ L " <- " ++ show_requirement l ++
      L " with " ++ t ++ L " at " ++ show_location loc
  | EDependWithWrongTitle u l t loc =>
      L "Requirement Depended with Wrong Title " ++ show_requirement u ++ L " -> " ++ show_requirement l ++
      L " with " ++ t ++ L " at " ++ show_location loc
  | EReferencedWithoutTitle r loc =>
      L "Requirement referenced without title " ++ show_requirement r ++ L " at " ++ show_location loc
  | ERequirementWithoutTitle r => L "Requirement " ++ show_requirement r ++ L " must have a title"
  | EDependOnUnknownRequirement r id loc =>
      L "Requirement " ++ show_requirement r ++ L " depends on unknown Requirement " ++ id ++ L " at " ++
      show_location loc
  | ECoversUnknownRequirement r id loc =>
      L "Requirement " ++ show_requirement r ++ L " covers unknown Requirement " ++ id ++ L " at " ++
      show_location loc
  | EEmptyGraph => L "Empty Tracing Graph"
  | EUnusedRelation r => L "No requirements covered by relation " ++ show_relation r
  end.
