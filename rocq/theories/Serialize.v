(** Model of /repo/src/formatters/serialize.rs and of the serde encodings derived in
    /repo/src/models.rs, as JSON values.  serde and serde_json are external; the text form is left
    open ([JsonText]). *)
From Coq Require Import Permutation.
From Verif Require Import Base OMap Models Unicode Show Sort Location.
Open Scope N_scope.

(** JSON values; a number that is not a natural number is not told apart from others. *)
Inductive json :=
| JNull
| JBool (b : bool)
| JNum (n : N)
| JOtherNum
| JStr (s : str)
| JArr (l : list json)
| JObj (l : list (str * json)).

(** ** Encoding: what `#[derive(Serialize)]` does *)
Definition jopt {A} (f : A -> json) (o : option A) : json :=
  match o with Some a => f a | None => JNull end.
Definition jlist {A} (f : A -> json) (l : list A) : json := JArr (map f l).
Definition jmap {A} (f : A -> json) (m : list (str * A)) : json := JObj (map (fun e => (fst e, f (snd e))) m).
(** a variant with data *)
Definition variant (name : string) (v : json) : json := JObj [(L name, v)].

(** models.rs:113-118, 157-161 *)
Definition json_in_file (l : location_in_file) : json :=
  match l with
  | Line n => variant "Line" (JNum n)
  | LineAndColumn n c => variant "LineAndColumn" (JArr [JNum n; JNum c])
  | LocString s => variant "String" (JStr s)
  end.
Definition json_location (l : location) : json :=
  JObj [(L "file", JStr (loc_file l)); (L "location_in_file", jopt json_in_file (loc_in_file l))].
(** models.rs:232-237 *)
Definition json_reference (r : reference) : json :=
  JObj [(L "id", JStr (ref_id r)); (L "title", jopt JStr (ref_title r));
        (L "location", json_location (ref_location r))].
(** models.rs:239-248 *)
Definition json_requirement (r : requirement) : json :=
  JObj [(L "id", JStr (req_id r)); (L "title", jopt JStr (req_title r));
        (L "location", json_location (req_location r));
        (L "covers", jlist json_reference (req_covers r));
        (L "depends", jlist json_reference (req_depends r));
        (L "tags", jlist JStr (req_tags r)); (L "attributes", jmap JStr (req_attributes r))].
(** models.rs:361-368 *)
Definition json_relation_fields (r : relation) : list (str * json) :=
  [(L "upper", JStr (rel_upper r)); (L "lower", jlist JStr (rel_lower r))].
(** models.rs:274-339 *)
Definition json_error (e : error) : json :=
  match e with
  | EFormat l m => variant "Format" (JArr [json_location l; JStr m])
  | EDuplicateRequirement a b => variant "DuplicateRequirement" (JArr [json_requirement a; json_requirement b])
  | EDuplicateAttribute l a r => variant "DuplicateAttribute" (JArr [json_location l; JStr a; JStr r])
  | EIo p m => variant "Io" (JArr [JStr p; JStr m])
  | EConfig m => variant "Config" (JStr m)
  | EDuplicateArtefact a => variant "DuplicateArtefact" (JStr a)
  | EUnknownArtefact a => variant "UnknownArtefact" (JStr a)
  | ECoveredWithWrongTitle u l t loc =>
      variant "CoveredWithWrongTitle"
        (JObj [(L "upper", json_requirement u); (L "lower", json_requirement l);
               (L "wrong_title", JStr t); (L "location", json_location loc)])
  | EDependWithWrongTitle u l t loc =>
      variant "DependWithWrongTitle"
        (JObj [(L "upper", json_requirement u); (L "lower", json_requirement l);
               (L "wrong_title", JStr t); (L "location", json_location loc)])
  | EReferencedWithoutTitle r loc =>
      variant "ReferencedWithoutTitle"
        (JObj [(L "referenced", json_requirement r); (L "location", json_location loc)])
  | ERequirementWithoutTitle r => variant "RequirementWithoutTitle" (json_requirement r)
  | EDependOnUnknownRequirement r id loc =>
      variant "DependOnUnknownRequirement" (JArr [json_requirement r; JStr id; json_location loc])
  | ECoversUnknownRequirement r id loc =>
      variant "CoversUnknownRequirement" (JArr [json_requirement r; JStr id; json_location loc])
  | EEmptyGraph => JStr (L "EmptyGraph")
  | EUnusedRelation r => variant "UnusedRelation" (JObj (json_relation_fields r))
  end.
(** models.rs:264-272 *)
Definition json_artefact (a : artefact) : json :=
  JObj [(L "id", JStr (art_id a)); (L "files", jlist JStr (art_files a));
        (L "ignore_derived_requirements", JBool (art_ignore_derived a));
        (L "reference_with_title", JBool (art_reference_with_title a));
        (L "requirements", jmap json_requirement (art_requirements a));
        (L "errors", jlist json_error (art_errors a))].
(** models.rs:391-406 *)
Definition json_coverage (c : coverage) : json :=
  JObj [(L "upper", JStr (cov_upper c)); (L "lower", JStr (cov_lower c));
        (L "location", json_location (cov_location c));
        (L "direction", JStr (match cov_direction c with Upwards => L "Upwards" | Downwards => L "Downwards" end))].
(** models.rs:408-420, with `#[serde(flatten)]` *)
Definition json_traced_relation (t : traced_relation) : json :=
  JObj (json_relation_fields (tr_relation t) ++
        [(L "covered", jlist json_coverage (tr_covered t)); (L "uncovered", jlist JStr (tr_uncovered t))]).
(** models.rs:428-441 *)
Definition json_traced_graph (t : traced_graph) : json :=
  JObj [(L "artefacts", jmap json_artefact (tg_artefacts t));
        (L "traced_relations", jlist json_traced_relation (tg_relations t));
        (L "derived", jmap (jlist JStr) (tg_derived t));
        (L "errors", jlist json_error (tg_errors t))].

(** ** serialize.rs *)
(** serialize.rs:8 *)
Definition VERSION : N := 0.

(** [sort_unstable_by_key(ToString::to_string)]: any sorted rearrangement *)
Class UnstableSort := {
  sort_errors : list error -> list error;
  sort_errors_perm : forall l, Permutation l (sort_errors l);
  sort_errors_sorted : forall l, sorted_by show_error (sort_errors l)
}.
#[export] Instance stable_is_unstable : UnstableSort := {|
  sort_errors := sort_by show_error;
  sort_errors_perm := sort_by_perm show_error;
  sort_errors_sorted := sort_by_sorted show_error
|}.

Section Serialize.
  Context {US : UnstableSort}.
  (** serialize.rs:10-35 *)
  Definition json_requirements (reqs : list requirement) (errs : list error) : json :=
    JObj [(L "version", JNum VERSION);
          (L "requirements", jlist json_requirement (sort_by req_id reqs));
          (L "errors", jlist json_error (sort_errors errs))].
  (** serialize.rs:56-69 *)
  Definition json_trace (t : traced_graph) : json :=
    JObj [(L "version", JNum VERSION); (L "trace", json_traced_graph t)].
End Serialize.

(** ** Decoding: what `#[derive(Deserialize)]` does; [None] is an error *)
Fixpoint mapM {A B} (f : A -> option B) (l : list A) : option (list B) :=
  match l with
  | [] => Some []
  | a :: l' => match f a, mapM f l' with Some b, Some bs => Some (b :: bs) | _, _ => None end
  end.

(** A field of a struct: missing, given once, or given twice (an error). *)
Inductive field_value := Missing | Once (v : json) | Twice.
Definition field (name : string) (l : list (str * json)) : field_value :=
  match filter (fun e => eqb (fst e) (L name)) l with
  | [] => Missing
  | [e] => Once (snd e)
  | _ => Twice
  end.
(** A field that must be there, and an [Option] field. *)
Definition required {A} (f : json -> option A) (v : field_value) : option A :=
  match v with Once x => f x | _ => None end.
Definition unjopt {A} (f : json -> option A) (v : json) : option (option A) :=
  match v with JNull => Some None | _ => option_map Some (f v) end.
Definition optional {A} (f : json -> option A) (v : field_value) : option (option A) :=
  match v with Missing => Some None | Once x => unjopt f x | Twice => None end.

Definition unjstr (v : json) : option str := match v with JStr s => Some s | _ => None end.
Definition unjusize (v : json) : option N :=
  match v with JNum n => if n <? USIZE then Some n else None | _ => None end.
Definition unjlist {A} (f : json -> option A) (v : json) : option (list A) :=
  match v with JArr l => mapM f l | _ => None end.
(** a repeated key replaces the earlier value *)
Definition unjmap {A} (f : json -> option A) (v : json) : option (omap str A) :=
  match v with
  | JObj l => option_map ocollect (mapM (fun e => option_map (pair (fst e)) (f (snd e))) l)
  | _ => None
  end.

(** models.rs:113-118; an enum with data is an object with one entry *)
Definition unjson_in_file (v : json) : option location_in_file :=
  match v with
  | JObj [(k, x)] =>
      if eqb k (L "Line") then option_map Line (unjusize x)
      else if eqb k (L "LineAndColumn") then
        match x with
        | JArr [a; b] => match unjusize a, unjusize b with
                         | Some n, Some c => Some (LineAndColumn n c)
                         | _, _ => None
                         end
        | _ => None
        end
      else if eqb k (L "String") then option_map LocString (unjstr x)
      else None
  | _ => None
  end.

(** A struct is read from an object (unknown fields are ignored) or from an array with all fields
    in order.  models.rs:157-161 *)
Definition unjson_location (v : json) : option location :=
  match v with
  | JObj l =>
      match required unjstr (field "file" l), optional unjson_in_file (field "location_in_file" l) with
      | Some f, Some i => Some (mkLocation f i)
      | _, _ => None
      end
  | JArr [a; b] =>
      match unjstr a, unjopt unjson_in_file b with
      | Some f, Some i => Some (mkLocation f i)
      | _, _ => None
      end
  | _ => None
  end.
(** models.rs:232-237 *)
Definition unjson_reference (v : json) : option reference :=
  match v with
  | JObj l =>
      match required unjstr (field "id" l), optional unjstr (field "title" l),
            required unjson_location (field "location" l) with
      | Some i, Some t, Some x => Some (mkReference i t x)
      | _, _, _ => None
      end
  | JArr [a; b; c] =>
      match unjstr a, unjopt unjstr b, unjson_location c with
      | Some i, Some t, Some x => Some (mkReference i t x)
      | _, _, _ => None
      end
  | _ => None
  end.
(** models.rs:239-248 *)
Definition unjson_requirement (v : json) : option requirement :=
  match v with
  | JObj l =>
      match required unjstr (field "id" l), optional unjstr (field "title" l),
            required unjson_location (field "location" l),
            required (unjlist unjson_reference) (field "covers" l),
            required (unjlist unjson_reference) (field "depends" l),
            required (unjlist unjstr) (field "tags" l), required (unjmap unjstr) (field "attributes" l) with
      | Some i, Some t, Some x, Some c, Some d, Some g, Some a => Some (mkRequirement i t x c d g a)
      | _, _, _, _, _, _, _ => None
      end
  | JArr [a1; a2; a3; a4; a5; a6; a7] =>
      match unjstr a1, unjopt unjstr a2, unjson_location a3, unjlist unjson_reference a4,
            unjlist unjson_reference a5, unjlist unjstr a6, unjmap unjstr a7 with
      | Some i, Some t, Some x, Some c, Some d, Some g, Some a => Some (mkRequirement i t x c d g a)
      | _, _, _, _, _, _, _ => None
      end
  | _ => None
  end.
(** `Vec<Rc<Requirement>>`, the type read by controller.rs:83 *)
Definition unjson_requirements : json -> option (list requirement) := unjlist unjson_requirement.
