(** How a reader of the JSON reports gets at the data: by the names of the fields, in any order. *)
From Verif Require Import Base OMap Models Serialize.
Open Scope N_scope.

Definition bind {A B} (o : option A) (k : A -> option B) : option B := match o with Some a => k a | None => None end.
Notation "'let?' x := e 'in' k" := (bind e (fun x => k)) (at level 200, x name, e at level 100, k at level 200).

Fixpoint all {A B} (f : A -> option B) (l : list A) : option (list B) :=
  match l with
  | [] => Some []
  | a :: l' => let? b := f a in let? bs := all f l' in Some (b :: bs)
  end.

Definition text (v : json) : option str := match v with JStr s => Some s | _ => None end.
Definition number (v : json) : option N := match v with JNum n => Some n | _ => None end.
Definition boolean (v : json) : option bool := match v with JBool b => Some b | _ => None end.
Definition elements {A} (f : json -> option A) (v : json) : option (list A) :=
  match v with JArr l => all f l | _ => None end.
Definition entries {A} (f : json -> option A) (v : json) : option (list (str * A)) :=
  match v with JObj l => all (fun e => let? a := f (snd e) in Some (fst e, a)) l | _ => None end.
Definition maybe {A} (f : json -> option A) (v : json) : option (option A) :=
  match v with JNull => Some None | _ => let? a := f v in Some (Some a) end.

(** A member of an object, an element of an array. *)
Definition member {A} (k : string) (f : json -> option A) (v : json) : option A :=
  match v with
  | JObj l => match filter (fun e => eqb (fst e) (L k)) l with [(_, x)] => f x | _ => None end
  | _ => None
  end.
Definition element {A} (n : nat) (f : json -> option A) (v : json) : option A :=
  match v with JArr l => let? x := nth_error l n in f x | _ => None end.
(** The name of a variant and what is with it. *)
Definition variant_of (v : json) : option (str * json) :=
  match v with JObj [(k, x)] => Some (k, x) | JStr k => Some (k, JNull) | _ => None end.
(** The first alternative with the given name. *)
Fixpoint alternative {A} (k : str) (v : json) (l : list (string * (json -> option A))) : option A :=
  match l with
  | [] => None
  | (name, f) :: l' => if eqb k (L name) then f v else alternative k v l'
  end.
Definition choice {A} (l : list (string * (json -> option A))) (v : json) : option A :=
  let? e := variant_of v in alternative (fst e) (snd e) l.

Definition a_place_in_file : json -> option location_in_file :=
  choice [("Line", fun v => let? n := number v in Some (Line n));
          ("LineAndColumn", fun v => let? n := element 0 number v in let? c := element 1 number v in
                                     Some (LineAndColumn n c));
          ("String", fun v => let? s := text v in Some (LocString s))]%string.
Definition a_location (v : json) : option location :=
  let? f := member "file" text v in
  let? i := member "location_in_file" (maybe a_place_in_file) v in
  Some (mkLocation f i).
Definition a_reference (v : json) : option reference :=
  let? id := member "id" text v in
  let? t := member "title" (maybe text) v in
  let? l := member "location" a_location v in
  Some (mkReference id t l).
Definition a_requirement (v : json) : option requirement :=
  let? id := member "id" text v in
  let? t := member "title" (maybe text) v in
  let? l := member "location" a_location v in
  let? c := member "covers" (elements a_reference) v in
  let? d := member "depends" (elements a_reference) v in
  let? tags := member "tags" (elements text) v in
  let? at_ := member "attributes" (entries text) v in
  Some (mkRequirement id t l c d tags at_).
Definition a_relation (v : json) : option relation :=
  let? u := member "upper" text v in
  let? l := member "lower" (elements text) v in
  Some (mkRelation u l).

Definition an_error : json -> option error :=
  choice [
    ("Format", fun v => let? l := element 0 a_location v in let? m := element 1 text v in Some (EFormat l m));
    ("DuplicateRequirement", fun v => let? a := element 0 a_requirement v in let? b := element 1 a_requirement v in
                                      Some (EDuplicateRequirement a b));
    ("DuplicateAttribute", fun v => let? l := element 0 a_location v in let? a := element 1 text v in
                                    let? r := element 2 text v in Some (EDuplicateAttribute l a r));
    ("Io", fun v => let? p := element 0 text v in let? m := element 1 text v in Some (EIo p m));
    ("Config", fun v => let? m := text v in Some (EConfig m));
    ("DuplicateArtefact", fun v => let? a := text v in Some (EDuplicateArtefact a));
    ("UnknownArtefact", fun v => let? a := text v in Some (EUnknownArtefact a));
    ("CoveredWithWrongTitle", fun v =>
       let? u := member "upper" a_requirement v in let? l := member "lower" a_requirement v in
       let? t := member "wrong_title" text v in let? loc := member "location" a_location v in
       Some (ECoveredWithWrongTitle u l t loc));
    ("DependWithWrongTitle", fun v =>
       let? u := member "upper" a_requirement v in let? l := member "lower" a_requirement v in
       let? t := member "wrong_title" text v in let? loc := member "location" a_location v in
       Some (EDependWithWrongTitle u l t loc));
    ("ReferencedWithoutTitle", fun v =>
       let? r := member "referenced" a_requirement v in let? loc := member "location" a_location v in
       Some (EReferencedWithoutTitle r loc));
    ("RequirementWithoutTitle", fun v => let? r := a_requirement v in Some (ERequirementWithoutTitle r));
    ("DependOnUnknownRequirement", fun v =>
       let? r := element 0 a_requirement v in let? id := element 1 text v in let? loc := element 2 a_location v in
       Some (EDependOnUnknownRequirement r id loc));
    ("CoversUnknownRequirement", fun v =>
       let? r := element 0 a_requirement v in let? id := element 1 text v in let? loc := element 2 a_location v in
       Some (ECoversUnknownRequirement r id loc));
    ("EmptyGraph", fun _ => Some EEmptyGraph);
    ("UnusedRelation", fun v => let? r := a_relation v in Some (EUnusedRelation r))]%string.

Definition an_artefact (v : json) : option artefact :=
  let? id := member "id" text v in
  let? files := member "files" (elements text) v in
  let? i := member "ignore_derived_requirements" boolean v in
  let? t := member "reference_with_title" boolean v in
  let? reqs := member "requirements" (entries a_requirement) v in
  let? errs := member "errors" (elements an_error) v in
  Some (mkArtefact id files i t reqs errs).
Definition a_direction : json -> option direction :=
  choice [("Upwards", fun _ => Some Upwards); ("Downwards", fun _ => Some Downwards)]%string.
Definition a_coverage (v : json) : option coverage :=
  let? u := member "upper" text v in
  let? l := member "lower" text v in
  let? loc := member "location" a_location v in
  let? d := member "direction" a_direction v in
  Some (mkCoverage u l loc d).
Definition a_traced_relation (v : json) : option traced_relation :=
  let? r := a_relation v in
  let? c := member "covered" (elements a_coverage) v in
  let? u := member "uncovered" (elements text) v in
  Some (mkTracedRelation r c u).
Definition a_traced_graph (v : json) : option traced_graph :=
  let? arts := member "artefacts" (entries an_artefact) v in
  let? rels := member "traced_relations" (elements a_traced_relation) v in
  let? der := member "derived" (entries (elements text)) v in
  let? errs := member "errors" (elements an_error) v in
  Some (mkTracedGraph arts rels der errs).

(** The two reports, with the version number. *)
Definition a_trace_report (v : json) : option (N * traced_graph) :=
  let? n := member "version" number v in
  let? t := member "trace" a_traced_graph v in
  Some (n, t).
Definition a_parse_report (v : json) : option (N * list requirement * list error) :=
  let? n := member "version" number v in
  let? reqs := member "requirements" (elements a_requirement) v in
  let? errs := member "errors" (elements an_error) v in
  Some (n, reqs, errs).
