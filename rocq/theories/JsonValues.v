(** Which JSON values are requirements, as a specification: no function of the model is used. *)
From Coq Require Import Sorting.Sorted.
From Verif Require Import Base OMap Models Location Serialize.
Open Scope N_scope.

(** An entry of an object that is there once; that is not there. *)
Definition once (name : str) (l : list (str * json)) (v : json) : Prop :=
  exists l1 l2, l = l1 ++ (name, v) :: l2 /\ ~ In name (map fst l1) /\ ~ In name (map fst l2).
Definition absent (name : str) (l : list (str * json)) : Prop := ~ In name (map fst l).

(** Texts; numbers of 64 bits; `null` or a value; lists. *)
Definition a_text (v : json) (s : str) : Prop := v = JStr s.
Definition a_number (v : json) (n : N) : Prop := v = JNum n /\ n < 2 ^ 64.
Definition or_null {A} (P : json -> A -> Prop) (v : json) (o : option A) : Prop :=
  match o with None => v = JNull | Some a => v <> JNull /\ P v a end.
Definition a_list {A} (P : json -> A -> Prop) (v : json) (l : list A) : Prop :=
  exists vs, v = JArr vs /\ Forall2 P vs l.

(** An entry that is needed, and one that may be missing. *)
Definition entry {A} (P : json -> A -> Prop) (name : str) (l : list (str * json)) (a : A) : Prop :=
  exists v, once name l v /\ P v a.
Definition may_be {A} (P : json -> A -> Prop) (name : str) (l : list (str * json)) (o : option A) : Prop :=
  (absent name l /\ o = None) \/ exists v, once name l v /\ or_null P v o.

(** Attributes: the last value of each key counts; all values are texts. *)
Definition attributes_value (v : json) (m : list (str * str)) : Prop :=
  exists l, v = JObj l /\ (forall k x, In (k, x) l -> exists s, x = JStr s) /\
    StronglySorted lt (map fst m) /\
    forall k s, In (k, s) m <-> exists l1 l2, l = l1 ++ (k, JStr s) :: l2 /\ ~ In k (map fst l2).

(** The place within a file: an object with one entry that tells the kind. *)
Inductive place_value : json -> location_in_file -> Prop :=
| pv_line v n : a_number v n -> place_value (JObj [(L "Line", v)]) (Line n)
| pv_column v w n c : a_number v n -> a_number w c ->
    place_value (JObj [(L "LineAndColumn", JArr [v; w])]) (LineAndColumn n c)
| pv_string s : place_value (JObj [(L "String", JStr s)]) (LocString s).

(** Places, references and requirements: an object with the entries in any order, among others
    that are ignored; or an array with all values in the order of the fields. *)
Inductive location_value : json -> location -> Prop :=
| lv_object l f i : entry a_text (L "file") l f -> may_be place_value (L "location_in_file") l i ->
    location_value (JObj l) (mkLocation f i)
| lv_array v w f i : a_text v f -> or_null place_value w i -> location_value (JArr [v; w]) (mkLocation f i).

Inductive reference_value : json -> reference -> Prop :=
| rv_object l i t x : entry a_text (L "id") l i -> may_be a_text (L "title") l t ->
    entry location_value (L "location") l x -> reference_value (JObj l) (mkReference i t x)
| rv_array v1 v2 v3 i t x : a_text v1 i -> or_null a_text v2 t -> location_value v3 x ->
    reference_value (JArr [v1; v2; v3]) (mkReference i t x).

Inductive requirement_value : json -> requirement -> Prop :=
| qv_object l i t x c d g a :
    entry a_text (L "id") l i -> may_be a_text (L "title") l t -> entry location_value (L "location") l x ->
    entry (a_list reference_value) (L "covers") l c -> entry (a_list reference_value) (L "depends") l d ->
    entry (a_list a_text) (L "tags") l g -> entry attributes_value (L "attributes") l a ->
    requirement_value (JObj l) (mkRequirement i t x c d g a)
| qv_array v1 v2 v3 v4 v5 v6 v7 i t x c d g a :
    a_text v1 i -> or_null a_text v2 t -> location_value v3 x ->
    a_list reference_value v4 c -> a_list reference_value v5 d -> a_list a_text v6 g -> attributes_value v7 a ->
    requirement_value (JArr [v1; v2; v3; v4; v5; v6; v7]) (mkRequirement i t x c d g a).

(** The value of a JSON artefact. *)
Definition requirements_value : json -> list requirement -> Prop := a_list requirement_value.
