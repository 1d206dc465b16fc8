(** What is expected of the functions of Api.v. *)
From Verif Require Import Base OMap Models Unicode Location Api Serialize JsonSpec.
Open Scope N_scope.

(** A reader of the list of errors. *)
Definition an_error_list (v : json) : option (N * list error) :=
  let? n := member "version" number v in
  let? errs := member "errors" (JsonSpec.elements an_error) v in
  Some (n, errs).

Section Calls.
  Context {U : UnicodeTables}.
  Definition is_location (s : str) : bool := match parse_location s with Done (inl _) => true | _ => false end.
  Definition call_ok (x : call) : bool :=
    match x with CallLocation s | CallCovers _ _ s | CallDepends _ _ s => is_location s | _ => true end.
  (** The location a text stands for. *)
  Definition the_location (s : str) : location := match parse_location s with Done (inl l) => l | _ => mkLocation [] None end.

  (** What the calls ask for. *)
  Definition titles (l : list call) : list str := flat_map (fun x => match x with CallTitle s => [s] | _ => [] end) l.
  Definition locations (l : list call) : list location := flat_map (fun x => match x with CallLocation s => [the_location s] | _ => [] end) l.
  Definition covers_calls (l : list call) : list reference :=
    flat_map (fun x => match x with CallCovers id t s => [mkReference id t (the_location s)] | _ => [] end) l.
  Definition depends_calls (l : list call) : list reference :=
    flat_map (fun x => match x with CallDepends id t s => [mkReference id t (the_location s)] | _ => [] end) l.
  Definition either_calls (l : list call) : list reference :=
    flat_map (fun x => match x with CallCovers id t s | CallDepends id t s => [mkReference id t (the_location s)] | _ => [] end) l.
  Definition tag_calls (l : list call) : list str := flat_map (fun x => match x with CallTag t => [t] | _ => [] end) l.
  Definition attribute_calls (l : list call) : list (str * str) := flat_map (fun x => match x with CallAttribute k v => [(k, v)] | _ => [] end) l.
  (** The last one, if any. *)
  Definition last_of {A} (l : list A) : option A := match rev l with a :: _ => Some a | [] => None end.
End Calls.
