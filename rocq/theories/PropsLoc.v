(** Properties C29, C30: locations.
    Vocabulary: LocFacts.v (decimal, splits_best), LocRound.v (ends_in_number, bad_number, place); model:
    Location.v. *)
From Verif Require Import Base OMap Models Unicode Location LocFacts LocRound.
Open Scope N_scope.

(** C29: exactly these locations are recovered from their text. *)
Theorem C29_round_trip : forall {U : UnicodeTables} loc,
  in_range loc ->
  parse_location (show_location loc) = Done (inl loc) <->
  loc_file loc <> [] /\ ~ In NL (loc_file loc) /\
  match loc_in_file loc with
  | Some (LineAndColumn _ _) => True
  | Some (Line _) | None => ~ ends_in_number (loc_file loc)
  | Some (LocString _) => False
  end.
Proof. intros U. exact location_round_trip. Qed.
Print Assumptions C29_round_trip.

(** What is accepted: the split with the shortest file name. *)
Theorem C29_accepts : forall {U : UnicodeTables} s loc,
  parse_location s = Done (inl loc) <->
  ~ In NL s /\
  match loc_in_file loc with
  | None => splits_best s (loc_file loc) None None
  | Some (Line n) => exists d, splits_best s (loc_file loc) (Some d) None /\ decimal d n /\ n < 2 ^ 64
  | Some (LineAndColumn n m) =>
      exists d e, splits_best s (loc_file loc) (Some d) (Some e) /\
        (decimal d n /\ n < 2 ^ 64) /\ (decimal e m /\ m < 2 ^ 64)
  | Some (LocString _) => False
  end.
Proof. intros U. exact parse_location_ok. Qed.
Print Assumptions C29_accepts.

(** It never panics, and what is rejected. *)
Theorem C29_total : forall {U : UnicodeTables} s, exists x, parse_location s = Done x.
Proof. intros U. exact parse_location_total. Qed.
Print Assumptions C29_total.

Theorem C29_rejects : forall {U : UnicodeTables} s,
  (exists e, parse_location s = Done (inr e)) <->
  s = [] \/ In NL s \/
  exists f l c, splits_best s f l c /\
    exists d, (l = Some d \/ c = Some d) /\ ~ exists n, decimal d n /\ n < 2 ^ 64.
Proof. intros U. exact parse_location_fails. Qed.
Print Assumptions C29_rejects.

(** The error texts: the line is read before the column. *)
Theorem C29_messages : forall {U : UnicodeTables} s,
  ((s = [] \/ In NL s) -> parse_location s = Done (inr (L "Invalid Location"))) /\
  forall f d c, ~ In NL s -> splits_best s f (Some d) c ->
    ((~ exists n, decimal d n /\ n < 2 ^ 64) ->
     exists m, bad_number d m /\ parse_location s = Done (inr (L "Error parsing line " ++ d ++ L ": " ++ m))) /\
    forall e, c = Some e -> (exists n, decimal d n /\ n < 2 ^ 64) -> (~ exists n, decimal e n /\ n < 2 ^ 64) ->
     exists m, bad_number e m /\ parse_location s = Done (inr (L "Error parsing column " ++ e ++ L ": " ++ m)).
Proof. intros U. exact parse_location_message. Qed.
Print Assumptions C29_messages.

Example C29_example :
  let loc := mkLocation (L "a:7/b.md:3") (Some (LineAndColumn 42 0)) in
  in_range loc /\ show_location loc = L "a:7/b.md:3:42:0" /\ parse_location (show_location loc) = Done (inl loc).
Proof. cbn zeta. split; [split; reflexivity|]. split; vm_compute; reflexivity. Qed.
Example C29_example_lost :
  parse_location (show_location (mkLocation (L "b.md:3") (Some (Line 42)))) =
  Done (inl (mkLocation (L "b.md") (Some (LineAndColumn 3 42)))).
Proof. vm_compute. reflexivity. Qed.
Example C29_example_rejected :
  parse_location (L "a:99999999999999999999") =
  Done (inr (L "Error parsing line 99999999999999999999: number too large to fit in target type")).
Proof. vm_compute. reflexivity. Qed.

(** C30: the order of positions is that of the places they denote. *)
Theorem C30_order : forall x y,
  cmp_in_file x y =
  match x, y with
  | LocString s, LocString t => Some (cmp s t)
  | _, _ => match place x, place y with
            | Some a, Some b => Some (cmp a b)
            | _, _ => None
            end
  end.
Proof. exact cmp_in_file_exact. Qed.
Print Assumptions C30_order.

Theorem C30_dual : forall x y, cmp_in_file y x = option_map CompOpp (cmp_in_file x y).
Proof. exact cmp_in_file_dual. Qed.
Print Assumptions C30_dual.

Theorem C30_transitive : forall x y z o,
  cmp_in_file x y = Some o -> cmp_in_file y z = Some o -> cmp_in_file x z = Some o.
Proof. exact cmp_in_file_trans. Qed.
Print Assumptions C30_transitive.

(** Equal in the order, but different values: [PartialOrd] disagrees with [PartialEq]. *)
Theorem C30_consistent_refuted :
  ~ forall x y, cmp_in_file x y = Some Eq -> x = y.
Proof. intros H. specialize (H (Line 3) (LineAndColumn 3 0) eq_refl). discriminate. Qed.
Print Assumptions C30_consistent_refuted.

(** Requirements are compared by their ids, byte by byte in UTF-8, that is by code points, and by
    nothing else. *)
Theorem C30_requirements : forall x y, cmp_requirement x y = Some (cmp (req_id x) (req_id y)).
Proof. reflexivity. Qed.
Print Assumptions C30_requirements.

Theorem C30_requirements_refuted :
  ~ forall x y, cmp_requirement x y = Some Eq -> x = y.
Proof.
  intros H. specialize (H (mkRequirement (L "R") None (new_with_no_pos (L "a")) [] [] [] [])
                          (mkRequirement (L "R") None (new_with_no_pos (L "b")) [] [] [] []) eq_refl).
  discriminate.
Qed.
Print Assumptions C30_requirements_refuted.
