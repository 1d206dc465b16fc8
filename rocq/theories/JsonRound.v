(** The JSON reports can be read back. *)
From Coq Require Import Permutation.
From Verif Require Import Base OMap Models Show Sort Serialize JsonSpec.
Open Scope N_scope.

Lemma all_map {A B} (f : B -> option A) (h : A -> B) l :
  (forall a, f (h a) = Some a) -> all f (map h l) = Some l.
Proof. intros H. induction l as [|a l IH]; cbn [map all]; [reflexivity|]. rewrite H, IH. reflexivity. Qed.
Lemma elements_jlist {A} (f : json -> option A) h l :
  (forall a, f (h a) = Some a) -> elements f (jlist h l) = Some l.
Proof. intros H. apply all_map. exact H. Qed.
Lemma elements_arr {A} (f : json -> option A) h l :
  (forall a, f (h a) = Some a) -> elements f (JArr (map h l)) = Some l.
Proof. intros H. apply all_map. exact H. Qed.
Lemma entries_jmap {A} (f : json -> option A) h (m : list (str * A)) :
  (forall a, f (h a) = Some a) -> entries f (jmap h m) = Some m.
Proof.
  intros H. unfold jmap. cbn [entries]. apply (all_map _ (fun e : str * A => (fst e, h (snd e)))).
  intros [k a]. cbn [fst snd]. rewrite H. reflexivity.
Qed.
Lemma maybe_text o : maybe text (jopt JStr o) = Some o.
Proof. destruct o; reflexivity. Qed.
Lemma elements_text l : elements text (jlist JStr l) = Some l.
Proof. apply elements_jlist. reflexivity. Qed.
Lemma entries_text m : entries text (jmap JStr m) = Some m.
Proof. apply entries_jmap. reflexivity. Qed.

Lemma place_in_file_back i : a_place_in_file (json_in_file i) = Some i.
Proof. destruct i; reflexivity. Qed.
Lemma maybe_place o : maybe a_place_in_file (jopt json_in_file o) = Some o.
Proof. destruct o as [i|]; [|reflexivity]. destruct i; reflexivity. Qed.
Lemma location_back l : a_location (json_location l) = Some l.
Proof.
  destruct l as [f o]. unfold a_location, json_location. cbn -[maybe jopt a_place_in_file json_in_file].
  rewrite maybe_place. reflexivity.
Qed.
Lemma reference_back r : a_reference (json_reference r) = Some r.
Proof.
  destruct r as [i t l]. unfold a_reference, json_reference. cbn -[maybe jopt a_location json_location].
  rewrite maybe_text. cbn [bind]. rewrite location_back. reflexivity.
Qed.
Lemma requirement_back r : a_requirement (json_requirement r) = Some r.
Proof.
  destruct r as [i t l c d g m]. unfold a_requirement, json_requirement.
  cbn -[maybe jopt a_location json_location elements jlist entries jmap].
  rewrite maybe_text. cbn [bind]. rewrite location_back. cbn [bind].
  rewrite !(elements_jlist _ _ _ reference_back). cbn [bind]. rewrite elements_text. cbn [bind].
  rewrite entries_text. reflexivity.
Qed.
Lemma relation_back r : a_relation (JObj (json_relation_fields r)) = Some r.
Proof.
  destruct r as [u l]. unfold a_relation, json_relation_fields. cbn -[elements jlist].
  rewrite elements_text. reflexivity.
Qed.
Ltac back := repeat (cbn [bind]; first [rewrite location_back | rewrite requirement_back | rewrite relation_back]); reflexivity.
Lemma error_back e : an_error (json_error e) = Some e.
Proof.
  destruct e; unfold an_error, json_error, variant, choice;
    cbn -[a_location json_location a_requirement json_requirement a_relation json_relation_fields]; back.
Qed.
Lemma artefact_back a : an_artefact (json_artefact a) = Some a.
Proof.
  destruct a as [i f b t m es]. unfold an_artefact, json_artefact.
  cbn -[elements jlist entries jmap]. rewrite elements_text. cbn [bind].
  rewrite (entries_jmap _ _ _ requirement_back). cbn [bind]. rewrite (elements_jlist _ _ _ error_back). reflexivity.
Qed.
Lemma coverage_back c : a_coverage (json_coverage c) = Some c.
Proof.
  destruct c as [u l loc d]. unfold a_coverage, json_coverage. cbn -[a_location json_location a_direction].
  rewrite location_back. destruct d; reflexivity.
Qed.
Lemma traced_relation_back t : a_traced_relation (json_traced_relation t) = Some t.
Proof.
  destruct t as [[u l] c n]. unfold a_traced_relation, json_traced_relation, a_relation, json_relation_fields.
  cbn -[elements jlist]. rewrite elements_text. cbn [bind]. rewrite (elements_jlist _ _ _ coverage_back).
  cbn [bind]. rewrite elements_text. reflexivity.
Qed.
Lemma traced_graph_back t : a_traced_graph (json_traced_graph t) = Some t.
Proof.
  destruct t as [arts rels der errs]. unfold a_traced_graph, json_traced_graph.
  cbn -[elements jlist entries jmap]. rewrite (entries_jmap _ _ _ artefact_back). cbn [bind].
  rewrite (elements_jlist _ _ _ traced_relation_back). cbn [bind].
  rewrite (entries_jmap _ _ _ elements_text). cbn [bind]. rewrite (elements_jlist _ _ _ error_back). reflexivity.
Qed.

Lemma trace_report_back t : a_trace_report (json_trace t) = Some (0, t).
Proof.
  unfold a_trace_report, json_trace. cbn -[a_traced_graph json_traced_graph]. rewrite traced_graph_back. reflexivity.
Qed.
Lemma parse_report_back {US : UnstableSort} reqs errs :
  a_parse_report (json_requirements reqs errs) = Some (0, sort_by req_id reqs, sort_errors errs).
Proof.
  unfold a_parse_report, json_requirements. cbn -[elements jlist sort_by sort_errors].
  rewrite (elements_jlist _ _ _ requirement_back). cbn [bind]. rewrite (elements_jlist _ _ _ error_back). reflexivity.
Qed.
