(** Consequences for the reports and for JSON artefacts. *)
From Coq Require Import Permutation.
From Verif Require Import Base OMap Models Unicode Location Utf8 Show Sort Serialize JsonValues JsonValueFacts JsonSpec JsonRound MdFmt Formatters
  Controller TraceSpec FmtSpec FmtFacts FmtCor SerdeJson JsonGrammar SerdeFacts.
Open Scope N_scope.

(** Reading a report: the text is JSON, and whatever value it has according to the grammar, [get]
    finds [a] in it. *)
Definition reads {A} (get : json -> option A) (text : str) (a : A) : Prop :=
  (exists v, json_document text v) /\ forall v, json_document text v -> get v = Some a.

Lemma reads_written {A} (get : json -> option A) v a : plain v -> get v = Some a -> reads get (write_json 0 v) a.
Proof.
  intros Hp Hg. pose proof (write_document v Hp) as Hd. split; [exists v; exact Hd|].
  intros v' Hv'. rewrite (document_unique _ _ _ Hv' Hd). exact Hg.
Qed.

Lemma trace_text {D : Debug} {US : UnstableSort} {CT : CaseTables} tg :
  exists text, fmt_tracing (J := serde_json) tg Json = Done text /\ reads a_trace_report text (0, tg).
Proof.
  eexists. split; [reflexivity|]. apply reads_written; [apply plain_trace|apply trace_report_back].
Qed.
Lemma parse_text {D : Debug} {US : UnstableSort} {CT : CaseTables} g :
  exists text reqs errs,
    fmt_requirements (J := serde_json) g Json = Done text /\ reads a_parse_report text (0, reqs, errs) /\
    Permutation (all_reqs g) reqs /\ sorted_by req_id reqs /\ Permutation (all_errors g) errs /\ sorted_by show_error errs.
Proof.
  destruct (json_exact g) as (reqs & errs & E1 & E2 & H1 & H2 & _ & H3 & H4). eexists _, reqs, errs. split; [reflexivity|].
  split; [|auto]. apply reads_written; [apply plain_parse|exact E2].
Qed.

(** Two trace reports with the same text are of the same graph. *)
Lemma trace_text_inj {D : Debug} {US : UnstableSort} {CT : CaseTables} t1 t2 :
  fmt_tracing (J := serde_json) t1 Json = fmt_tracing (J := serde_json) t2 Json -> t1 = t2.
Proof.
  destruct (trace_text t1) as (x1 & -> & (v1 & D1) & H1), (trace_text t2) as (x2 & -> & _ & H2). intros E.
  injection E as <-. specialize (H1 _ D1). specialize (H2 _ D1). congruence.
Qed.

(** ** Files *)
(** The text of a file that can be read to its end. *)
Definition file_text (r : reader) (s : str) : Prop := read_to_string r = ROk s.

Lemma from_reader_spec r v : from_reader r = Some v <-> exists s, file_text r s /\ json_document s v.
Proof.
  unfold from_reader, file_text. destruct (read_to_string r) as [s|m].
  - rewrite read_json_spec. split; [intros H; exists s; auto|]. intros (s' & E & H). injection E as ->. exact H.
  - split; [discriminate|]. intros (s' & E & _). discriminate.
Qed.

Section Artefact.
  Context {I : Inputs}.
  Hypothesis read_by_serde : forall r, in_json r = from_reader r.

  Lemma json_parse_ok p r reqs :
    json_parse p r = (reqs, []) <->
    exists s v, file_text r s /\ json_document s v /\ requirements_value v reqs.
  Proof.
    unfold json_parse. rewrite read_by_serde. destruct (from_reader r) as [v|] eqn:E.
    - apply from_reader_spec in E. destruct E as (s & Hs & Hv).
      split.
      + destruct (unjson_requirements v) as [reqs'|] eqn:U; [|discriminate]. intros H; injection H as <-. exists s, v. rewrite <- unjson_requirements_exact. auto.
      + intros (s' & v' & Hs' & Hv' & U). apply unjson_requirements_exact in U. unfold file_text in *. rewrite Hs in Hs'. injection Hs' as <-.
        rewrite (document_unique _ _ _ Hv Hv'), U. reflexivity.
    - split; [discriminate|]. intros (s & v & Hs & Hv & _).
      assert (H : from_reader r = Some v) by (apply from_reader_spec; exists s; auto). congruence.
  Qed.
  Lemma json_parse_bad p r : (forall reqs, json_parse p r <> (reqs, [])) ->
    json_parse p r = ([], [EFormat (new_with_no_pos p) (in_json_error r)]).
  Proof.
    unfold json_parse. destruct (in_json r) as [v|]; [|reflexivity].
    destruct (unjson_requirements v) as [reqs|]; [|reflexivity]. intros H. destruct (H reqs eq_refl).
  Qed.
  Lemma json_parse_round p r s reqs : Forall fits reqs -> file_text r s ->
    json_document s (JArr (map json_requirement reqs)) -> json_parse p r = (reqs, []).
  Proof. intros H1 H2 H3. apply json_parse_ok. exists s, (JArr (map json_requirement reqs)). rewrite <- unjson_requirements_exact. auto using json_round. Qed.
End Artefact.
