(** Vocabulary: graphs that say the same, in other words and at other places; results of tracing that find the same. *)
From Verif Require Import Base OMap Models TraceSpec.

Definition same_reference (x y : reference) : Prop := ref_id x = ref_id y /\ ref_title x = ref_title y.
(** The same id, title and references; places, tags and attributes may be different. *)
Definition same_requirement (r s : requirement) : Prop :=
  req_id r = req_id s /\ req_title r = req_title s /\
  Forall2 same_reference (req_covers r) (req_covers s) /\ Forall2 same_reference (req_depends r) (req_depends s).
Definition same_requirements (m n : omap requirement_id requirement) : Prop :=
  Forall2 (fun e e' => fst e = fst e' /\ same_requirement (snd e) (snd e')) m n.
(** Files and errors of the input may be different. *)
Definition same_artefact (a b : artefact) : Prop :=
  art_id a = art_id b /\ art_ignore_derived a = art_ignore_derived b /\
  art_reference_with_title a = art_reference_with_title b /\ same_requirements (art_requirements a) (art_requirements b).
Definition same_artefacts (m n : omap artefact_id artefact) : Prop :=
  Forall2 (fun e e' => fst e = fst e' /\ same_artefact (snd e) (snd e')) m n.
Definition same_facts (g h : graph) : Prop :=
  g_relations g = g_relations h /\ same_artefacts (g_artefacts g) (g_artefacts h).

(** Equal up to places. *)
Definition same_coverage (c d : coverage) : Prop :=
  cov_upper c = cov_upper d /\ cov_lower c = cov_lower d /\ cov_direction c = cov_direction d.
Definition same_traced (s t : traced_relation) : Prop :=
  tr_relation s = tr_relation t /\ Forall2 same_coverage (tr_covered s) (tr_covered t) /\ tr_uncovered s = tr_uncovered t.
Definition same_error (e f : error) : Prop :=
  match e, f with
  | EDuplicateRequirement a b, EDuplicateRequirement a' b' => same_requirement a a' /\ same_requirement b b'
  | ECoveredWithWrongTitle u l t _, ECoveredWithWrongTitle u' l' t' _
  | EDependWithWrongTitle u l t _, EDependWithWrongTitle u' l' t' _ =>
      same_requirement u u' /\ same_requirement l l' /\ t = t'
  | EReferencedWithoutTitle r _, EReferencedWithoutTitle r' _ => same_requirement r r'
  | EDependOnUnknownRequirement r id _, EDependOnUnknownRequirement r' id' _
  | ECoversUnknownRequirement r id _, ECoversUnknownRequirement r' id' _ => same_requirement r r' /\ id = id'
  | EUnusedRelation rel, EUnusedRelation rel' => rel = rel'
  | _, _ => False
  end.
Definition same_findings (s t : traced_graph) : Prop :=
  Forall2 same_traced (tg_relations s) (tg_relations t) /\ tg_derived s = tg_derived t /\
  Forall2 same_error (tg_errors s) (tg_errors t).
