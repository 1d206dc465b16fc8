(** Concrete graphs used as non-vacuity witnesses and counterexamples. *)
From Verif Require Import Base OMap Models Tracer TraceSpec.

Definition at_line (n : N) : location := new_with_line_no (L "file") n.
Definition rref (id : string) (t : option str) (n : N) := mkReference (L id) t (at_line n).
Definition rreq (id : string) (t : option str) (n : N) (covers depends : list reference) :=
  mkRequirement (L id) t (at_line n) covers depends [] [].
Definition rart (id : string) (ign rwt : bool) (rs : list requirement) : artefact :=
  mkArtefact (L id) [] ign rwt (ocollect (map (fun r => (req_id r, r)) rs)) [].
Definition rgraph (arts : list artefact) (rels : list relation) : graph :=
  mkGraph (ocollect (map (fun a => (art_id a, a)) arts)) rels.

(** Graphs built by collecting into the two maps are well formed. *)
Lemma rart_wf id ign rwt rs : artefact_wf (rart id ign rwt rs).
Proof.
  split; cbn; [apply ocollect_sorted|].
  intros k r Hin. apply In_oget in Hin; [|apply ocollect_sorted].
  rewrite oget_ocollect in Hin. apply oget_Some_In in Hin. apply in_rev in Hin.
  apply in_map_iff in Hin. destruct Hin as (x & He & _). congruence.
Qed.

Lemma rgraph_wf arts rels : (forall a, In a arts -> artefact_wf a) -> graph_wf (rgraph arts rels).
Proof.
  intros Ha. split; cbn; [apply ocollect_sorted|].
  intros k a Hin. apply In_oget in Hin; [|apply ocollect_sorted].
  rewrite oget_ocollect in Hin. apply oget_Some_In in Hin. apply in_rev in Hin.
  apply in_map_iff in Hin. destruct Hin as (x & He & Hx). inversion He; subst. auto.
Qed.

(** A graph that triggers every tracing error at least once. *)
Definition upper_art := rart "A" true true
  [ rreq "R1" (Some (L "one")) 1 [] [rref "S1" (Some (L "wrong")) 2];
    rreq "R2" (Some (L "two")) 5 [] [rref "NOPE" None 6];
    rreq "R3" (Some (L "three")) 8 [] [] ].
Definition lower_art := rart "B" false false
  [ rreq "S1" (Some (L "ess")) 1 [rref "R1" None 2] [];
    rreq "S2" None 5 [rref "R2" (Some (L "two")) 6; rref "GONE" None 7] [];
    rreq "S3" None 9 [] [] ].
Definition dup_art := rart "C" false false
  [ rreq "S3" None 1 [] []; rreq "T1" None 3 [] [] ].
Definition AB := mkRelation (L "A") [L "B"].
Definition AC := mkRelation (L "A") [L "C"].
Definition sample := rgraph [upper_art; lower_art; dup_art] [AB; AC].

Lemma sample_wf : graph_wf sample.
Proof. apply rgraph_wf. intros a [<-|[<-|[<-|[]]]]; apply rart_wf. Qed.

Definition sample_traced : traced_graph :=
  match trace sample with Done t => t | Panic => mkTracedGraph [] [] [] [] end.
Lemma sample_done : trace sample = Done sample_traced.
Proof. vm_compute. reflexivity. Qed.

(** Duplicate ids: the second definition of "X" (artefact "C") has a dangling reference. *)
Definition dup_dangling := rgraph
  [ rart "A" true false [rreq "R" None 1 [] []];
    rart "B" false false [rreq "X" None 1 [rref "R" None 2] []];
    rart "C" false false [rreq "X" None 1 [rref "MISSING" None 2] []] ] [AB; AC].
Lemma dup_dangling_wf : graph_wf dup_dangling.
Proof. apply rgraph_wf. intros a [<-|[<-|[<-|[]]]]; apply rart_wf. Qed.

(** Duplicate ids as upper requirement: "R" of "A" depends on "S" of "B", but only the relation
    from the other definition's artefact "A2" reaches "B". *)
Definition dup_masked := rgraph
  [ rart "A" true false [rreq "R" None 1 [] [rref "S" None 2]];
    rart "A2" true false [rreq "R" None 1 [] [rref "S" None 2]];
    rart "B" false false [rreq "S" None 1 [] []] ]
  [ mkRelation (L "A2") [L "B"] ].
Lemma dup_masked_wf : graph_wf dup_masked.
Proof. apply rgraph_wf. intros a [<-|[<-|[<-|[]]]]; apply rart_wf. Qed.

(** A relation from an empty artefact to an unknown one. *)
Definition empty_upper := rgraph [rart "A" true true []] [AB].
Lemma empty_upper_wf : graph_wf empty_upper.
Proof. apply rgraph_wf. intros a [<-|[]]. apply rart_wf. Qed.

(** "S" covers "R" with the title of its first definition (artefact "A"), but the relation starts
    at the artefact "A2" of the second definition. *)
Definition dup_upper := rgraph
  [ rart "A" true false [rreq "R" (Some (L "one")) 1 [] []];
    rart "A2" true false [rreq "R" (Some (L "two")) 5 [] []];
    rart "B" false false [rreq "S" None 1 [rref "R" (Some (L "one")) 2] []] ]
  [ mkRelation (L "A2") [L "B"] ].
Lemma dup_upper_wf : graph_wf dup_upper.
Proof. apply rgraph_wf. intros a [<-|[<-|[<-|[]]]]; apply rart_wf. Qed.

(** "R" depends on "X", first defined in "B" and again in "C"; both are below "A". *)
Definition dup_lower := rgraph
  [ rart "A" true false [rreq "R" None 1 [] [rref "X" (Some (L "no")) 2]];
    rart "B" false false [rreq "X" (Some (L "b")) 1 [] []];
    rart "C" false false [rreq "X" (Some (L "c")) 1 [] []] ] [AB; AC].
