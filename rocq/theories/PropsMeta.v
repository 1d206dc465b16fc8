(** Properties C62 - C64: comparing the results for two graphs. Vocabulary: MetaSpec.v, TraceSpec.v; model: Tracer.v. *)
From Coq Require Import Permutation.
From Verif Require Import Base OMap Models Tracer TraceSpec TraceExamples MetaSpec TraceMeta.

(** C62: it does not matter at which side a connection is written, how often, or with which title. *)
Theorem C62_either_side : forall g g' tg,
  graph_wf g -> graph_wf g' -> same_shape g g' -> same_connections g g' -> trace g = Done tg ->
  exists tg', trace g' = Done tg' /\ tg_derived tg' = tg_derived tg /\
    map tr_relation (tg_relations tg') = map tr_relation (tg_relations tg) /\
    map tr_uncovered (tg_relations tg') = map tr_uncovered (tg_relations tg).
Proof. exact same_trace. Qed.
Print Assumptions C62_either_side.

Definition by_covers := rgraph
  [ rart "A" true false [rreq "R" None 1 [] []; rreq "Q" None 2 [] []];
    rart "B" false false [rreq "S" None 1 [rref "R" None 2; rref "R" (Some (L "x")) 3] []; rreq "T" None 4 [] []] ] [AB].
Definition by_depends := rgraph
  [ rart "A" true false [rreq "R" (Some (L "y")) 7 [] [rref "S" None 8]; rreq "Q" None 9 [] []];
    rart "B" false false [rreq "S" None 3 [] []; rreq "T" None 4 [] []] ] [AB].
Definition summary (g : graph) :=
  match trace g with Done t => Some (tg_derived t, map tr_uncovered (tg_relations t)) | Panic => None end.
Example C62_example :
  graph_wf by_covers /\ graph_wf by_depends /\ same_shape by_covers by_depends /\ same_connections by_covers by_depends /\
  summary by_covers = Some ([(L "A", []); (L "B", [L "T"])], [[L "Q"]]) /\ summary by_depends = summary by_covers.
Proof.
  split; [apply rgraph_wf; intros a [<-|[<-|[]]]; apply rart_wf|].
  split; [apply rgraph_wf; intros a [<-|[<-|[]]]; apply rart_wf|].
  split; [|split; [|split; vm_compute; reflexivity]].
  - split; [reflexivity|].
    assert (HK : forall g, okeys (g_artefacts g) = [L "A"; L "B"] -> forall k : artefact_id, k <> L "A" -> k <> L "B" -> oget k (g_artefacts g) = None).
    { intros g E k HA HB. apply oget_None. intros X. change (In k (okeys (g_artefacts g))) in X. rewrite E in X. destruct X as [X|[X|[]]]; congruence. }
    split; intros k; (destruct (eqb_spec k (L "A")) as [->|HA]; [vm_compute; reflexivity|]);
      (destruct (eqb_spec k (L "B")) as [->|HB]; [vm_compute; reflexivity|]); unfold ids_of, reqs_of, ignores;
      rewrite (HK by_covers eq_refl k HA HB), (HK by_depends eq_refl k HA HB); reflexivity.
  - intros rel la u l [<-|[]] [<-|[]] Hu Hl. rewrite <- !connectedb_iff. vm_compute in Hu, Hl.
    destruct Hu as [<-|[<-|[]]]; destruct Hl as [<-|[<-|[]]]; vm_compute; tauto.
Qed.

(** C63: a relation to several artefacts is the union of the relations to some and to the others. *)
Theorem C63_split : forall arts rels rels2 u ls1 ls2 tg,
  let g := mkGraph arts (rels ++ mkRelation u (ls1 ++ ls2) :: rels2) in
  let g' := mkGraph arts (rels ++ mkRelation u ls1 :: mkRelation u ls2 :: rels2) in
  graph_wf g -> trace g = Done tg ->
  exists tg' rs tr tr1 tr2 rs2, trace g' = Done tg' /\
    tg_derived tg' = tg_derived tg /\
    Permutation (filter not_unused (tg_errors tg)) (filter not_unused (tg_errors tg')) /\
    tg_relations tg = rs ++ tr :: rs2 /\ tg_relations tg' = rs ++ tr1 :: tr2 :: rs2 /\ map tr_relation rs = rels /\
    Permutation (tr_covered tr) (tr_covered tr1 ++ tr_covered tr2) /\
    forall id, In id (tr_uncovered tr) <-> In id (tr_uncovered tr1) /\ In id (tr_uncovered tr2).
Proof. exact split_trace. Qed.
Print Assumptions C63_split.

Definition three_arts := g_artefacts (rgraph
  [ rart "A" true false [rreq "R" None 1 [] []; rreq "Q" None 2 [] [rref "T" None 3]; rreq "P" None 4 [] []];
    rart "B" false false [rreq "S" None 1 [rref "R" None 2] []];
    rart "C" false false [rreq "T" None 1 [] []] ] []).
Definition uncovered_of (rels : list relation) :=
  match trace (mkGraph three_arts rels) with
  | Done t => Some (map tr_uncovered (tg_relations t), map (fun tr => length (tr_covered tr)) (tg_relations t), length (tg_errors t))
  | Panic => None
  end.
Example C63_example :
  graph_wf (mkGraph three_arts ([] ++ mkRelation (L "A") ([L "B"] ++ [L "C"]) :: [])) /\
  uncovered_of [mkRelation (L "A") [L "B"; L "C"]] = Some ([[L "P"]], [2%nat], 0%nat) /\
  uncovered_of [AB; AC] = Some ([[L "P"; L "Q"]; [L "P"; L "R"]], [1%nat; 1%nat], 0%nat).
Proof.
  split; [|split; vm_compute; reflexivity].
  assert (W : graph_wf (rgraph [ rart "A" true false [rreq "R" None 1 [] []; rreq "Q" None 2 [] [rref "T" None 3]; rreq "P" None 4 [] []];
    rart "B" false false [rreq "S" None 1 [rref "R" None 2] []]; rart "C" false false [rreq "T" None 1 [] []] ] [])).
  { apply rgraph_wf. intros a [<-|[<-|[<-|[]]]]; apply rart_wf. }
  exact W.
Qed.

(** C64: adding an artefact no relation names, with new ids, changes nothing about the others; its
    own requirements are derived and its references dangle. *)
Theorem C64_unconnected : forall arts rels k a tg,
  let g := mkGraph arts rels in
  graph_wf g -> trace g = Done tg -> artefact_wf a -> unconnected g k a ->
  exists tg', trace (mkGraph (oins k a arts) rels) = Done tg' /\
    tg_relations tg' = tg_relations tg /\
    (forall k0, k0 <> k -> oget k0 (tg_derived tg') = oget k0 (tg_derived tg)) /\
    oget k (tg_derived tg') = Some (if art_ignore_derived a then [] else okeys (art_requirements a)) /\
    (exists new, Permutation (tg_errors tg') (tg_errors tg ++ new) /\ NoDup new /\
       forall e, In e new <-> dangles_in a e).
Proof. exact frame_trace. Qed.
Print Assumptions C64_unconnected.

(** The id of the new artefact sorts between those of the others; its only reference is to a
    requirement that exists. *)
Definition new_art := rart "AA" false false [rreq "N" None 1 [rref "R1" None 2] []].
Example C64_example :
  unconnected sample (L "AA") new_art /\
  (let t' := match trace (mkGraph (oins (L "AA") new_art (g_artefacts sample)) (g_relations sample)) with
             | Done t => t | Panic => sample_traced end in
   oget (L "AA") (tg_derived t') = Some [L "N"] /\
   length (tg_errors t') = S (length (tg_errors sample_traced)) /\
   In (ECoversUnknownRequirement (rreq "N" None 1 [rref "R1" None 2] []) (L "R1") (at_line 2)) (tg_errors t')).
Proof.
  split.
  - split; [reflexivity|]. split; [vm_compute; intros H; repeat destruct H as [H|H]; discriminate || exact H|]. split.
    + intros r [<-|[]]. vm_compute. intros H; repeat destruct H as [H|H]; discriminate || exact H.
    + intros rel [<-|[<-|[]]]; (split; [discriminate|]); vm_compute; intros [H|[]]; discriminate.
  - split; [vm_compute; reflexivity|]. split; [vm_compute; reflexivity|]. vm_compute.
    repeat first [left; reflexivity | right].
Qed.
