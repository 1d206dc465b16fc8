(** Further theorems on C25 and C51 (lists of references in Markdown files), and C90: the order of the messages of
    the tracer.  Vocabulary: MdSpec.v, MdAttr.v, MdRefs.v, TraceSpec.v, TraceOrder.v; models: MdParser.v, Tracer.v. *)
From Verif Require Import TraceExamples.
From Verif Require Import Base OMap Models Unicode Utf8 Paths MdSyntax MdParser MdSpec MdFacts MdLines MdCor MdCor2 MdShift MdAttr
  MdRefs MdExamples Tracer TraceSpec TraceCor TraceOrder.
Open Scope N_scope.

#[local] Existing Instance ascii_tables.

(** C25: where it is true.  Directly after a list of references a line of white space is an empty line.
    ([pre]: the text before it, which ends in such a list.) *)
Theorem C25_after_list : forall {U : UnicodeTables} p pre w doc f,
  text_lines pre -> in_list pre -> forallb is_ws w = true -> ~ In NL w ->
  md_parse p (mkReader (pre ++ encode w ++ [NL] ++ doc) f) = md_parse p (mkReader (pre ++ [NL] ++ doc) f).
Proof. intros U p. exact (white_after_list p). Qed.
Print Assumptions C25_after_list.

Example C25_after_list_example :
  let pre := encode (L "# REQ_A: t
Covers:
* REQ_B
") in
  text_lines pre /\ in_list pre /\
  md_parse sample_path (mkReader (pre ++ encode [32; 9; 13] ++ [NL] ++ encode (L "Comment: c
")) None) =
  Done ([mkRequirement (L "REQ_A") (Some (L "t")) (at_line sample_path 1) [mkReference (L "REQ_B") None (at_line sample_path 3)] []
     [] [(L "Comment", L "c")]], []).
Proof.
  cbn zeta. split; [|split].
  - split; [vm_compute; discriminate|]. right. exists (encode (L "# REQ_A: t
Covers:
* REQ_B")). vm_compute. reflexivity.
  - exists [(1, L "# REQ_A: t
")], 2, (L "Covers:
"), [(3, L "* REQ_B
")], true, []. split; [vm_compute; reflexivity|].
    split; [exists 1, (L "# REQ_A: t
"); split; [reflexivity|right; vm_compute; discriminate]|].
    split; [split; [reflexivity|discriminate]|].
    split; [vm_compute; reflexivity|].
    intros x [<-|[]]. split; [split; [reflexivity|discriminate]|vm_compute; discriminate].
  - vm_compute. reflexivity.
Qed.

(** C51: where it is true.  After the heading or an empty line a Covers or Depends line starts a list, which is
    the only one of its name, and then the requirement has exactly the references on this line and those of the following lines
    as far as they end in a reference.  ([pre]: the lines of the requirement before it.) *)
Theorem C51_after_empty_line : forall {U : UnicodeTables} p r reqs errs s req pre n l rest cov first,
  md_parse p r = Done (reqs, errs) -> In s (doc_sections r) -> snd s = pre ++ (n, l) :: rest ->
  content l -> scan_attribute l = Some ((if cov : bool then COVERS else DEPENDS), first) ->
  sep pre -> quiet pre ->
  (forall k m, In k (map fst pre) -> ~ In (EFormat (at_line p k) m) errs) ->
  (forall x v, In x rest -> scan_attribute (snd x) <> Some ((if cov then COVERS else DEPENDS), v)) ->
  In req reqs -> req_location req = at_line p (fst (fst (section_head s))) ->
  (if cov then req_covers req else req_depends req) = inline_refs p n first ++ bullet_refs p (ref_run rest).
Proof. intros U p. exact (md_links_exact p). Qed.
Print Assumptions C51_after_empty_line.

Example C51_after_empty_line_example : let doc := "# REQ_A: t
Covers: REQ_X
* REQ_Y

Depends: REQ_B, REQ_C
* REQ_D: d
* REQ_E

Comment: c
"%string in
  exists s req reqs errs pre n l rest,
  md doc = Done (reqs, errs) /\ In s (doc_sections (file doc)) /\ snd s = pre ++ (n, l) :: rest /\
  content l /\ scan_attribute l = Some (DEPENDS, L "REQ_B, REQ_C") /\ sep pre /\ quiet pre /\ errs = [] /\
  (forall x v, In x rest -> scan_attribute (snd x) <> Some (DEPENDS, v)) /\
  In req reqs /\ req_location req = at_line sample_path (fst (fst (section_head s))) /\
  map ref_id (inline_refs sample_path n (L "REQ_B, REQ_C")) = [L "REQ_B"; L "REQ_C"] /\
  map ref_id (bullet_refs sample_path (ref_run rest)) = [L "REQ_D"; L "REQ_E"] /\
  map ref_id (req_depends req) = [L "REQ_B"; L "REQ_C"; L "REQ_D"; L "REQ_E"].
Proof.
  cbn zeta.
  set (doc := "# REQ_A: t
Covers: REQ_X
* REQ_Y

Depends: REQ_B, REQ_C
* REQ_D: d
* REQ_E

Comment: c
"%string).
  destruct (md doc) as [[reqs errs]|] eqn:E; vm_compute in E; [|discriminate]. inversion E as [[H1 H2]].
  exists (nth 0 (doc_sections (file doc)) (0, [], [], [])).
  eexists. exists reqs, errs.
  exists [(2, L "Covers: REQ_X
"); (3, L "* REQ_Y
"); (4, [NL])], 5, (L "Depends: REQ_B, REQ_C
"), [(6, L "* REQ_D: d
"); (7, L "* REQ_E
"); (8, [NL]); (9, L "Comment: c
")].
  subst reqs errs.
  split; [reflexivity|].
  split; [vm_compute; left; reflexivity|].
  split; [vm_compute; reflexivity|].
  split; [split; [reflexivity|discriminate]|].
  split; [vm_compute; reflexivity|].
  split; [right; exists [(2, L "Covers: REQ_X
"); (3, L "* REQ_Y
")], 4; reflexivity|].
  split; [intros x [<-|[<-|[<-|[]]]] [_ H]; vm_compute in H; discriminate|].
  split; [reflexivity|].
  split; [intros x v [<-|[<-|[<-|[<-|[]]]]] H; vm_compute in H; discriminate|].
  split; [left; reflexivity|].
  repeat split; vm_compute; reflexivity.
Qed.

(** C90: the messages come in this order: one for each repeated definition, by artefact and id; then relation by
    relation, as configured, the wrong and missing titles of its coverages, in order of coverage, and the
    UnusedRelation; then the unknown ids in covers lists, by that id and the id of the requirement; then the
    unknown ids in depends lists, by the id of the requirement and that id. *)
Theorem C90_order : forall g tg,
  graph_wf g -> trace g = Done tg ->
  exists ecs eds,
    tg_errors tg =
      flat_map (fun e => flat_map (dup_errors_of g (fst e)) (ovalues (art_requirements (snd e)))) (g_artefacts g) ++
      flat_map (fun rel => flat_map (link_errors g rel) (links g rel) ++ unused_errors g rel) (g_relations g) ++
      ecs ++ eds /\
    Forall (fun e => is_covers_unknown e = true) ecs /\ ssorted (flat_map covers_pair ecs) /\
    Forall (fun e => is_depends_unknown e = true) eds /\ ssorted (flat_map depends_pair eds).
Proof. intros g tg WF. exact (error_order g WF tg). Qed.
Print Assumptions C90_order.

(** A graph with several errors of each kind. *)
Definition many_errors := rgraph
  [ rart "A" true true [rreq "R1" (Some (L "one")) 1 [] [rref "Z" None 2; rref "Y" None 3]; rreq "R2" (Some (L "two")) 4 [] [rref "X" None 5]];
    rart "B" false false [rreq "S1" None 1 [rref "R1" (Some (L "eins")) 2; rref "U" None 3] []; rreq "S2" None 4 [rref "R2" None 5; rref "T" None 6] []];
    rart "C" false false [rreq "S1" None 1 [] []; rreq "S2" None 1 [] []] ] [AC; AB; AC].
Example C90_example :
  graph_wf many_errors /\ exists tg, trace many_errors = Done tg /\
  map (fun e => match e with
                | EDuplicateRequirement _ r => (1, req_id r, []) | ECoveredWithWrongTitle u l _ _ => (2, req_id u, req_id l)
                | EReferencedWithoutTitle u _ => (3, req_id u, []) | EUnusedRelation rel => (4, rel_upper rel, concat (rel_lower rel))
                | ECoversUnknownRequirement l u _ => (5, u, req_id l) | EDependOnUnknownRequirement u l _ => (6, req_id u, l)
                | _ => (7, [], []) end) (tg_errors tg) =
  [(1, L "S1", []); (1, L "S2", []); (4, L "A", L "C"); (2, L "R1", L "S1"); (3, L "R2", []); (4, L "A", L "C");
   (5, L "T", L "S2"); (5, L "U", L "S1"); (6, L "R1", L "Y"); (6, L "R1", L "Z"); (6, L "R2", L "X")].
Proof.
  split; [apply rgraph_wf; intros a [<-|[<-|[<-|[]]]]; apply rart_wf|].
  eexists. split; vm_compute; reflexivity.
Qed.
