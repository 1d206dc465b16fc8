(** More in the graph: nothing gets uncovered or derived. *)
From Verif Require Import Base OMap Models Tracer TraceSpec TraceIndex TraceFacts TraceCor MetaSpec TraceMeta RelabelSpec.

Section Extends.
  Variables g g' : graph.
  Hypothesis WF : graph_wf g.
  Hypothesis WF' : graph_wf g'.
  Hypothesis EX : extends g g'.

  Lemma extends_before k id : In id (ids_of g k) -> defined_before g' k id = defined_before g k id.
  Proof.
    destruct EX as (_ & _ & HI & HN & _). intros Hid.
    destruct (defined_before g' k id) eqn:E', (defined_before g k id) eqn:E; try reflexivity.
    - apply (defined_before_iff g' k id WF') in E'. destruct E' as (k0 & Hc & H0).
      destruct (HN k0 id H0) as [H|H]; [|destruct (H k Hid)].
      assert (E2 : defined_before g k id = true) by (apply (defined_before_iff g k id WF); eauto). congruence.
    - apply (defined_before_iff g k id WF) in E. destruct E as (k0 & Hc & H0). apply HI in H0.
      assert (E2 : defined_before g' k id = true) by (apply (defined_before_iff g' k id WF'); eauto). congruence.
  Qed.

  Lemma extends_first k r : In r (first_defs g k) -> exists r', In r' (first_defs g' k) /\ req_id r' = req_id r.
  Proof.
    intros Hr. unfold first_defs in Hr. apply filter_In in Hr. destruct Hr as [Hr Hf].
    assert (Ir : In (req_id r) (ids_of g k)) by (apply in_ids; eauto).
    pose proof EX as (_ & _ & HI & _). pose proof (HI _ _ Ir) as Ir'. apply in_ids in Ir'.
    destruct Ir' as (r' & Hr' & Er). exists r'. split; [|exact Er]. apply filter_In. split; [exact Hr'|].
    rewrite Er, (extends_before _ _ Ir). exact Hf.
  Qed.

  Lemma extends_first_back k r' : In (req_id r') (ids_of g k) -> In r' (first_defs g' k) ->
    exists r, In r (first_defs g k) /\ req_id r = req_id r'.
  Proof.
    intros Ir Hr'. unfold first_defs in Hr'. apply filter_In in Hr'. destruct Hr' as [Hr' Hf].
    pose proof (proj1 (in_ids _ _ _) Ir) as (r & Hr & Er). exists r. split; [|exact Er].
    apply filter_In. split; [exact Hr|]. rewrite Er, <- (extends_before _ _ Ir). exact Hf.
  Qed.

  Lemma extends_link rel l : In rel (g_relations g) -> is_link g rel l ->
    exists l', is_link g' rel l' /\ req_id (lk_upper l') = req_id (lk_upper l) /\
      lk_lower_art l' = lk_lower_art l /\ req_id (lk_lower l') = req_id (lk_lower l).
  Proof.
    intros Hrel Hl. pose proof (link_connected g rel l Hl) as HC. destruct Hl as (Hu & Hla & Hlow & _).
    destruct (extends_first _ _ Hlow) as (low' & Hlow' & El).
    assert (Iu : In (req_id (lk_upper l)) (ids_of g (rel_upper rel))) by (apply in_ids; eauto).
    pose proof EX as (_ & _ & HI & _ & HK). apply HI in Iu. apply in_ids in Iu. destruct Iu as (up' & Hup' & Eu).
    apply (HK rel _ _ _ Hrel Hla) in HC.
    destruct (connected_link g' rel up' (lk_lower_art l) low' WF' Hup' Hla Hlow') as (l' & Hl' & E1 & E2 & E3).
    - rewrite Eu, El. exact HC.
    - exists l'. rewrite E1, E2, E3. auto.
  Qed.

  Lemma extends_uncovered rel id : In rel (g_relations g) -> In id (ids_of g (rel_upper rel)) ->
    In id (tr_uncovered (traced_of g' rel)) -> In id (tr_uncovered (traced_of g rel)).
  Proof.
    intros Hrel Iu. unfold traced_of. cbn [tr_uncovered]. rewrite !in_map_iff.
    intros (up' & Eu' & Hup'). apply filter_In in Hup'. destruct Hup' as [Hup' Hn].
    apply in_ids in Iu. destruct Iu as (up & Hup & Eu). exists up. split; [exact Eu|].
    apply filter_In. split; [exact Hup|].
    destruct (is_nil (links_of g rel up)) eqn:E; [reflexivity|]. exfalso.
    apply (is_nil_links_of g rel up Hup) in E. destruct E as (l & Hl & El).
    destruct (extends_link rel l Hrel Hl) as (l' & Hl' & E0 & _).
    rewrite El, Eu, <- Eu' in E0.
    assert (lk_upper l' = up').
    { pose proof (find_nodup_in _ _ (reqs_of_nodup g' WF' (rel_upper rel)) Hup') as F1.
      pose proof (find_nodup_in _ _ (reqs_of_nodup g' WF' (rel_upper rel)) (proj1 Hl')) as F2. rewrite E0 in F2. congruence. }
    assert (HC : covered_along g' rel up') by (exists l'; auto).
    apply (is_nil_links_of g' rel up' Hup') in HC. congruence.
  Qed.

  Lemma extends_covers k r r' : In r' (first_defs g' k) -> req_id r' = req_id r ->
    covers_something g k r -> covers_something g' k r'.
  Proof.
    intros Hr' Eid (rel & l & Hrel & Hl & Ea & El).
    destruct (extends_link rel l Hrel Hl) as (l' & Hl' & _ & Ea' & El').
    exists rel, l'. split; [apply EX; exact Hrel|]. split; [exact Hl'|]. split; [congruence|].
    assert (HF : In (lk_lower l') (first_defs g' k)) by (destruct Hl' as (_ & _ & HF & _); congruence).
    apply (first_defs_first_of g' WF') in HF. apply (first_defs_first_of g' WF') in Hr'.
    rewrite El', El, <- Eid in HF. congruence.
  Qed.
End Extends.

Lemma extends_trace g g' tg tg' : graph_wf g -> graph_wf g' -> extends g g' ->
  trace g = Done tg -> trace g' = Done tg' ->
  (forall tr tr' id, In tr (tg_relations tg) -> In tr' (tg_relations tg') -> tr_relation tr' = tr_relation tr ->
     In id (ids_of g (rel_upper (tr_relation tr))) -> In id (tr_uncovered tr') -> In id (tr_uncovered tr)) /\
  (forall k id d', In id (ids_of g k) -> oget k (tg_derived tg') = Some d' -> In id d' ->
     exists d, oget k (tg_derived tg) = Some d /\ In id d).
Proof.
  intros WF WF' EX TR TR'.
  destruct (trace_done _ WF _ TR) as (pc & pd & A1 & A2 & (A3 & A4 & A5) & _).
  destruct (trace_done _ WF' _ TR') as (pc' & pd' & B1 & B2 & (B3 & B4 & B5) & _). split.
  - intros tr tr' id Htr Htr' E Hid Hu. rewrite A2 in Htr. rewrite B2 in Htr'.
    apply in_map_iff in Htr. destruct Htr as (rel & <- & Hrel).
    apply in_map_iff in Htr'. destruct Htr' as (rel' & <- & Hrel'). cbn [traced_of tr_relation] in E, Hid. subst rel'.
    apply (extends_uncovered g g' WF WF' EX rel id Hrel Hid Hu).
  - intros k id d' Hid Hd' Hin.
    assert (exists a, oget k (g_artefacts g) = Some a) as [a Ha].
    { unfold ids_of, reqs_of in Hid. destruct (oget k (g_artefacts g)) as [a|]; [eauto|destruct Hid]. }
    assert (exists a', oget k (g_artefacts g') = Some a' /\ art_ignore_derived a' = art_ignore_derived a) as (a' & Ha' & Ei).
    { pose proof EX as (_ & HG & _). specialize (HG k (art_ignore_derived a)). unfold ignores in HG. rewrite Ha in HG.
      specialize (HG eq_refl). destruct (oget k (g_artefacts g')) as [a'|]; [|discriminate]. exists a'. cbn in HG. split; congruence. }
    destruct (A5 k a Ha) as (d & Hd & _ & HD). destruct (B5 k a' Ha') as (d2 & Hd2 & _ & HD').
    assert (d2 = d') by congruence. subst d2. exists d. split; [exact Hd|]. apply HD. apply HD' in Hin.
    destruct Hin as (Hi & r' & Hr' & Er' & Hno). split; [congruence|].
    rewrite <- Er' in Hid. destruct (extends_first_back g g' WF WF' EX k r' Hid Hr') as (r & Hr & Er).
    exists r. split; [exact Hr|]. split; [congruence|]. intros HC. apply Hno.
    apply (extends_covers g g' WF WF' EX k r r' Hr'); [congruence|exact HC].
Qed.
