(** Chains of coverages. *)
From Coq Require Import Relations.
From Verif Require Import Base OMap Models Tracer TraceSpec TraceFacts TraceCor Unicode Location Show Sort Aggregator Tags
  Serialize GnuErr MdFmt Formatters FmtSpec FmtFacts Utf8 Paths Controller CtlSpec CtlFacts CtlCor JobFacts JobCor E2ESpec E2E.

(** Directly above: some relation requires [k] to be covered by requirements of [k'], among others. *)
Definition above (g : graph) (k k' : artefact_id) : Prop :=
  exists rel, In rel (g_relations g) /\ rel_upper rel = k /\ In k' (rel_lower rel).
Definition no_loops (g : graph) : Prop := forall k, ~ clos_trans _ (above g) k k.
(** No relation requires the requirements of [k] to be covered. *)
Definition leaf (g : graph) (k : artefact_id) : Prop := forall rel, In rel (g_relations g) -> rel_upper rel <> k.

(** The traced graph says that [l] covers [u]. *)
Definition covered_by (tg : traced_graph) (u l : requirement_id) : Prop :=
  exists tr c, In tr (tg_relations tg) /\ In c (tr_covered tr) /\ cov_upper c = u /\ cov_lower c = l.
Definition chain (tg : traced_graph) : requirement_id -> requirement_id -> Prop := clos_refl_trans _ (covered_by tg).

(** ** A finite relation without loops is well founded *)
Section Finite.
  Context {A : Type} (dec : forall x y : A, {x = y} + {x <> y}) (R : A -> A -> Prop) (dom : list A).
  Hypothesis loops : forall x, ~ clos_trans A R x x.

  (** [P] holds for [x] if it does for all that follow it, provided that what is followed by something is in [dom]. *)
  Lemma finite_ind (P : A -> Prop) :
    (forall x, In x dom -> (forall y, R x y -> P y) -> P x) -> (forall x, ~ In x dom -> P x) -> forall x, P x.
  Proof.
    intros H1 H2.
    assert (G : forall n seen x, (length dom <= n + length seen)%nat -> NoDup seen -> incl seen dom ->
              (forall y, In y seen -> clos_trans A R y x) -> P x).
    { induction n as [|n IH]; intros seen x Hl HN HI HS.
      - destruct (in_dec dec x dom) as [Hx|Hx]; [|exact (H2 x Hx)]. exfalso.
        destruct (in_dec dec x seen) as [Hs|Hs]; [exact (loops x (HS x Hs))|].
        assert (HN' : NoDup (x :: seen)) by (constructor; assumption).
        assert (HI' : incl (x :: seen) dom) by (intros y [<-|Hy]; auto).
        pose proof (NoDup_incl_length HN' HI') as HL. cbn in HL, Hl. lia.
      - destruct (in_dec dec x dom) as [Hx|Hx]; [|exact (H2 x Hx)].
        destruct (in_dec dec x seen) as [Hs|Hs]; [destruct (loops x (HS x Hs))|].
        apply H1; [exact Hx|]. intros y Hy. apply (IH (x :: seen)).
        + cbn. lia.
        + constructor; assumption.
        + intros z [<-|Hz]; auto.
        + intros z [<-|Hz]; [apply t_step; exact Hy|]. eapply t_trans; [apply HS; exact Hz|apply t_step; exact Hy]. }
    intros x. apply (G (length dom) [] x); [lia|constructor|intros y []|intros y []].
  Qed.
End Finite.

Lemma flip_trans {A} (R : A -> A -> Prop) x y : clos_trans A (fun a b => R b a) x y -> clos_trans A R y x.
Proof. induction 1; [apply t_step; assumption|eapply t_trans; eassumption]. Qed.

Section Chain.
  Variables (g : graph) (tg : traced_graph).
  Hypotheses (WF : graph_wf g) (TR : trace g = Done tg).

  Lemma covered_by_step u l : covered_by tg u l ->
    exists k k' up low, above g k k' /\ In up (reqs_of g k) /\ req_id up = u /\ In low (first_defs g k') /\ req_id low = l.
  Proof.
    intros (tr & c & Ht & Hc & <- & <-).
    destruct (coverage_exact g WF tg TR tr c Ht) as [Hr HE]. apply HE in Hc. destruct Hc as (lk & HL & <-).
    destruct HL as (Hu & Hla & Hlow & _). exists (rel_upper (tr_relation tr)), (lk_lower_art lk), (lk_upper lk), (lk_lower lk).
    split; [exists (tr_relation tr); auto|]. destruct lk as [up la low rf d]; cbn in *. destruct d; cbn; auto.
  Qed.

  (** ** Down to the leaves *)
  Lemma chain_down : no_loops g -> (forall tr, In tr (tg_relations tg) -> tr_uncovered tr = []) ->
    forall k r, In r (reqs_of g k) ->
    exists k' r', chain tg (req_id r) (req_id r') /\ In r' (reqs_of g k') /\ leaf g k'.
  Proof.
    intros HL HU. 
    apply (finite_ind (fun x y : artefact_id => list_eq_dec N.eq_dec x y) (above g) (map rel_upper (g_relations g)) HL
      (fun k => forall r, In r (reqs_of g k) -> exists k' r', chain tg (req_id r) (req_id r') /\ In r' (reqs_of g k') /\ leaf g k')).
    - intros k Hk IH r Hr. apply in_map_iff in Hk. destruct Hk as (rel & Ek & Hrel).
      destruct (trace_done g WF tg TR) as (pc & pd & _ & HR & _).
      assert (Ht : exists tr, In tr (tg_relations tg) /\ tr_relation tr = rel).
      { rewrite HR. eexists. split; [apply in_map; exact Hrel|reflexivity]. }
      destruct Ht as (tr & Ht & Er). destruct (uncovered_exact g WF tg TR tr Ht) as [_ HX].
      destruct (existsb (fun c => eqb (cov_upper c) (req_id r)) (tr_covered tr)) eqn:EX.
      + apply existsb_exists in EX. destruct EX as (c & Hc & Ec). destruct (eqb_spec (cov_upper c) (req_id r)) as [Eu|]; [|discriminate].
        destruct (coverage_first g WF tg TR tr c Ht Hc) as (la & low & Hla & Hlow & Hf & _).
        assert (El : req_id low = cov_lower c).
        { unfold first_of in Hf. apply find_some in Hf. destruct Hf as [_ Hf].
          destruct (eqb_spec (req_id low) (cov_lower c)); [assumption|discriminate]. }
        assert (HA : above g k la) by (exists rel; rewrite <- Er in *; auto).
        destruct (IH la HA low Hlow) as (k' & r' & HC & Hr' & Hlf).
        exists k', r'. split; [|auto]. eapply rt_trans; [apply rt_step|exact HC].
        exists tr, c. auto.
      + exfalso. assert (Hin : In (req_id r) (tr_uncovered tr)).
        { apply HX. rewrite Er, Ek. split; [apply in_map; exact Hr|]. intros (c & Hc & Ec).
          apply not_true_iff_false in EX. apply EX. apply existsb_exists. exists c. split; [exact Hc|]. rewrite Ec. apply eqb_refl. }
        rewrite (HU tr Ht) in Hin. destruct Hin.
    - intros k Hk r Hr. exists k, r. split; [apply rt_refl|]. split; [exact Hr|].
      intros rel Hrel E. apply Hk. apply in_map_iff. exists rel. auto.
  Qed.

  (** ** Up to the artefacts that may have derived requirements *)
  Lemma chain_up : no_loops g -> unique_ids g -> (forall k d, oget k (tg_derived tg) = Some d -> d = []) ->
    forall k r, In r (reqs_of g k) ->
    exists k' a' r', chain tg (req_id r') (req_id r) /\ oget k' (g_artefacts g) = Some a' /\
      In r' (ovalues (art_requirements a')) /\ art_ignore_derived a' = true.
  Proof.
    intros HL HU HD.
    set (P := fun k => forall r, In r (reqs_of g k) -> exists k' a' r', chain tg (req_id r') (req_id r) /\
      oget k' (g_artefacts g) = Some a' /\ In r' (ovalues (art_requirements a')) /\ art_ignore_derived a' = true).
    assert (HL' : forall k, ~ clos_trans _ (fun a b => above g b a) k k).
    { intros k H. apply (HL k). apply flip_trans. exact H. }
    apply (finite_ind (fun x y : artefact_id => list_eq_dec N.eq_dec x y) (fun a b => above g b a)
             (flat_map rel_lower (g_relations g)) HL' P).
    - intros k _ IH r Hr. unfold reqs_of in Hr. destruct (oget k (g_artefacts g)) as [a|] eqn:Ea; [|destruct Hr].
      destruct (art_ignore_derived a) eqn:Ei.
      { exists k, a, r. split; [apply rt_refl|auto]. }
      assert (Hr' : In r (reqs_of g k)) by (unfold reqs_of; rewrite Ea; exact Hr).
      pose proof Hr' as Hf. rewrite <- (unique_first_defs g WF k HU) in Hf.
      destruct (derived_exact g WF tg TR k a Ea) as (d & Ed & _ & HX). rewrite (HD k d Ed) in HX.
      assert (HC : covers_something g k r).
      { destruct (existsb (covers_along g k r) (g_relations g)) eqn:EX; [apply (covers_along_spec g WF k r Hf) in EX; assumption|].
        exfalso. apply (proj2 (HX (req_id r))). split; [exact Ei|]. exists r. split; [exact Hf|]. split; [reflexivity|].
        intros H. apply (covers_along_spec g WF k r Hf) in H. congruence. }
      destruct HC as (rel & lk & Hrel & Hlk & E1 & E2). pose proof Hlk as (Hu & Hla & _).
      destruct (IH (rel_upper rel)) with (r := lk_upper lk) as (k' & a' & r' & HC & H1 & H2 & H3).
      { exists rel. rewrite <- E1. auto. }
      { exact Hu. }
      exists k', a', r'. split; [|auto]. eapply rt_trans; [exact HC|apply rt_step].
      destruct (trace_done g WF tg TR) as (pc & pd & _ & HR & _).
      assert (Ht : exists tr, In tr (tg_relations tg) /\ tr_relation tr = rel).
      { rewrite HR. eexists. split; [apply in_map; exact Hrel|reflexivity]. }
      destruct Ht as (tr & Ht & Er). exists tr, (link_coverage lk). split; [exact Ht|].
      split; [apply (coverage_exact g WF tg TR tr _ Ht); exists lk; rewrite Er; auto|].
      rewrite <- E2. destruct lk as [up la low rf []]; cbn; auto.
    - intros k Hk r Hr. unfold reqs_of in Hr. destruct (oget k (g_artefacts g)) as [a|] eqn:Ea; [|destruct Hr].
      destruct (art_ignore_derived a) eqn:Ei.
      { exists k, a, r. split; [apply rt_refl|auto]. }
      exfalso.
      assert (Hf : In r (reqs_of g k)) by (unfold reqs_of; rewrite Ea; exact Hr).
      rewrite <- (unique_first_defs g WF k HU) in Hf.
      destruct (derived_exact g WF tg TR k a Ea) as (d & Ed & _ & HX). rewrite (HD k d Ed) in HX.
      apply (proj2 (HX (req_id r))). split; [exact Ei|]. exists r. split; [exact Hf|]. split; [reflexivity|].
      intros (rel & lk & Hrel & (_ & Hla & _) & E1 & _). apply Hk. apply in_flat_map. exists rel. rewrite <- E1. auto.
  Qed.

  (** ** No requirement covers itself, directly or not *)
  Lemma chain_irreflexive : no_loops g -> unique_ids g -> forall id, ~ clos_trans _ (covered_by tg) id id.
  Proof.
    intros HL HU.
    assert (G : forall u l, clos_trans _ (covered_by tg) u l ->
              exists k k' up low, clos_trans _ (above g) k k' /\ In up (reqs_of g k) /\ req_id up = u /\
                In low (reqs_of g k') /\ req_id low = l).
    { induction 1 as [u l H|u m l _ IH1 _ IH2].
      - destruct (covered_by_step u l H) as (k & k' & up & low & Ha & H1 & H2 & H3 & H4).
        exists k, k', up, low. split; [apply t_step; exact Ha|]. split; [exact H1|]. split; [exact H2|].
        split; [|exact H4]. apply filter_In in H3. apply H3.
      - destruct IH1 as (k & k1 & up & low1 & Ha & H1 & H2 & H3 & H4).
        destruct IH2 as (k2 & k' & up2 & low & Hb & G1 & G2 & G3 & G4).
        destruct (unique_requirement g k1 k2 low1 up2 WF HU H3 G1) as [_ <-]; [congruence|].
        exists k, k', up, low. split; [eapply t_trans; eassumption|auto]. }
    intros id H. destruct (G id id H) as (k & k' & up & low & Ha & H1 & H2 & H3 & H4).
    destruct (unique_requirement g k k' up low WF HU H1 H3) as [_ <-]; [congruence|]. exact (HL k Ha).
  Qed.
End Chain.

Section Process.
  Context {U : UnicodeTables} {D : Debug} {US : UnstableSort} {CT : CaseTables} {J : JsonText}
    {I : Inputs} {O : Outputs}.

  Lemma exit_0_chains cf base jobs h c :
    main_rc cf base jobs = (h, Exit 0) -> usable cf c -> traces c jobs ->
    exists ctl, controller_new c base = Done ctl /\
      (no_loops (ctl_graph ctl) -> forall k r, In r (reqs_of (ctl_graph ctl) k) ->
        (exists k' r', chain (ctl_traced ctl) (req_id r) (req_id r') /\ In r' (reqs_of (ctl_graph ctl) k') /\
           leaf (ctl_graph ctl) k') /\
        (exists k' a' r', chain (ctl_traced ctl) (req_id r') (req_id r) /\
           oget k' (g_artefacts (ctl_graph ctl)) = Some a' /\ In r' (ovalues (art_requirements a')) /\
           art_ignore_derived a' = true) /\
        ~ clos_trans _ (covered_by (ctl_traced ctl)) (req_id r) (req_id r)).
  Proof.
    intros HM HU HT. destruct (exit_0_project cf base jobs h c HM HU HT) as (ctl & HC & HS).
    exists ctl. split; [exact HC|]. intros HL k r Hr.
    pose proof (controller_well_made c base ctl HC) as HW. pose proof HW as (WF & TR & _).
    apply (clean_trace ctl HW) in HS as HCl. destruct HCl as (_ & _ & HUn & HDe).
    pose proof (so_unique _ HS) as HQ.
    split; [|split].
    - exact (chain_down _ _ WF TR HL HUn k r Hr).
    - refine (chain_up _ _ WF TR HL HQ _ k r Hr). intros k0 d Hd. apply HDe. apply ovalues_In.
      exists k0. apply oget_Some_In. exact Hd.
    - apply (chain_irreflexive _ _ WF TR HL HQ).
  Qed.
End Process.
