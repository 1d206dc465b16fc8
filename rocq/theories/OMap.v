(** [BTreeMap] and [BTreeSet] as association lists / lists sorted by key.

    [std::collections::BTreeMap] iterates in key order; [insert] replaces the value of an
    existing key; [collect] inserts the items in order (the last of equal keys wins). *)
From Verif Require Import Base.
From Coq Require Import Sorting.Sorted Permutation.

Definition omap (K V : Type) := list (K * V).
Definition oset (K : Type) := list K.

Section Ops.
  Context {K V : Type} `{O : Ord K}.

  (** [map.get(&k)] *)
  Fixpoint oget (k : K) (m : omap K V) : option V :=
    match m with
    | [] => None
    | (k', v) :: m' => if eqb k k' then Some v else oget k m'
    end.

  (** [map.insert(k, v)] *)
  Fixpoint oins (k : K) (v : V) (m : omap K V) : omap K V :=
    match m with
    | [] => [(k, v)]
    | (k', v') :: m' =>
        match cmp k k' with
        | Lt => (k, v) :: (k', v') :: m'
        | Eq => (k, v) :: m'
        | Gt => (k', v') :: oins k v m'
        end
    end.

  (** [iter.collect::<BTreeMap<_,_>>()] *)
  Definition ocollect (l : list (K * V)) : omap K V :=
    fold_left (fun m kv => oins (fst kv) (snd kv) m) l [].

  (** [map.keys()], [map.values()] in iteration order *)
  Definition okeys (m : omap K V) : list K := map fst m.
  Definition ovalues (m : omap K V) : list V := map snd m.

  (** what a Rust [BTreeMap] always satisfies *)
  Definition osorted (m : omap K V) : Prop := StronglySorted lt (okeys m).

  (** [set.contains], [set.insert], [set.remove] *)
  Definition smem (k : K) (s : oset K) : bool := existsb (eqb k) s.

  Fixpoint sins (k : K) (s : oset K) : oset K :=
    match s with
    | [] => [k]
    | k' :: s' =>
        match cmp k k' with
        | Lt => k :: k' :: s'
        | Eq => k' :: s'
        | Gt => k' :: sins k s'
        end
    end.

  Fixpoint srem (k : K) (s : oset K) : oset K :=
    match s with
    | [] => []
    | k' :: s' => if eqb k k' then s' else k' :: srem k s'
    end.

  Definition ssorted (s : oset K) : Prop := StronglySorted lt s.
End Ops.

Section SetFacts.
  Context {K : Type} `{O : Ord K}.
  Implicit Types (k a : K) (s : oset K).

  Lemma ssorted_nodup s : ssorted s -> NoDup s.
  Proof.
    intros Hs. induction Hs as [|a l Hl IH Hf]; constructor; auto.
    intros Hin. rewrite Forall_forall in Hf. exact (lt_irrefl _ (Hf _ Hin)).
  Qed.

  Lemma smem_In k s : smem k s = true <-> In k s.
  Proof.
    unfold smem. rewrite existsb_exists. split.
    - intros [x [Hx He]]. apply eqb_true in He. subst. exact Hx.
    - intros Hx. exists k. split; [exact Hx|apply eqb_refl].
  Qed.

  Lemma In_sins a k s : In a (sins k s) <-> a = k \/ In a s.
  Proof.
    induction s as [|x s IH]; cbn; [intuition auto|].
    destruct (cmp k x) eqn:E.
    - apply cmp_eq in E. subst. cbn. intuition auto.
    - cbn. intuition auto.
    - cbn. rewrite IH. intuition auto.
  Qed.

  Lemma sins_sorted k s : ssorted s -> ssorted (sins k s).
  Proof.
    intros Hs. induction Hs as [|x s Hs IH Hf]; cbn.
    - constructor; constructor.
    - destruct (cmp k x) eqn:E.
      + constructor; assumption.
      + constructor; [constructor; assumption|].
        constructor; [exact E|].
        eapply Forall_impl; [|exact Hf]. intros b Hb. eapply lt_trans; eassumption.
      + constructor; [exact IH|]. rewrite Forall_forall in *.
        intros b Hb. apply In_sins in Hb. destruct Hb as [->|Hb]; [apply cmp_gt_lt; exact E|auto].
  Qed.

  Lemma In_srem a k s : ssorted s -> (In a (srem k s) <-> a <> k /\ In a s).
  Proof.
    intros Hs. induction Hs as [|x s Hs IH Hf]; cbn; [intuition auto|].
    destruct (eqb_spec k x) as [->|Hn].
    - split.
      + intros Ha. split; [|auto]. intros ->.
        rewrite Forall_forall in Hf. exact (lt_irrefl _ (Hf _ Ha)).
      + intros [Hne [He|He]]; [congruence|exact He].
    - cbn. rewrite IH. split.
      + intros [->|[H1 H2]]; auto.
      + intros [H1 [H2|H2]]; auto.
  Qed.

  Lemma srem_sorted k s : ssorted s -> ssorted (srem k s).
  Proof.
    intros Hs. induction Hs as [|x s Hs IH Hf]; cbn; [constructor|].
    destruct (eqb k x); [exact Hs|].
    constructor; [exact IH|]. rewrite Forall_forall in *.
    intros b Hb. apply In_srem in Hb; [apply Hf; tauto|exact Hs].
  Qed.

  Lemma ssorted_ext s1 s2 :
    ssorted s1 -> ssorted s2 -> (forall a, In a s1 <-> In a s2) -> s1 = s2.
  Proof.
    intros H1. revert s2. induction H1 as [|x s1 Hs IH Hf]; intros s2 H2 Hext.
    - destruct s2 as [|y s2]; [reflexivity|]. destruct (proj2 (Hext y)); left; reflexivity.
    - destruct s2 as [|y s2].
      + destruct (proj1 (Hext x)); left; reflexivity.
      + inversion H2 as [|? ? H2s H2f]; subst.
        assert (x = y) as ->.
        { destruct (proj1 (Hext x) (or_introl eq_refl)) as [|Hx]; [congruence|].
          destruct (proj2 (Hext y) (or_introl eq_refl)) as [|Hy]; [congruence|].
          rewrite Forall_forall in *. exfalso.
          exact (lt_asym _ _ (Hf _ Hy) (H2f _ Hx)). }
        f_equal. apply IH; [exact H2s|].
        intros a. specialize (Hext a). cbn in Hext.
        rewrite Forall_forall in *. split; intros Ha.
        * destruct (proj1 Hext (or_intror Ha)) as [->|]; [|assumption].
          exfalso. exact (lt_irrefl _ (Hf _ Ha)).
        * destruct (proj2 Hext (or_intror Ha)) as [->|]; [|assumption].
          exfalso. exact (lt_irrefl _ (H2f _ Ha)).
  Qed.

  Lemma filter_ssorted (p : K -> bool) s : ssorted s -> ssorted (filter p s).
  Proof.
    intros Hs. induction Hs as [|x s Hs IH Hf]; cbn; [constructor|].
    destruct (p x); [|exact IH]. constructor; [exact IH|].
    rewrite Forall_forall in *. intros b Hb. apply filter_In in Hb. apply Hf; tauto.
  Qed.

  Lemma In_fold_sins a (l : list K) s :
    In a (fold_left (fun s x => sins x s) l s) <-> In a l \/ In a s.
  Proof.
    revert s. induction l as [|x l IH]; intros s; cbn; [tauto|].
    rewrite IH, In_sins. intuition auto.
  Qed.

  Lemma fold_sins_sorted (l : list K) s :
    ssorted s -> ssorted (fold_left (fun s x => sins x s) l s).
  Proof. revert s. induction l as [|x l IH]; intros s Hs; cbn; auto using sins_sorted. Qed.

  Lemma fold_srem_spec (l : list K) s :
    ssorted s ->
    ssorted (fold_left (fun s x => srem x s) l s) /\
    (forall a, In a (fold_left (fun s x => srem x s) l s) <-> In a s /\ ~ In a l).
  Proof.
    revert s. induction l as [|x l IH]; intros s Hs; cbn; [split; [exact Hs|tauto]|].
    destruct (IH (srem x s) (srem_sorted x s Hs)) as [H1 H2].
    split; [exact H1|]. intros a. rewrite H2, In_srem by exact Hs. intuition auto.
  Qed.
End SetFacts.

Section MapFacts.
  Context {K V : Type} `{O : Ord K}.
  Implicit Types (k : K) (m : omap K V).

  Lemma oget_oins_same k v m : oget k (oins k v m) = Some v.
  Proof.
    induction m as [|[k' v'] m IH]; cbn.
    - rewrite eqb_refl. reflexivity.
    - destruct (cmp k k') eqn:E; cbn; rewrite ?eqb_refl; auto.
      destruct (eqb_spec k k') as [->|]; auto. rewrite cmp_refl in E. discriminate.
  Qed.

  Lemma oget_oins_other k k' v m : k <> k' -> oget k (oins k' v m) = oget k m.
  Proof.
    intros Hne. induction m as [|[k2 v2] m IH]; cbn.
    - destruct (eqb_spec k k'); congruence.
    - destruct (cmp k' k2) eqn:E; cbn.
      + apply cmp_eq in E. subst. destruct (eqb_spec k k2); congruence.
      + destruct (eqb_spec k k'); congruence.
      + rewrite IH. reflexivity.
  Qed.

  Lemma oget_oins k k' v m :
    oget k (oins k' v m) = if eqb k k' then Some v else oget k m.
  Proof.
    destruct (eqb_spec k k') as [->|Hne]; [apply oget_oins_same|apply oget_oins_other; exact Hne].
  Qed.

  Lemma In_okeys_oins a k v m : In a (okeys (oins k v m)) <-> a = k \/ In a (okeys m).
  Proof.
    induction m as [|[k' v'] m IH]; cbn; [intuition auto|].
    destruct (cmp k k') eqn:E; cbn.
    - apply cmp_eq in E. subst. intuition auto.
    - intuition auto.
    - unfold okeys in IH. rewrite IH. intuition auto.
  Qed.

  Lemma oins_sorted k v m : osorted m -> osorted (oins k v m).
  Proof.
    unfold osorted. induction m as [|[k' v'] m IH]; cbn; intros Hs.
    - constructor; constructor.
    - inversion Hs as [|? ? Hs' Hf]; subst.
      destruct (cmp k k') eqn:E; cbn.
      + apply cmp_eq in E. subst. constructor; assumption.
      + constructor; [exact Hs|]. constructor; [exact E|].
        eapply Forall_impl; [|exact Hf]. intros b Hb. eapply lt_trans; eassumption.
      + constructor; [apply IH; exact Hs'|].
        rewrite Forall_forall in *. intros b Hb.
        apply In_okeys_oins in Hb. destruct Hb as [->|Hb]; [apply cmp_gt_lt; exact E|auto].
  Qed.

  Lemma oget_None k m : oget k m = None <-> ~ In k (okeys m).
  Proof.
    induction m as [|[k' v'] m IH]; cbn; [tauto|].
    destruct (eqb_spec k k') as [->|Hne].
    - split; [discriminate|]. intros Hn. exfalso. apply Hn. left. reflexivity.
    - rewrite IH. unfold okeys. split; intros HH; [intros [|]; auto|tauto].
  Qed.

  Lemma oget_Some_key k v m : oget k m = Some v -> In k (okeys m).
  Proof.
    intros Hg. destruct (in_dec ord_eq_dec k (okeys m)) as [|Hn]; auto.
    apply oget_None in Hn. congruence.
  Qed.

  Lemma oget_key_Some k m : In k (okeys m) -> exists v, oget k m = Some v.
  Proof.
    intros Hk. destruct (oget k m) as [v|] eqn:E; [exists v; reflexivity|].
    apply oget_None in E. contradiction.
  Qed.

  Lemma oget_Some_In k v m : oget k m = Some v -> In (k, v) m.
  Proof.
    induction m as [|[k' v'] m IH]; cbn; [discriminate|].
    destruct (eqb_spec k k') as [->|Hne]; [|auto].
    intros [= ->]. left. reflexivity.
  Qed.

  Lemma osorted_nodup_keys m : osorted m -> NoDup (okeys m).
  Proof. apply ssorted_nodup. Qed.

  Lemma In_oget k v m : osorted m -> In (k, v) m -> oget k m = Some v.
  Proof.
    intros Hs. apply osorted_nodup_keys in Hs.
    induction m as [|[k' v'] m IH]; cbn; [tauto|].
    cbn in Hs. inversion Hs as [|? ? Hn Hd]; subst.
    intros [He|Hin].
    - inversion He; subst. rewrite eqb_refl. reflexivity.
    - destruct (eqb_spec k k') as [->|Hne]; auto.
      exfalso. apply Hn. apply in_map_iff. exists (k', v). auto.
  Qed.

  Lemma oget_In_iff k v m : osorted m -> (oget k m = Some v <-> In (k, v) m).
  Proof. intros Hs. split; [apply oget_Some_In|apply In_oget; exact Hs]. Qed.

  Lemma osorted_ext m1 m2 :
    osorted m1 -> osorted m2 -> (forall k, oget k m1 = oget k m2) -> m1 = m2.
  Proof.
    intros H1 H2 Hext.
    assert (Hk : okeys m1 = okeys m2).
    { apply ssorted_ext; try assumption. intros a.
      destruct (in_dec ord_eq_dec a (okeys m1)) as [Hi|Hi];
        destruct (in_dec ord_eq_dec a (okeys m2)) as [Hj|Hj]; try tauto.
      - apply oget_key_Some in Hi. destruct Hi as [v Hv].
        apply oget_None in Hj. rewrite Hext in Hv. congruence.
      - apply oget_key_Some in Hj. destruct Hj as [v Hv].
        apply oget_None in Hi. rewrite Hext in Hi. congruence. }
    apply osorted_nodup_keys in H1. clear H2.
    revert m2 Hext Hk. induction m1 as [|[k v] m1 IH]; intros [|[k2 v2] m2] Hext Hk; cbn in *;
      try discriminate; [reflexivity|].
    injection Hk as -> Hk'. inversion H1 as [|? ? Hn Hd]; subst.
    f_equal.
    - specialize (Hext k2). rewrite eqb_refl in Hext. congruence.
    - apply IH; [exact Hd| |exact Hk'].
      intros k0. generalize (Hext k0).
      destruct (eqb_spec k0 k2) as [E0|]; [subst k0; intros _|auto].
      assert (E1 : oget k2 m1 = None) by (apply oget_None; exact Hn).
      assert (E2 : oget k2 m2 = None) by (apply oget_None; unfold okeys; rewrite <- Hk'; exact Hn).
      congruence.
  Qed.

  Lemma ocollect_app l1 l2 :
    ocollect (l1 ++ l2) = fold_left (fun m kv => oins (fst kv) (snd kv) m) l2 (@ocollect K V _ l1).
  Proof. unfold ocollect. apply fold_left_app. Qed.

  Lemma fold_oins_sorted (l : list (K * V)) m :
    osorted m -> osorted (fold_left (fun m kv => oins (fst kv) (snd kv) m) l m).
  Proof. revert m. induction l as [|x l IH]; cbn; intros m Hs; auto using oins_sorted. Qed.

  Lemma ocollect_sorted l : osorted (@ocollect K V _ l).
  Proof. apply fold_oins_sorted. constructor. Qed.

  Lemma fold_oins_keys (l : list (K * V)) m a :
    In a (okeys (fold_left (fun m kv => oins (fst kv) (snd kv) m) l m)) <->
    In a (map fst l) \/ In a (okeys m).
  Proof.
    revert m. induction l as [|x l IH]; cbn [fold_left map In]; intros m; [tauto|].
    rewrite IH, In_okeys_oins. intuition auto.
  Qed.

  Lemma In_okeys_ocollect l a : In a (okeys (@ocollect K V _ l)) <-> In a (map fst l).
  Proof. unfold ocollect. rewrite fold_oins_keys. cbn. tauto. Qed.

  (** the last of equal keys wins *)
  Lemma fold_oins_get (l : list (K * V)) m k :
    oget k (fold_left (fun m kv => oins (fst kv) (snd kv) m) l m) =
    match oget k (rev l) with Some v => Some v | None => oget k m end.
  Proof.
    induction l as [|x l IH] using rev_ind; cbn; [reflexivity|].
    rewrite fold_left_app. cbn. rewrite oget_oins, rev_app_distr. cbn.
    destruct x as [k' v]. cbn. destruct (eqb k k'); [reflexivity|exact IH].
  Qed.

  Lemma oget_ocollect l k : oget k (@ocollect K V _ l) = oget k (rev l).
  Proof. unfold ocollect. rewrite fold_oins_get. cbn. destruct (oget k (rev l)); reflexivity. Qed.

  Lemma ovalues_In v m : In v (ovalues m) <-> exists k, In (k, v) m.
  Proof.
    unfold ovalues. rewrite in_map_iff. split.
    - intros [[k v'] [He Hin]]. cbn in He. subst. exists k. exact Hin.
    - intros [k Hin]. exists (k, v). auto.
  Qed.
End MapFacts.
