(** Sorting: [slice::sort_by] (stable) and what [sort_unstable_by_key] guarantees. *)
From Coq Require Import Permutation Sorting.Sorted.
From Verif Require Import Base.

Section Sort.
  Context {A K : Type} `{Ord K} (key : A -> K).

  Fixpoint insert_by (x : A) (l : list A) : list A :=
    match l with
    | [] => [x]
    | y :: l' => match cmp (key x) (key y) with
                 | Gt => y :: insert_by x l'
                 | _ => x :: l
                 end
    end.
  (** [v.sort_by(|a, b| key(a).cmp(&key(b)))]: stable *)
  Definition sort_by (l : list A) : list A := fold_right insert_by [] l.

  (** Sorted by key. *)
  Definition sorted_by (l : list A) : Prop := StronglySorted (fun x y => le (key x) (key y)) l.

  Lemma insert_by_perm x l : Permutation (x :: l) (insert_by x l).
  Proof.
    induction l as [|y l IH]; cbn [insert_by]; [apply Permutation_refl|].
    destruct (cmp (key x) (key y)); try apply Permutation_refl.
    eapply perm_trans; [apply perm_swap|]. apply perm_skip. exact IH.
  Qed.
  Lemma sort_by_perm l : Permutation l (sort_by l).
  Proof.
    induction l as [|x l IH]; cbn [sort_by fold_right]; [constructor|].
    eapply perm_trans; [apply perm_skip; exact IH|]. apply insert_by_perm.
  Qed.
  Lemma sort_by_In x l : In x (sort_by l) <-> In x l.
  Proof.
    split; apply Permutation_in; [apply Permutation_sym|]; apply sort_by_perm.
  Qed.

  Lemma insert_by_sorted x l : sorted_by l -> sorted_by (insert_by x l).
  Proof.
    intros HS. induction HS as [|y l HS IH HF]; cbn [insert_by].
    - repeat constructor.
    - destruct (cmp (key x) (key y)) eqn:E.
      + constructor; [constructor; assumption|]. apply cmp_eq in E. constructor.
        * rewrite E. apply le_refl.
        * rewrite E. exact HF.
      + constructor; [constructor; assumption|].
        assert (le (key x) (key y)) by (apply le_lt_eq; left; exact E). constructor; [assumption|].
        eapply Forall_impl; [|exact HF]. intros z Hz. eapply le_trans; eassumption.
      + constructor; [exact IH|]. apply Forall_forall. intros z Hz.
        apply (Permutation_in z (Permutation_sym (insert_by_perm x l))) in Hz. destruct Hz as [<-|Hz].
        * apply le_lt_eq. left. apply cmp_gt_lt. exact E.
        * exact (proj1 (Forall_forall _ _) HF z Hz).
  Qed.
  Lemma sort_by_sorted l : sorted_by (sort_by l).
  Proof.
    induction l as [|x l IH]; cbn [sort_by fold_right]; [constructor|]. apply insert_by_sorted. exact IH.
  Qed.

  (** Equal keys keep their order. *)
  Lemma insert_by_stable k x l :
    filter (fun y => eqb (key y) k) (insert_by x l) = filter (fun y => eqb (key y) k) (x :: l).
  Proof.
    induction l as [|y l IH]; cbn [insert_by]; [reflexivity|].
    destruct (cmp (key x) (key y)) eqn:E; try reflexivity.
    cbn [filter] in *. rewrite IH. destruct (eqb_spec (key x) k) as [Ex|Ex]; [|reflexivity].
    destruct (eqb_spec (key y) k) as [Ey|Ey]; [|reflexivity].
    exfalso. rewrite Ex, Ey, cmp_refl in E. discriminate.
  Qed.
  Lemma sort_by_stable k l :
    filter (fun y => eqb (key y) k) (sort_by l) = filter (fun y => eqb (key y) k) l.
  Proof.
    induction l as [|x l IH]; cbn [sort_by fold_right]; [reflexivity|].
    fold (sort_by l). rewrite insert_by_stable. cbn [filter]. rewrite IH. reflexivity.
  Qed.

  (** Sorted and stable determine the list. *)
  Lemma sorted_stable_unique l1 : forall l2, sorted_by l1 -> sorted_by l2 ->
    (forall k, filter (fun y => eqb (key y) k) l1 = filter (fun y => eqb (key y) k) l2) -> l1 = l2.
  Proof.
    induction l1 as [|x l1 IH]; intros l2 H1 H2 HF.
    - destruct l2 as [|y l2]; [reflexivity|]. specialize (HF (key y)). cbn [filter] in HF.
      rewrite eqb_refl in HF. discriminate.
    - destruct l2 as [|y l2].
      { specialize (HF (key x)). cbn [filter] in HF. rewrite eqb_refl in HF. discriminate. }
      apply StronglySorted_inv in H1. destruct H1 as [S1 F1].
      apply StronglySorted_inv in H2. destruct H2 as [S2 F2].
      assert (HK : forall a b la lb, Forall (fun z => le (key b) (key z)) lb ->
                filter (fun z => eqb (key z) (key a)) (a :: la) = filter (fun z => eqb (key z) (key a)) (b :: lb) ->
                le (key b) (key a)).
      { intros a b la lb HFb E. assert (I : In a (filter (fun z => eqb (key z) (key a)) (b :: lb))).
        { rewrite <- E. apply filter_In. split; [left; reflexivity|apply eqb_refl]. }
        apply filter_In in I. destruct I as [[->|I] _]; [apply le_refl|].
        exact (proj1 (Forall_forall _ _) HFb a I). }
      assert (E : key x = key y).
      { apply le_antisym.
        - apply (HK y x l2 l1 F1). symmetry. apply HF.
        - apply (HK x y l1 l2 F2). apply HF. }
      assert (x = y).
      { specialize (HF (key x)). cbn [filter] in HF. rewrite <- E, eqb_refl in HF. congruence. }
      subst y. f_equal. apply IH; [assumption|assumption|]. intros k. specialize (HF k).
      cbn [filter] in HF. destruct (eqb (key x) k); congruence.
  Qed.
End Sort.
