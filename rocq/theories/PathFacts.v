(** What the file name and the stem of a path are. *)
From Verif Require Import Base OMap Unicode Paths.
Open Scope N_scope.

(** ** Specification *)
(** Text after the last part that does not matter: slashes and lone dots. *)
Inductive trailing : str -> Prop :=
| tr_nil : trailing []
| tr_slash t : trailing t -> trailing (SLASH :: t)
| tr_dot t : trailing t -> trailing (SLASH :: DOT :: t).

(** The last part of a path that is not empty and not a lone dot. *)
Definition last_part (p n : str) : Prop :=
  n <> [] /\ n <> [DOT] /\ ~ In SLASH n /\
  exists t, trailing t /\ (p = n ++ t \/ exists dir, p = dir ++ SLASH :: n ++ t).

(** The stem of a path: its last part without extension; there is none for `..`. *)
Definition stem (p s : str) : Prop :=
  exists n, last_part p n /\ n <> [DOT; DOT] /\
    ((s = n /\ ~ In DOT (tl n)) \/ (s <> [] /\ exists ext, n = s ++ DOT :: ext /\ ~ In DOT ext)).

(** ** Proofs *)
Lemma split_on_free_parts sep s : Forall (fun x => ~ In sep x) (split_on sep s).
Proof.
  induction s as [|c s IH]; cbn [split_on]; [constructor; [intros []|constructor]|].
  destruct (N.eqb_spec c sep) as [->|Hc]; [constructor; [intros []|exact IH]|].
  destruct (split_on sep s) as [|x xs] eqn:E.
  - constructor; [|constructor]. intros [H|[]]. auto.
  - inversion IH; subst. constructor; [|assumption]. intros [H|H]; auto.
Qed.

Definition after (sep : chr) (b : list str) : str := flat_map (fun x => sep :: x) b.
Lemma split_on_join sep s : forall x xs, split_on sep s = x :: xs -> s = x ++ after sep xs.
Proof.
  induction s as [|c s IH]; intros x xs; cbn [split_on].
  - intros H. inversion H; subst. reflexivity.
  - destruct (split_on sep s) as [|y ys] eqn:E; [destruct (split_on_nil _ _ E)|].
    specialize (IH _ _ eq_refl). destruct (N.eqb_spec c sep) as [->|_]; intros H; inversion H; subst x xs.
    + cbn. f_equal. exact IH.
    + cbn [app]. f_equal. exact IH.
Qed.

Lemma part_skipped x : part_counts x = false <-> x = [] \/ x = [DOT].
Proof.
  unfold part_counts. rewrite negb_false_iff, orb_true_iff, !eqb_true. reflexivity.
Qed.
Lemma part_counted x : part_counts x = true <-> x <> [] /\ x <> [DOT].
Proof.
  pose proof (part_skipped x). destruct (part_counts x); split; try tauto; try discriminate.
  intros _. split; intros ->; intuition discriminate.
Qed.

Lemma trailing_after b : Forall (fun x => part_counts x = false) b -> trailing (after SLASH b).
Proof.
  induction b as [|x b IH]; intros H; [constructor|]. inversion H; subst.
  cbn [after flat_map]. apply part_skipped in H2. destruct H2 as [-> | ->]; cbn [app]; constructor; apply IH; assumption.
Qed.

Lemma trailing_split t : trailing t -> forall n, ~ In SLASH n ->
  exists b, split_on SLASH (n ++ t) = n :: b /\ Forall (fun x => part_counts x = false) b.
Proof.
  induction 1 as [|t H IH|t H IH]; intros n Hn.
  - rewrite app_nil_r, split_on_free by exact Hn. eauto.
  - rewrite split_on_app, (split_on_free _ _ Hn). destruct (IH []) as (b & E & HF); [intros []|].
    cbn [app] in *. rewrite E. eexists. split; [reflexivity|]. constructor; [reflexivity|exact HF].
  - rewrite split_on_app, (split_on_free _ _ Hn).
    destruct (IH [DOT]) as (b & E & HF); [intros [H'|[]]; discriminate|].
    cbn [app] in *. rewrite E. eexists. split; [reflexivity|]. constructor; [reflexivity|exact HF].
Qed.

Lemma filter_none {A} (f : A -> bool) l : Forall (fun x => f x = false) l -> filter f l = [].
Proof. induction 1 as [|x l H _ IH]; cbn; [reflexivity|]. rewrite H. exact IH. Qed.

Lemma filter_last {A} (f : A -> bool) l n r : rev (filter f l) = n :: r ->
  exists a b, l = a ++ n :: b /\ f n = true /\ Forall (fun x => f x = false) b.
Proof.
  revert r. induction l as [|x l IH] using rev_ind; intros r; cbn; [discriminate|].
  rewrite filter_app, rev_app_distr. cbn [filter]. destruct (f x) eqn:E; cbn [rev app].
  - intros H. inversion H; subst. exists l, []. auto.
  - intros H. destruct (IH _ H) as (a & b & -> & Hn & HF). exists a, (b ++ [x]).
    rewrite <- app_assoc. split; [reflexivity|]. split; [exact Hn|]. apply Forall_app. auto.
Qed.

Lemma parts_last p n : (exists r, rev (parts p) = n :: r) <-> last_part p n.
Proof.
  unfold parts, last_part. split.
  - intros (r & H). destruct (filter_last _ _ _ _ H) as (a & b & E & Hn & HF).
    apply part_counted in Hn. destruct Hn as [N1 N2]. split; [exact N1|]. split; [exact N2|]. split.
    { pose proof (split_on_free_parts SLASH p) as HP. rewrite E in HP. apply Forall_app in HP.
      destruct HP as [_ HP]. inversion HP; assumption. }
    exists (after SLASH b). split; [apply trailing_after; exact HF|].
    destruct a as [|x a]; cbn [app] in E; apply split_on_join in E; [left; exact E|].
    right. exists (x ++ after SLASH a). rewrite E. unfold after. rewrite flat_map_app, <- app_assoc. reflexivity.
  - intros (N1 & N2 & N3 & t & HT & HP). destruct (trailing_split t HT n N3) as (b & E & HF).
    assert (Hn : part_counts n = true) by (apply part_counted; auto).
    assert (HE : filter part_counts (n :: b) = [n]) by (cbn [filter]; rewrite Hn, (filter_none _ _ HF); reflexivity).
    destruct HP as [->|(dir & ->)].
    + rewrite E. exists []. exact (f_equal (@rev str) HE).
    + rewrite split_on_app, E, filter_app, rev_app_distr. exists (rev (filter part_counts (split_on SLASH dir))).
      exact (f_equal (fun l => rev l ++ rev (filter part_counts (split_on SLASH dir))) HE).
Qed.

Theorem file_name_exact p n : file_name p = Some n <-> last_part p n /\ n <> [DOT; DOT].
Proof.
  rewrite <- parts_last. unfold file_name. destruct (rev (parts p)) as [|c r].
  - split; [discriminate|]. intros ((r & H) & _). discriminate.
  - destruct (eqb c [DOT; DOT]) eqn:E.
    + apply eqb_true in E. subst c. split; [discriminate|]. intros ((r' & H) & Hn). congruence.
    + apply eqb_false in E. split.
      * intros H. inversion H; subst. eauto.
      * intros ((r' & H) & _). congruence.
Qed.

Lemma last_dot n : rsplit_once DOT n = None /\ ~ In DOT n \/
  exists a b, rsplit_once DOT n = Some (a, b) /\ n = a ++ DOT :: b /\ ~ In DOT b.
Proof.
  induction n as [|c n IH]; cbn [rsplit_once]; [left; split; [reflexivity|intros []]|].
  destruct IH as [[-> H]|(a & b & -> & -> & H)].
  - destruct (N.eqb_spec c DOT) as [->|Hc]; [right; exists [], n; auto|].
    left. split; [reflexivity|]. intros [H'|H']; [auto|exact (H H')].
  - right. exists (c :: a), b. auto.
Qed.

Theorem file_stem_exact p s : file_stem p = Some s <-> stem p s.
Proof.
  unfold stem, file_stem. assert (X : forall n s', match rsplit_once DOT n with
                                 | Some ([], _) | None => Some n
                                 | Some (a, _) => Some a
                                 end = Some s' <->
            n = [] /\ s' = [] \/
            n <> [] /\ ((s' = n /\ ~ In DOT (tl n)) \/ (s' <> [] /\ exists ext, n = s' ++ DOT :: ext /\ ~ In DOT ext))).
  { intros n s'. destruct (last_dot n) as [[-> H]|(a & b & -> & E & H)].
    - split.
      + intros Hs. inversion Hs; subst s'. destruct n as [|c n]; [auto|]. right. split; [discriminate|].
        left. split; [reflexivity|]. intros H'. apply H. right. exact H'.
      + intros [[-> ->]|(Hn & [[-> _]|(_ & ext & -> & _)])]; try reflexivity.
        exfalso. apply H. apply in_or_app. right. left. reflexivity.
    - assert (Hn : n <> []) by (rewrite E; destruct a; discriminate). split.
      + intros Hs. right. split; [exact Hn|]. destruct a as [|c a]; inversion Hs; subst s'.
        * left. split; [reflexivity|]. rewrite E. exact H.
        * right. split; [discriminate|]. exists b. auto.
      + intros [[-> _]|(_ & [[-> HD]|(Hs & ext & HE & HX)])]; [elim Hn; reflexivity| |].
        * destruct a as [|c a]; [reflexivity|]. exfalso. apply HD. rewrite E. cbn [app tl].
          apply in_or_app. right. left. reflexivity.
        * assert (EA : rsplit_once DOT (s' ++ DOT :: ext) = rsplit_once DOT (a ++ DOT :: b)) by congruence.
          rewrite !rsplit_once_last in EA by assumption. inversion EA; subst.
          destruct a as [|c a]; [elim Hs; reflexivity|reflexivity]. }
  destruct (file_name p) as [n|] eqn:E.
  - apply file_name_exact in E as HN. destruct HN as [HL HD]. rewrite X. split.
    + intros [[-> _]|[_ H]]; [destruct HL as [HL _]; elim HL; reflexivity|]. exists n. auto.
    + intros (n' & HL' & HD' & H). assert (EN : file_name p = Some n') by (apply file_name_exact; auto).
      assert (n' = n) by congruence. subst n'. right. split; [apply HL|exact H].
  - split; [discriminate|]. intros (n & HL & HD & _).
    assert (EN : file_name p = Some n) by (apply file_name_exact; auto). congruence.
Qed.

(** There is at most one stem. *)
Lemma stem_unique p s s' : stem p s -> stem p s' -> s = s'.
Proof. rewrite <- !file_stem_exact. congruence. Qed.
Lemma no_stem p : file_stem p = None <-> ~ exists s, stem p s.
Proof.
  split.
  - intros H (s & Hs). apply file_stem_exact in Hs. congruence.
  - intros H. destruct (file_stem p) as [s|] eqn:E; [|reflexivity]. elim H. exists s. apply file_stem_exact. exact E.
Qed.
