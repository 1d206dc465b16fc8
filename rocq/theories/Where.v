(** Which file is meant by a path and a base directory: specification and proofs for C105. *)
From Verif Require Import Base OMap Models Unicode Paths.
Open Scope N_scope.

(** ** Specification *)
Definition absolute (p : str) : Prop := exists q, p = L "/" ++ q.

(** The path [p] as seen from the directory [base]. *)
Inductive seen_from : str -> str -> str -> Prop :=
| sf_absolute base p : absolute p -> seen_from base p p
| sf_nowhere p : ~ absolute p -> seen_from [] p p
| sf_slash base p : ~ absolute p -> seen_from (base ++ L "/") p (base ++ L "/" ++ p)
| sf_dir base p : ~ absolute p -> base <> [] -> (forall b, base <> b ++ L "/") -> seen_from base p (base ++ L "/" ++ p).

(** The pattern for the files of a Rust artefact. *)
Inductive pattern_from : str -> str -> str -> Prop :=
| pf_absolute base p : absolute p -> pattern_from base p p
| pf_relative base p : ~ absolute p -> pattern_from base p (base ++ L "/" ++ p).

(** The directories and the file one passes through: the parts between slashes, without empty ones
    and lone dots. *)
Definition counted (w : str) : list str := if list_eq_dec N.eq_dec w [] then [] else if list_eq_dec N.eq_dec w (L ".") then [] else [w].
Inductive steps : str -> list str -> Prop :=
| st_last w : ~ In 47 w -> steps w (counted w)
| st_more w p l : ~ In 47 w -> steps p l -> steps (w ++ L "/" ++ p) (counted w ++ l).

(** ** Proofs *)
Lemma absolute_spec p : is_absolute p = true <-> absolute p.
Proof.
  unfold is_absolute, starts_with_c, absolute, SLASH. destruct p as [|c p].
  - split; [discriminate|]. intros (q & H). discriminate.
  - rewrite N.eqb_eq. split; [intros ->; exists p; reflexivity|]. intros (q & H). injection H as -> _. reflexivity.
Qed.
Lemma relative_spec p : is_absolute p = false <-> ~ absolute p.
Proof. rewrite <- absolute_spec. destruct (is_absolute p); intuition discriminate. Qed.

Lemma ends_slash b : ends_with_c SLASH b = true <-> exists x, b = x ++ L "/".
Proof.
  unfold ends_with_c. destruct (rev b) as [|c r] eqn:E; apply (f_equal (@rev _)) in E; rewrite rev_involutive in E; cbn in E.
  - subst. split; [discriminate|]. intros (x & H). destruct x; discriminate.
  - rewrite E. unfold starts_with_c. rewrite N.eqb_eq. split.
    + intros ->. exists (rev r). reflexivity.
    + intros (x & H). apply app_inj_tail in H. destruct H as [_ ->]. reflexivity.
Qed.

Lemma join_seen base p q : seen_from base p q <-> path_join base p = q.
Proof.
  unfold path_join. split.
  - intros [b x H|x H|b x H|b x H H1 H2].
    + apply absolute_spec in H. rewrite H. reflexivity.
    + apply relative_spec in H. rewrite H. reflexivity.
    + apply relative_spec in H. rewrite H.
      assert (E : ends_with_c SLASH (b ++ L "/") = true) by (apply ends_slash; eauto).
      destruct (b ++ L "/") as [|c y] eqn:Eb; [destruct b; discriminate|]. rewrite E, <- Eb, <- app_assoc. reflexivity.
    + apply relative_spec in H. rewrite H. destruct b as [|c y]; [congruence|].
      destruct (ends_with_c SLASH (c :: y)) eqn:E; [|reflexivity].
      apply ends_slash in E. destruct E as (z & E). elim (H2 z E).
  - intros <-. destruct (is_absolute p) eqn:EA.
    { apply absolute_spec in EA. constructor. exact EA. }
    apply relative_spec in EA. destruct base as [|c y]; [constructor; exact EA|].
    destruct (ends_with_c SLASH (c :: y)) eqn:E.
    + apply ends_slash in E. destruct E as (z & ->). rewrite <- app_assoc. constructor. exact EA.
    + constructor; [exact EA|discriminate|]. intros b Hb.
      assert (E' : ends_with_c SLASH (c :: y) = true) by (apply ends_slash; eauto). congruence.
Qed.

Lemma seen_total base p : exists q, seen_from base p q /\ forall q', seen_from base p q' -> q' = q.
Proof.
  exists (path_join base p). split; [apply join_seen; reflexivity|]. intros q' H. apply join_seen in H. congruence.
Qed.

Lemma seen_absolute base p q : seen_from base p q -> (absolute q <-> absolute p \/ absolute base).
Proof.
  intros [b x H|x H|b x H|b x H H1 H2].
  - tauto.
  - split; [tauto|]. intros [H'|(y & H')]; [tauto|discriminate].
  - split.
    + intros (y & E). right. destruct b as [|c b]; [exists []; reflexivity|]. injection E as -> _. exists (b ++ L "/"). reflexivity.
    + intros [H'|(y & E)]; [tauto|]. destruct b as [|c b]; [exists x; reflexivity|]. injection E as -> _. exists (b ++ L "/" ++ x). reflexivity.
  - destruct b as [|c b]; [congruence|]. split.
    + intros (y & E). right. injection E as -> _. exists b. reflexivity.
    + intros [H'|(y & E)]; [tauto|]. injection E as -> _. exists (b ++ L "/" ++ x). reflexivity.
Qed.

Lemma steps_cat a l : steps a l -> forall p m, steps p m -> steps (a ++ L "/" ++ p) (l ++ m).
Proof.
  induction 1 as [w Hw|w b l Hw Hb IH]; intros p m Hp.
  - apply st_more; assumption.
  - rewrite <- !app_assoc. apply st_more; [exact Hw|]. apply IH. exact Hp.
Qed.

(** Every path can be walked. *)
Lemma steps_exist p : exists l, steps p l.
Proof.
  induction p as [|c p (l & IH)]; [exists (counted []); constructor; intros []|].
  destruct (N.eq_dec c 47) as [->|Hc].
  - exists (counted [] ++ l). apply (st_more []); [intros []|exact IH].
  - inversion IH as [w Hw|w q m Hw Hq]; subst.
    + exists (counted (c :: p)). constructor. intros [H|H]; auto.
    + exists (counted (c :: w) ++ m). apply (st_more (c :: w)); [intros [H|H]; auto|exact Hq].
Qed.

Lemma cut_same (w : str) p w' p' : ~ In 47 w -> ~ In 47 w' -> w ++ L "/" ++ p = w' ++ L "/" ++ p' -> w = w' /\ p = p'.
Proof.
  revert w'. induction w as [|c w IH]; intros [|d w'] Hw Hw' E; cbn in E; injection E.
  - intros ->. split; reflexivity.
  - intros _ <-. elim Hw'. left. reflexivity.
  - intros _ ->. elim Hw. left. reflexivity.
  - intros E' ->. destruct (IH w') as [-> ->]; [intros H; apply Hw; right; exact H|intros H; apply Hw'; right; exact H|exact E'|].
    split; reflexivity.
Qed.
Lemma steps_unique p l l' : steps p l -> steps p l' -> l = l'.
Proof.
  intros H. revert l'. induction H as [w Hw|w b l Hw Hb IH]; intros l' H'.
  - inversion H' as [w' Hw'|w' p' m Hw' Hp]; subst; [reflexivity|]. elim Hw. apply in_or_app. right. left. reflexivity.
  - inversion H' as [w' Hw'|w' p' m Hw' Hp E]; subst.
    + elim Hw'. apply in_or_app. right. left. reflexivity.
    + destruct (cut_same _ _ _ _ Hw' Hw E) as [-> ->]. f_equal. apply IH. exact Hp.
Qed.

Lemma steps_slash a l : steps (a ++ L "/") l -> steps a l.
Proof.
  intros H. destruct (steps_exist a) as (m & Hm).
  assert (H' : steps (a ++ L "/" ++ []) (m ++ counted [])) by (apply steps_cat; [exact Hm|constructor; intros []]).
  cbn [app] in H'. rewrite (steps_unique _ _ _ H H'). unfold counted. cbn. rewrite app_nil_r. exact Hm.
Qed.

Lemma seen_steps base p q l m : seen_from base p q -> ~ absolute p -> steps base l -> steps p m -> steps q (l ++ m).
Proof.
  intros [b x H|x H|b x H|b x H H1 H2] HA Hl Hm.
  - tauto.
  - rewrite (steps_unique _ _ _ Hl (st_last [] (fun H => H))). exact Hm.
  - apply steps_cat; [apply steps_slash; exact Hl|exact Hm].
  - apply steps_cat; assumption.
Qed.

Lemma pattern_steps base p q l m : pattern_from base p q -> ~ absolute p -> steps base l -> steps p m -> steps q (l ++ m).
Proof. intros [b x H|b x H] HA Hl Hm; [tauto|]. apply steps_cat; assumption. Qed.

Lemma pattern_absolute base p q : pattern_from base p q -> base <> [] -> (absolute q <-> absolute p \/ absolute base).
Proof.
  intros [b x H|b x H] Hb; [tauto|]. destruct b as [|c b]; [congruence|]. split.
  - intros (y & E). right. injection E as -> _. exists b. reflexivity.
  - intros [H'|(y & E)]; [tauto|]. injection E as -> _. exists (b ++ L "/" ++ x). reflexivity.
Qed.
