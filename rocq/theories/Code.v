(** Titles in messages about wrong titles. *)
From Verif Require Import Base OMap Models CodeSpec.
Open Scope N_scope.

Lemma repeat_S (n : nat) (s : str) : repeat TICK (S n) ++ s = repeat TICK n ++ TICK :: s.
Proof. induction n as [|n IH]; [reflexivity|]. cbn [repeat app] in *. rewrite IH. reflexivity. Qed.
Lemma ticks_repeat n s : ~ starts_tick s -> ticks (repeat TICK n ++ s) = (n, s).
Proof.
  intros H. induction n as [|n IH]; cbn [repeat app ticks].
  - destruct s as [|c r]; [reflexivity|]. cbn [ticks]. destruct (N.eqb_spec c TICK) as [->|]; [elim H; exists r; reflexivity|reflexivity].
  - rewrite N.eqb_refl, IH. reflexivity.
Qed.
Lemma ticks_all n : ticks (repeat TICK n) = (n, []).
Proof. rewrite <- (app_nil_r (repeat TICK n)). apply ticks_repeat. intros (r & E). discriminate. Qed.

Lemma close_ticks n b : ~ starts_tick b -> forall m k, (m + k = n)%nat -> close n k (repeat TICK m ++ b) = Some ([], b).
Proof.
  intros Hb m. induction m as [|m IH]; intros k E; cbn [repeat app].
  - cbn in E. subst k. destruct b as [|c r]; cbn [close]; rewrite PeanoNat.Nat.eqb_refl; [reflexivity|].
    destruct (N.eqb_spec c TICK) as [->|]; [elim Hb; exists r; reflexivity|reflexivity].
  - cbn [close]. rewrite N.eqb_refl. apply IH. lia.
Qed.

Lemma close_complete n b : ~ starts_tick b -> forall t k,
  t <> [] -> ~ ends_tick t -> ~ has_string n (repeat TICK k ++ t) ->
  close n k (t ++ repeat TICK n ++ b) = Some (repeat TICK k ++ t, b).
Proof.
  intros Hb t. induction t as [|c r IH]; intros k HN HE HH; [congruence|]. cbn [app close].
  destruct (N.eqb_spec c TICK) as [->|Hc].
  - rewrite IH.
    + rewrite repeat_S. reflexivity.
    + intros ->. apply HE. exists []. reflexivity.
    + intros (x & ->). apply HE. exists (TICK :: x). reflexivity.
    + rewrite repeat_S. exact HH.
  - destruct (Nat.eqb k n) eqn:E.
    { apply PeanoNat.Nat.eqb_eq in E. subst k. elim HH. exists [], (c :: r). split; [reflexivity|]. split.
      - intros (x & X). destruct x; discriminate.
      - intros (x & X). congruence. }
    destruct r as [|d r'].
    + cbn [app]. rewrite (close_ticks n b Hb n O) by lia. reflexivity.
    + rewrite (IH O); [reflexivity|discriminate| |].
      * intros (x & X). apply HE. exists (c :: x). rewrite X. reflexivity.
      * intros (x & y & X & H1 & H2). apply HH. exists (repeat TICK k ++ c :: x), y. split.
        -- cbn [repeat app] in X. rewrite X, <- app_assoc. reflexivity.
        -- split; [|exact H2]. intros (z & Z). destruct x as [|e x'] using rev_ind.
           ++ apply app_inj_tail in Z. destruct Z as [_ Z]. congruence.
           ++ clear IHx'. rewrite app_comm_cons, app_assoc in Z. apply app_inj_tail in Z. destruct Z as [_ ->]. apply H1. exists x'. reflexivity.
Qed.

Lemma run_before k c x n y a : c <> TICK -> n <> O -> (k <> n)%nat ->
  repeat TICK k ++ c :: a = x ++ repeat TICK n ++ y -> ~ ends_tick x -> ~ starts_tick y ->
  exists x', x = repeat TICK k ++ c :: x' /\ a = x' ++ repeat TICK n ++ y.
Proof.
  intros Hc Hn Hk E Hx Hy. apply app_eq_app in E. destruct E as (l & [[E1 E2]|[E1 E2]]).
  - exfalso. assert (HX : x = []).
    { destruct x as [|d x'] using rev_ind; [reflexivity|]. clear IHx'. elim Hx. exists x'. f_equal. f_equal.
      assert (X : In d (repeat TICK k)) by (rewrite E1; apply in_or_app; left; apply in_or_app; right; left; reflexivity).
      apply repeat_spec in X. exact X. }
    subst x. cbn [app] in E1. subst l. clear Hx. revert n E2 Hn Hk. induction k as [|k IH]; intros n E Hn Hk.
    + destruct n as [|n]; [congruence|]. cbn in E. congruence.
    + destruct n as [|n]; [congruence|]. cbn [repeat app] in E. injection E as E. destruct n as [|n].
      * cbn [repeat app] in E. destruct k as [|k]; [congruence|]. cbn [repeat app] in E. apply Hy. eexists. exact E.
      * apply (IH (S n) E); [discriminate|congruence].
  - destruct l as [|d l'].
    + exfalso. destruct n as [|n]; [congruence|]. cbn in E2. congruence.
    + cbn [app] in E2. injection E2 as <- E2. exists l'. auto.
Qed.

Lemma close_sound n : n <> O -> forall s k a b, close n k s = Some (a, b) ->
  repeat TICK k ++ s = a ++ repeat TICK n ++ b /\ ~ ends_tick a /\ ~ starts_tick b /\ ~ has_string n a.
Proof.
  intros Hn s. assert (HE : forall l : str, ~ ends_tick l -> ~ has_string n [] /\ ~ ends_tick []).
  { intros l _. split; [|intros (x & X); destruct x; discriminate]. intros (x & y & X & _). destruct x; [|discriminate].
    destruct n; [congruence|discriminate]. }
  assert (HE0 : ~ has_string n [] /\ ~ ends_tick []) by (apply (HE []); intros (x & X); destruct x; discriminate).
  clear HE. induction s as [|c r IH]; intros k a b H; cbn [close] in H.
  - destruct (Nat.eqb k n) eqn:E; [|discriminate]. apply PeanoNat.Nat.eqb_eq in E. subst k. injection H as <- <-.
    split; [reflexivity|]. split; [apply HE0|]. split; [intros (x & X); discriminate|apply HE0].
  - destruct (N.eqb_spec c TICK) as [->|Hc].
    + destruct (IH (S k) a b H) as (E & H1). split; [rewrite <- E, repeat_S; reflexivity|exact H1].
    + destruct (Nat.eqb k n) eqn:E.
      * apply PeanoNat.Nat.eqb_eq in E. subst k. injection H as <- <-. split; [reflexivity|]. split; [apply HE0|].
        split; [intros (x & X); congruence|apply HE0].
      * destruct (close n 0 r) as [[a' b']|] eqn:EC; [|discriminate]. injection H as <- <-.
        destruct (IH O a' b' EC) as (E1 & H1 & H2 & H3). cbn [repeat app] in E1. split; [rewrite E1, <- app_assoc; reflexivity|].
        split; [|split; [exact H2|]].
        -- intros (z & Z). destruct a' as [|d a''] using rev_ind.
           ++ apply app_inj_tail in Z. destruct Z as [_ Z]. congruence.
           ++ clear IHa''. rewrite app_comm_cons, app_assoc in Z. apply app_inj_tail in Z. destruct Z as [_ ->]. apply H1. exists a''. reflexivity.
        -- intros (x & y & X & HX & HY). apply PeanoNat.Nat.eqb_neq in E.
           destruct (run_before k c x n y a' Hc Hn E X HX HY) as (x' & -> & EA). apply H3. exists x', y. split; [exact EA|].
           split; [|exact HY]. intros (z & ->). apply HX. exists (repeat TICK k ++ c :: z). rewrite <- app_assoc. reflexivity.
Qed.

Lemma strip_cases s : (strip s = s /\ ~ padded s) \/ (S (length (strip s)) < length s /\ padded s)%nat.
Proof.
  assert (HP : forall c r, padded (c :: r) -> exists x, c = BLANK /\ rev r = BLANK :: rev x /\ exists e, In e x /\ e <> BLANK).
  { intros c r (x & E & H). injection E as -> ->. exists x. rewrite rev_app_distr. auto. }
  destruct s as [|c r]; [left; split; [reflexivity|]; intros (x & X & _); discriminate|]. unfold strip.
  destruct (rev r) as [|d x] eqn:ER.
  { left. split; [reflexivity|]. intros H. destruct (HP c r H) as (y & _ & Y & _). congruence. }
  destruct (N.eqb_spec c BLANK) as [->|Hc]; [|left; split; [reflexivity|]; intros H; destruct (HP c r H) as (y & Y & _); congruence].
  destruct (N.eqb_spec d BLANK) as [->|Hd]; [|left; split; [reflexivity|]; intros H; destruct (HP BLANK r H) as (y & _ & Y & _); congruence].
  assert (EX : r = rev x ++ [BLANK]) by (rewrite <- (rev_involutive r), ER; reflexivity).
  destruct (forallb (fun e => e =? BLANK) (BLANK :: r)) eqn:EF; cbn [andb negb].
  - left. split; [reflexivity|]. intros H. destruct (HP BLANK r H) as (y & _ & Y & e & He & HeB).
    rewrite forallb_forall in EF. apply HeB. apply N.eqb_eq. apply EF. right. rewrite <- (rev_involutive r), Y.
    cbn [rev]. rewrite rev_involutive. apply in_or_app. left. exact He.
  - right. split; [rewrite EX; cbn [length]; rewrite app_length; cbn [length]; lia|].
    exists (rev x). split; [rewrite EX; reflexivity|].
    assert (HX : exists e, In e (BLANK :: r) /\ e <> BLANK).
    { clear -EF. revert EF. generalize (BLANK :: r). intros l. induction l as [|e l IH]; [discriminate|]. cbn [forallb].
      destruct (N.eqb_spec e BLANK) as [->|He].
      - intros H. destruct (IH H) as (f & Hf & HfB). exists f. split; [right; exact Hf|exact HfB].
      - intros _. exists e. split; [left; reflexivity|exact He]. }
    destruct HX as (e & [<-|He] & HeB); [congruence|]. exists e. split; [|exact HeB]. rewrite EX in He. apply in_app_or in He.
    destruct He as [He|[<-|[]]]; [exact He|congruence].
Qed.
Lemma strip_length s : (length (strip s) <= length s)%nat.
Proof. destruct (strip_cases s) as [[-> _]|[H _]]; lia. Qed.

Lemma no_text n : n <> O -> code_span (repeat TICK n ++ [] ++ repeat TICK n) = None.
Proof.
  intros Hn. cbn [app]. unfold code_span, raw_span. rewrite <- repeat_app, ticks_all. destruct (n + n)%nat eqn:E; [lia|]. reflexivity.
Qed.
Lemma split_ticks s : exists m r, s = repeat TICK m ++ r /\ ~ starts_tick r.
Proof.
  induction s as [|d s (m & r & -> & Hr)]; [exists O, []; split; [reflexivity|intros (x & X); discriminate]|].
  destruct (N.eqb_spec d TICK) as [->|Hd].
  - exists (S m), r. auto.
  - exists O, (d :: repeat TICK m ++ r). split; [reflexivity|]. intros (x & X). congruence.
Qed.

(** Exactly these texts are read as code again. *)
Theorem code_iff n t : n <> O -> (code_span (repeat TICK n ++ t ++ repeat TICK n) = Some (t, []) <-> code_text n t).
Proof.
  intros Hn.
  assert (HB : ~ starts_tick []) by (intros (x & X); discriminate).
  split.
  - intros H. destruct t as [|c t']; [rewrite (no_text n Hn) in H; discriminate|].
    unfold code_span, raw_span in H. destruct (N.eqb_spec c TICK) as [->|Hc].
    + exfalso. destruct (split_ticks ((TICK :: t') ++ repeat TICK n)) as (m & r & E & Hr). rewrite E in H.
      rewrite app_assoc, <- repeat_app, (ticks_repeat _ _ Hr) in H. destruct (n + m)%nat as [|k] eqn:EK; [lia|].
      destruct (close (S k) 0 r) as [[a b]|] eqn:EC; [|discriminate].
      assert (HA : strip a = TICK :: t' /\ b = []) by (split; congruence). destruct HA as [HA ->].
      destruct (close_sound (S k) ltac:(discriminate) r O _ _ EC) as (E1 & _). cbn [repeat app] in E1. change (TICK :: repeat TICK k ++ []) with (repeat TICK (S k) ++ []) in E1.
      rewrite app_nil_r in E1. destruct m as [|m]; [apply Hr; cbn [repeat app] in E; eexists; symmetry; exact E|].
      apply (f_equal (@length _)) in E, E1. rewrite !app_length, !repeat_length in *. pose proof (strip_length a) as HS. rewrite HA in HS.
      cbn [length] in *. lia.
    + assert (Hs : ~ starts_tick ((c :: t') ++ repeat TICK n)) by (intros (x & X); cbn in X; congruence).
      rewrite (ticks_repeat _ _ Hs) in H. destruct n as [|n']; [congruence|].
      destruct (close (S n') 0 ((c :: t') ++ repeat TICK (S n'))) as [[a b]|] eqn:EC; [|discriminate].
      assert (HA : strip a = c :: t' /\ b = []) by (split; congruence). destruct HA as [HA ->].
      destruct (close_sound (S n') Hn _ O _ _ EC) as (E1 & H1 & _ & H3). rewrite app_nil_r in E1.
      change ((c :: t') ++ repeat TICK (S n') = a ++ repeat TICK (S n')) in E1. apply app_inv_tail in E1. subst a.
      split; [discriminate|]. split; [intros (x & X); congruence|]. split; [exact H1|]. split; [exact H3|].
      destruct (strip_cases (c :: t')) as [[_ HP]|[HP _]]; [exact HP|]. rewrite HA in HP. lia.
  - intros (HN & HS & HE & HH & HP).
    assert (Hs : ~ starts_tick (t ++ repeat TICK n)).
    { intros (x & X). destruct t as [|c t']; [congruence|]. cbn in X. apply HS. exists t'. congruence. }
    unfold code_span, raw_span. rewrite (ticks_repeat _ _ Hs). destruct n as [|n']; [congruence|].
    pose proof (close_complete (S n') [] HB t O HN HE HH) as HC. rewrite app_nil_r in HC. rewrite HC. cbn [repeat app].
    destruct (strip_cases t) as [[-> _]|[_ HQ]]; [reflexivity|]. elim (HP HQ).
Qed.
