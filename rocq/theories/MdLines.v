(** Line numbers, sections and what the blocks of a section refer to. *)
From Coq Require Import Sorting.Sorted.
From Verif Require Import Base OMap Models Unicode Regex Utf8 MdLex MdSyntax MdLexFacts ReadFacts
  MdParser MdSpec MdMachine MdRefine MdExact MdFacts.
Open Scope N_scope.

(** Strictly increasing line numbers. *)
Definition nsorted (ls : list nline) : Prop := StronglySorted (fun a b => fst a < fst b) ls.

Lemma number_bounds ls : forall n x, In x (number n ls) -> n < fst x <= n + N.of_nat (length ls).
Proof.
  induction ls as [|l ls IH]; intros n x H; [contradiction|]. cbn [number] in H.
  cbn [length]. rewrite Nat2N.inj_succ. destruct H as [<-|H]; [cbn; lia|]. apply IH in H. lia.
Qed.

Lemma number_sorted ls : forall n, nsorted (number n ls).
Proof.
  induction ls as [|l ls IH]; intros n; cbn [number]; constructor; [apply IH|].
  apply Forall_forall. intros x H. apply number_bounds in H. cbn. lia.
Qed.

Lemma number_app a b : forall n, number n (a ++ b) = number n a ++ number (n + N.of_nat (length a)) b.
Proof.
  induction a as [|l a IH]; intros n; cbn [app number length].
  - rewrite N.add_0_r. reflexivity.
  - rewrite IH. do 3 f_equal. rewrite Nat2N.inj_succ. lia.
Qed.

Lemma number_snd ls : forall n, map snd (number n ls) = ls.
Proof. induction ls as [|l ls IH]; intros n; cbn; [reflexivity|]. rewrite IH. reflexivity. Qed.

Lemma nsorted_app a b : nsorted (a ++ b) ->
  nsorted a /\ nsorted b /\ (forall x y, In x a -> In y b -> fst x < fst y).
Proof.
  induction a as [|x a IH]; cbn [app]; intros H.
  - split; [constructor|]. split; [exact H|]. intros ? ? [].
  - inversion H as [|? ? H1 H2]; subst. apply IH in H1. destruct H1 as (Ha & Hb & Hab).
    rewrite Forall_forall in H2. split; [constructor; [exact Ha|]|split; [exact Hb|]].
    + apply Forall_forall. intros y Hy. apply H2, in_or_app. auto.
    + intros y z [<-|Hy] Hz; [apply H2, in_or_app; auto|apply Hab; assumption].
Qed.

(** Order preserving sublists. *)
Inductive sublist {A} : list A -> list A -> Prop :=
| sl_nil l : sublist [] l
| sl_skip x a l : sublist a l -> sublist a (x :: l)
| sl_keep x a l : sublist a l -> sublist (x :: a) (x :: l).

Lemma sublist_refl {A} (l : list A) : sublist l l.
Proof. induction l; [constructor|apply sl_keep; assumption]. Qed.
Lemma sublist_in {A} (a l : list A) x : sublist a l -> In x a -> In x l.
Proof. induction 1; intros H'; [contradiction|right; auto|]. destruct H' as [<-|H']; [left; reflexivity|right; auto]. Qed.
Lemma sublist_app_l {A} (a l b : list A) : sublist a l -> sublist a (b ++ l).
Proof. induction b; [auto|]. intros H. apply sl_skip. auto. Qed.
Lemma sublist_app_r {A} (a l b : list A) : sublist a l -> sublist a (l ++ b).
Proof. induction 1; cbn; [constructor|apply sl_skip; auto|apply sl_keep; auto]. Qed.
Lemma sublist_sorted (a l : list nline) : sublist a l -> nsorted l -> nsorted a.
Proof.
  induction 1 as [l|x a l H IH|x a l H IH]; intros HS; [constructor| |].
  - inversion HS; subst. apply IH. assumption.
  - inversion HS as [|? ? H1 H2]; subst. constructor; [apply IH; exact H1|].
    apply Forall_forall. intros y Hy. rewrite Forall_forall in H2. apply H2. eapply sublist_in; eassumption.
Qed.
Lemma sublist_trans {A} (a b c : list A) : sublist a b -> sublist b c -> sublist a c.
Proof.
  intros H1 H2. revert a H1. induction H2 as [l|x b l H IH|x b l H IH]; intros a H1.
  - inversion H1. constructor.
  - apply sl_skip. auto.
  - inversion H1; subst; [constructor|apply sl_skip; auto|apply sl_keep; auto].
Qed.

Section Lines.
  Context {U : UnicodeTables} (p : path).

  (** ** Sections *)
  Lemma sections_app a x b id t :
    heading_of (snd x) = Some (id, t) ->
    sections (a ++ x :: b) =
    (fst (sections a), snd (sections a) ++ (fst x, id, t, fst (sections b)) :: snd (sections b)).
  Proof.
    intros H. induction a as [|[n l] a IH]; cbn [app sections].
    - destruct x as [n l]. cbn [snd] in H. destruct (sections b) as [pre ss]. rewrite H. reflexivity.
    - rewrite IH. destruct (sections a) as [pre ss]. cbn [fst snd].
      destruct (heading_of l) as [[id' t']|]; reflexivity.
  Qed.

  Lemma sections_none ls : no_reqs ls -> sections ls = (ls, []).
  Proof.
    induction ls as [|[n l] ls IH]; intros H; [reflexivity|].
    apply no_reqs_cons in H. destruct H as [H1 H2]. cbn [sections]. rewrite IH by exact H2.
    cbn [snd] in H1. rewrite H1. reflexivity.
  Qed.

  Definition section_head (s : section) : N * str * str := fst s.

  Lemma headings_sections ls : headings ls = map section_head (snd (sections ls)).
  Proof.
    induction ls as [|[n l] ls IH]; [reflexivity|]. unfold headings in *. cbn [flat_map sections fst snd].
    rewrite IH. destruct (sections ls) as [pre ss]. destruct (heading_of l) as [[id t]|]; reflexivity.
  Qed.

  (** A section's lines are lines of the document. *)
  Lemma sections_split ls s : In s (snd (sections ls)) ->
    exists a l b, ls = a ++ (fst (fst (section_head s)), l) :: snd s ++ b /\
      heading_of l = Some (snd (fst (section_head s)), snd (section_head s)) /\
      match b with [] => True | x :: _ => heading_of (snd x) <> None end.
  Proof.
    induction ls as [|[n l] ls IH]; cbn [sections]; [intros []|].
    assert (Hpre : forall ls, exists b, ls = fst (sections ls) ++ b /\
                    match b with [] => True | x :: _ => heading_of (snd x) <> None end).
    { clear. induction ls as [|[n l] ls IH]; cbn [sections]; [exists []; split; auto|].
      destruct (sections ls) as [pre ss]. destruct IH as (b & -> & Hb). cbn [fst].
      destruct (heading_of l) as [[id t]|] eqn:E; cbn [fst].
      - eexists; split; [reflexivity|]. cbn. congruence.
      - exists b. split; [reflexivity|exact Hb]. }
    specialize (Hpre ls). destruct (sections ls) as [pre ss]. cbn [fst snd] in *.
    assert (Hrec : In s ss -> exists a l0 b, (n, l) :: ls = a ++ (fst (fst (section_head s)), l0) :: snd s ++ b /\
      heading_of l0 = Some (snd (fst (section_head s)), snd (section_head s)) /\
      match b with [] => True | x :: _ => heading_of (snd x) <> None end).
    { intros H. destruct (IH H) as (a & l0 & b & -> & Hh & Hb). exists ((n, l) :: a), l0, b.
      split; [reflexivity|]. split; assumption. }
    destruct (heading_of l) as [[id t]|] eqn:E; cbn [snd]; [|exact Hrec].
    intros [<-|H]; [|apply Hrec, H]. destruct Hpre as (b & -> & Hb).
    exists [], l, b. cbn. split; [reflexivity|]. split; assumption.
  Qed.

  (** ** Blocks refer to lines of the body *)
  (** The lines of a link block: attribute line and bullets. *)
  Definition block_lines (b : block) : list N :=
    match b with BDesc _ => [] | BText n _ _ _ => [n] | BLinks n _ _ refs => n :: map fst refs end.

  Lemma desc_rest b ls ts rest : desc_block b ls ts rest -> sublist rest ls.
  Proof.
    induction 1; try apply sublist_refl; apply sl_skip; assumption.
  Qed.
  Lemma text_rest ls ts rest : text_block ls ts rest -> sublist rest ls.
  Proof. induction 1; try apply sublist_refl; apply sl_skip; assumption. Qed.
  Lemma ref_rest ls rs rest : ref_block ls rs rest -> ls = rs ++ rest.
  Proof. induction 1; cbn [app]; [reflexivity|reflexivity|f_equal; assumption]. Qed.

  Definition blocks_lines (bs : list block) (e : ending) : list N :=
    flat_map block_lines bs ++ match e with Broken n _ => [n] | _ => [] end.

  Lemma sublist_app {A} (a b c d : list A) : sublist a c -> sublist b d -> sublist (a ++ b) (c ++ d).
  Proof.
    intros H1 H2. induction H1; cbn; [apply sublist_app_l; exact H2|apply sl_skip; assumption|apply sl_keep; assumption].
  Qed.
  Lemma sublist_map {A B} (f : A -> B) a l : sublist a l -> sublist (map f a) (map f l).
  Proof. induction 1; cbn; [constructor|apply sl_skip; assumption|apply sl_keep; assumption]. Qed.

  Lemma attrs_lines_all :
    (forall ls bs e, attrs ls bs e -> sublist (blocks_lines bs e) (map fst ls)) /\
    (forall ls bs e, after_links ls bs e -> sublist (blocks_lines bs e) (map fst ls)) /\
    (forall ls bs e, next_attr ls bs e -> sublist (blocks_lines bs e) (map fst ls)).
  Proof.
    apply attrs_mutind; try (intros; cbn; constructor; fail).
    - intros n l ls name first ts rest bs e _ _ _ _ HT _ IH. cbn. apply sl_keep.
      eapply sublist_trans; [exact IH|]. apply sublist_map. eapply text_rest; exact HT.
    - intros n l ls cov first refs rest bs e _ _ HR _ IH. cbn. apply sl_keep.
      apply ref_rest in HR. subst ls. rewrite map_app, <- app_assoc. apply sublist_app; [apply sublist_refl|exact IH].
    - intros. cbn. apply sl_keep. constructor.
    - intros n l ls blanks rest bs e _ -> _ _ IH. cbn. apply sl_skip. rewrite map_app. apply sublist_app_l, IH.
    - intros. cbn. apply sl_keep. constructor.
    - intros ls bs e _ IH. exact IH.
  Qed.

  Lemma body_lines ls bs e : body ls bs e -> sublist (blocks_lines bs e) (map fst ls).
  Proof.
    intros [blanks rest bs' e' _ HA|blanks n l ls' ts rest bs' e' _ _ HD HA].
    - rewrite map_app. apply sublist_app_l. apply (proj1 attrs_lines_all). exact HA.
    - rewrite map_app. apply sublist_app_l. cbn. apply sl_skip.
      eapply sublist_trans; [apply (proj1 attrs_lines_all); exact HA|]. apply sublist_map. eapply desc_rest; exact HD.
  Qed.

  (** ** Endings *)
  Lemma attrs_open_all :
    (forall ls bs e, attrs ls bs e ->
       (e = Open -> forall x, In x ls -> ~ plain_heading (snd x)) /\
       (e = Closed -> exists x, In x ls /\ plain_heading (snd x))) /\
    (forall ls bs e, after_links ls bs e ->
       (e = Open -> forall x, In x ls -> ~ plain_heading (snd x)) /\
       (e = Closed -> exists x, In x ls /\ plain_heading (snd x))) /\
    (forall ls bs e, next_attr ls bs e ->
       (e = Open -> forall x, In x ls -> ~ plain_heading (snd x)) /\
       (e = Closed -> exists x, In x ls /\ plain_heading (snd x))).
  Proof.
    assert (Hc : forall l, content l -> ~ plain_heading l) by (intros l [H1 _] [_ H2]; congruence).
    assert (Hb : forall l, blank l -> ~ plain_heading l)
      by (intros l -> [_ H2]; discriminate).
    apply attrs_mutind.
    - split; [intros _ x []|discriminate].
    - intros n l ls H. split; [discriminate|]. intros _. exists (n, l). split; [left; reflexivity|exact H].
    - intros n l ls name first ts rest bs e Hcl _ _ _ HT _ [IH1 IH2]. split.
      + intros He x [<-|Hx]; [apply Hc, Hcl|]. clear IH2. specialize (IH1 He).
        induction HT as [|n0 l0 ls0 H0|n0 l0 ls0 H0|n0 l0 ls0 ts0 rest0 H0 HT IH].
        * destruct Hx.
        * exact (IH1 _ Hx).
        * exact (IH1 _ Hx).
        * destruct Hx as [<-|Hx]; [|apply IH; assumption].
          destruct H0 as [H0|H0]; [apply Hb, H0|apply Hc, H0].
      + intros He. destruct (IH2 He) as (x & Hx & Hp). exists x. split; [|exact Hp]. right.
        eapply sublist_in; [eapply text_rest; exact HT|exact Hx].
    - intros n l ls cov first refs rest bs e Hcl _ HR _ [IH1 IH2]. split.
      + intros He x [<-|Hx]; [apply Hc, Hcl|]. clear IH2. specialize (IH1 He).
        induction HR as [|n0 l0 ls0 H0|n0 l0 ls0 rs0 rest0 H0 HR IH].
        * destruct Hx.
        * exact (IH1 _ Hx).
        * destruct Hx as [<-|Hx]; [apply Hc, H0|apply IH; assumption].
      + intros He. destruct (IH2 He) as (x & Hx & Hp). exists x. split; [|exact Hp]. right.
        rewrite (ref_rest _ _ _ HR). apply in_or_app. auto.
    - split; [intros _ x []|discriminate].
    - intros n l ls H. split; [discriminate|]. intros _. exists (n, l). split; [left; reflexivity|exact H].
    - intros. split; discriminate.
    - intros n l ls blanks rest bs e H -> HB _ [IH1 IH2]. split.
      + intros He x [<-|Hx].
        * destruct H as [H|[H _]]; [apply Hb, H|apply Hc, H].
        * apply in_app_or in Hx. destruct Hx as [Hx|Hx]; [apply Hb, HB, Hx|apply IH1; assumption].
      + intros He. destruct (IH2 He) as (x & Hx & Hp). exists x. split; [|exact Hp]. right. apply in_or_app. auto.
    - intros. split; discriminate.
    - intros ls bs e _ IH. exact IH.
  Qed.

  Lemma body_ending ls bs e : body ls bs e ->
    (e = Open -> forall x, In x ls -> ~ plain_heading (snd x)) /\
    (e = Closed -> exists x, In x ls /\ plain_heading (snd x)).
  Proof.
    assert (Hc : forall l, content l -> ~ plain_heading l) by (intros l [H1 _] [_ H2]; congruence).
    assert (Hb : forall l, blank l -> ~ plain_heading l)
      by (intros l -> [_ H2]; discriminate).
    intros [blanks rest bs' e' HB HA|blanks n l ls' ts rest bs' e' HB Hn HD HA];
      destruct (proj1 attrs_open_all _ _ _ HA) as [IH1 IH2]; split; intros He.
    - intros x Hx. apply in_app_or in Hx. destruct Hx as [Hx|Hx]; [apply Hb, HB, Hx|apply IH1; assumption].
    - destruct (IH2 He) as (x & Hx & Hp). exists x. split; [apply in_or_app; auto|exact Hp].
    - intros x Hx. apply in_app_or in Hx. destruct Hx as [Hx|[<-|Hx]]; [apply Hb, HB, Hx|apply Hc, Hn|].
      clear IH2. specialize (IH1 He).
      induction HD as [b|b n0 l0 ls0 H0|n0 l0 ls0 H0|b n0 l0 ls0 ts0 rest0 H0 HD IH
                      |n0 l0 ls0 ts0 rest0 H0 HD IH|n0 l0 ls0 ts0 rest0 H0 HD IH].
      + destruct Hx.
      + exact (IH1 _ Hx).
      + exact (IH1 _ Hx).
      + destruct Hx as [<-|Hx]; [apply Hb, H0|apply IH; assumption].
      + destruct Hx as [<-|Hx]; [apply Hc, H0|apply IH; assumption].
      + destruct Hx as [<-|Hx]; [apply Hc, H0|apply IH; assumption].
    - destruct (IH2 He) as (x & Hx & Hp). exists x. split; [|exact Hp]. apply in_or_app. right. right.
      eapply sublist_in; [eapply desc_rest; exact HD|exact Hx].
  Qed.
End Lines.
