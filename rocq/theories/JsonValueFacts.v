(** The model reads exactly the values of JsonValues.v. *)
From Coq Require Import Sorting.Sorted Lia.
From Verif Require Import Base OMap Models Location Serialize JsonValues.
Open Scope N_scope.

Definition exact {A} (f : json -> option A) (P : json -> A -> Prop) : Prop := forall v a, f v = Some a <-> P v a.

Lemma mapM_all {A B} (f : A -> option B) (R : A -> B -> Prop) :
  (forall a b, f a = Some b <-> R a b) -> forall l l', mapM f l = Some l' <-> Forall2 R l l'.
Proof.
  intros H l. induction l as [|a l IH]; intros l'; cbn [mapM].
  - split; intros X; [inversion X; constructor|inversion X; reflexivity].
  - split.
    + intros X. destruct (f a) as [b|] eqn:Ea; [|discriminate]. destruct (mapM f l) as [bs|] eqn:El; [|discriminate].
      inversion X; subst. constructor; [apply H; exact Ea|apply IH; reflexivity].
    + intros X. inversion X as [|? b ? bs Hb Hbs]; subst. apply H in Hb. apply IH in Hbs. rewrite Hb, Hbs. reflexivity.
Qed.

Lemma unjstr_exact : exact unjstr a_text.
Proof. intros v a. unfold a_text. destruct v; cbn; split; intros H; inversion H; reflexivity. Qed.
Lemma unjusize_exact : exact unjusize a_number.
Proof.
  intros v a. unfold a_number. destruct v; cbn [unjusize]; try (split; [discriminate|intros [H _]; discriminate]).
  change (2 ^ 64) with USIZE. destruct (N.ltb_spec n USIZE) as [H|H].
  - split; [intros E; injection E as <-; auto|]. intros [E _]. injection E as ->. reflexivity.
  - split; [discriminate|]. intros [E X]. injection E as ->. lia.
Qed.
Lemma unjopt_exact {A} (f : json -> option A) P : exact f P -> exact (unjopt f) (or_null P).
Proof.
  intros H v o. unfold or_null.
  assert (S : v <> JNull -> option_map Some (f v) = Some o <-> match o with None => v = JNull | Some a => v <> JNull /\ P v a end).
  { intros V. destruct o as [a|].
    - rewrite <- (H v a). destruct (f v) as [b|]; cbn [option_map]; split; intros E.
      + injection E as ->. auto.
      + destruct E as [_ E]. injection E as ->. reflexivity.
      + discriminate.
      + destruct E as [_ E]. discriminate.
    - destruct (f v); cbn; split; intros E; try discriminate; contradiction. }
  destruct v; try (apply S; discriminate). cbn [unjopt]. destruct o as [a|].
  - split; [discriminate|intros [E _]; destruct (E eq_refl)].
  - tauto.
Qed.
Lemma unjlist_exact {A} (f : json -> option A) P : exact f P -> exact (unjlist f) (a_list P).
Proof.
  intros H v l. unfold a_list. destruct v; cbn [unjlist]; try (split; [discriminate|intros (vs & E & _); discriminate]).
  rewrite (mapM_all f P H). split; [eauto|]. intros (vs & E & X). injection E as ->. exact X.
Qed.

(** ** Entries *)
Definition named (name : str) (l : list (str * json)) := filter (fun e => eqb (fst e) name) l.
Lemma named_nil name l : named name l = [] <-> absent name l.
Proof.
  unfold absent. induction l as [|[k v] l IH]; cbn [named filter map fst]; [tauto|].
  destruct (eqb_spec k name) as [->|N].
  - split; [discriminate|]. intros X. destruct X. left. reflexivity.
  - unfold named in IH. rewrite IH. cbn [In]. tauto.
Qed.
Lemma named_one name l e : named name l = [e] <-> fst e = name /\ once name l (snd e).
Proof.
  unfold once. induction l as [|[k v] l IH].
  - cbn. split; [discriminate|]. intros (_ & l1 & l2 & X & _). destruct l1; discriminate.
  - cbn [named filter fst]. destruct (eqb_spec k name) as [->|N].
    + split.
      * intros X. injection X as <- X. split; [reflexivity|]. exists [], l. split; [reflexivity|]. split; [intros []|].
        apply named_nil. exact X.
      * intros (E & l1 & l2 & X & H1 & H2). destruct l1 as [|y l1].
        -- cbn in X. injection X as -> ->. f_equal; [destruct e; cbn in *; congruence|apply named_nil; exact H2].
        -- injection X as <- ->. destruct H1. left. reflexivity.
    + unfold named in IH. rewrite IH. split.
      * intros (E & l1 & l2 & -> & H1 & H2). split; [exact E|]. exists ((k, v) :: l1), l2. split; [reflexivity|].
        split; [|exact H2]. intros [X|X]; [exact (N X)|exact (H1 X)].
      * intros (E & l1 & l2 & X & H1 & H2). split; [exact E|]. destruct l1 as [|y l1].
        -- injection X as X _ _. contradiction.
        -- injection X as <- ->. exists l1, l2. split; [reflexivity|]. split; [|exact H2]. intros Y. apply H1. right. exact Y.
Qed.
Lemma field_missing name l : field name l = Missing <-> absent (L name) l.
Proof.
  rewrite <- named_nil. unfold field. change (filter _ l) with (named (L name) l).
  destruct (named (L name) l) as [|e [|e' r]]; split; intros X; try discriminate; reflexivity.
Qed.
Lemma field_once name l v : field name l = Once v <-> once (L name) l v.
Proof.
  unfold field. change (filter _ l) with (named (L name) l). split.
  - intros X. destruct (named (L name) l) as [|e [|e' r]] eqn:E; try discriminate. injection X as <-.
    apply named_one in E. apply E.
  - intros X. assert (E : named (L name) l = [(L name, v)]) by (apply named_one; auto). rewrite E. reflexivity.
Qed.
Lemma required_iff {A} (f : json -> option A) P name l a : exact f P ->
  required f (field name l) = Some a <-> entry P (L name) l a.
Proof.
  intros H. unfold entry. split.
  - intros X. destruct (field name l) as [|v|] eqn:E; cbn [required] in X; try discriminate.
    exists v. split; [apply field_once, E|apply H, X].
  - intros (v & E & X). apply field_once in E. rewrite E. apply H, X.
Qed.
Lemma optional_iff {A} (f : json -> option A) P name l o : exact f P ->
  optional f (field name l) = Some o <-> may_be P (L name) l o.
Proof.
  intros H. unfold may_be. split.
  - intros X. destruct (field name l) as [|v|] eqn:E; cbn [optional] in X; try discriminate.
    + left. injection X as <-. split; [apply field_missing, E|reflexivity].
    + right. exists v. split; [apply field_once, E|]. apply (unjopt_exact f P H), X.
  - intros [[E ->]|(v & E & X)].
    + apply field_missing in E. rewrite E. reflexivity.
    + apply field_once in E. rewrite E. apply (unjopt_exact f P H), X.
Qed.

(** ** Attributes *)
Lemma last_entry {V} k (s : V) (l : list (str * V)) :
  oget k (rev l) = Some s <-> exists l1 l2, l = l1 ++ (k, s) :: l2 /\ ~ In k (map fst l2).
Proof.
  induction l as [|[k' v] l IH] using rev_ind.
  - cbn. split; [discriminate|]. intros (l1 & l2 & X & _). destruct l1; discriminate.
  - rewrite rev_app_distr. cbn [rev app oget]. destruct (eqb_spec k k') as [<-|N].
    + split.
      * intros X. injection X as ->. exists l, []. split; [reflexivity|intros []].
      * intros (l1 & l2 & X & H2). destruct l2 as [|y l2] using rev_ind.
        -- apply app_inj_tail in X. destruct X as [_ X]. injection X as ->. reflexivity.
        -- exfalso. change ((k, s) :: l2 ++ [y]) with (((k, s) :: l2) ++ [y]) in X. rewrite app_assoc in X.
           apply app_inj_tail in X. destruct X as [_ <-]. apply H2. rewrite map_app. apply in_or_app. right. left. reflexivity.
    + rewrite IH. split.
      * intros (l1 & l2 & -> & H2). exists l1, (l2 ++ [(k', v)]). split; [rewrite <- app_assoc; reflexivity|].
        rewrite map_app. intros X. apply in_app_iff in X. destruct X as [X|[X|[]]]; [exact (H2 X)|exact (N (eq_sym X))].
      * intros (l1 & l2 & X & H2). destruct l2 as [|y l2] using rev_ind.
        -- apply app_inj_tail in X. destruct X as [_ X]. congruence.
        -- clear IHl2. change ((k, s) :: l2 ++ [y]) with (((k, s) :: l2) ++ [y]) in X. rewrite app_assoc in X.
           apply app_inj_tail in X. destruct X as [-> _]. exists l1, l2. split; [reflexivity|].
           intros Y. apply H2. rewrite map_app. apply in_or_app. left. exact Y.
Qed.

Definition text_entry (e : str * json) (e' : str * str) : Prop := e = (fst e', JStr (snd e')).
Lemma text_entries l l' :
  mapM (fun e : str * json => option_map (pair (fst e)) (unjstr (snd e))) l = Some l' <-> l = map (fun e => (fst e, JStr (snd e))) l'.
Proof.
  rewrite (mapM_all _ text_entry).
  - split.
    + induction 1 as [|e e' l l' E _ IH]; [reflexivity|]. cbn [map]. rewrite E, IH. reflexivity.
    + revert l. induction l' as [|e l' IH]; intros l ->; constructor; [reflexivity|apply IH; reflexivity].
  - intros [k v] [k' s]. unfold text_entry. cbn [fst snd]. destruct v; cbn; split; intros X; try discriminate; injection X as -> ->; reflexivity.
Qed.
Lemma no_text l : mapM (fun e : str * json => option_map (pair (fst e)) (unjstr (snd e))) l = None ->
  exists k x, In (k, x) l /\ forall s, x <> JStr s.
Proof.
  induction l as [|[k v] l IH]; cbn [mapM]; [discriminate|]. intros X.
  destruct (unjstr v) as [s|] eqn:E; cbn [fst snd option_map] in X; rewrite ?E in X; cbn [option_map] in X.
  - destruct (mapM _ l) as [r|]; [discriminate|]. destruct (IH eq_refl) as (k' & x & H1 & H2). exists k', x. split; [right; exact H1|exact H2].
  - exists k, v. split; [left; reflexivity|]. intros s ->. discriminate.
Qed.

Lemma unjmap_exact : exact (unjmap unjstr) attributes_value.
Proof.
  intros v m. unfold attributes_value. destruct v; cbn [unjmap]; try (split; [discriminate|intros (l' & X & _); discriminate]).
  destruct (mapM _ l) as [l'|] eqn:E; cbn [option_map].
  - apply text_entries in E.
    assert (A : forall k s, (exists l1 l2, l = l1 ++ (k, JStr s) :: l2 /\ ~ In k (map fst l2)) <->
                            oget k (ocollect l') = Some s).
    { intros k s. rewrite oget_ocollect, last_entry. subst l. split.
      - intros (l1 & l2 & X & H). apply map_eq_app in X. destruct X as (a & b & -> & _ & X).
        destruct b as [|[k' s'] b]; [discriminate|]. cbn [map fst snd] in X. injection X as -> -> <-.
        exists a, b. split; [reflexivity|]. intros Y. apply H. rewrite map_map. exact Y.
      - intros (l1 & l2 & -> & H). rewrite map_app. cbn [map fst snd]. do 2 eexists. split; [reflexivity|].
        rewrite map_map. exact H. }
    split.
    + intros X. injection X as <-. exists l. split; [reflexivity|]. split; [|split].
      * intros k x Hx. subst l. apply in_map_iff in Hx. destruct Hx as (e & X & _). injection X as _ <-. eauto.
      * apply ocollect_sorted.
      * intros k s. rewrite A. symmetry. apply oget_In_iff, ocollect_sorted.
    + intros (l0 & X & _ & S & H). injection X as <-. f_equal. apply osorted_ext.
      * apply ocollect_sorted.
      * exact S.
      * intros k. destruct (oget k m) as [s|] eqn:G.
        -- apply A, H. apply oget_Some_In. exact G.
        -- destruct (oget k (ocollect l')) as [s|] eqn:G'; [|reflexivity]. apply A, H in G'.
           apply oget_In_iff in G'; [congruence|exact S].
  - split; [discriminate|]. intros (l0 & X & T & _). injection X as <-. apply no_text in E. destruct E as (k & x & Hx & N).
    destruct (T k x Hx) as [s ->]. destruct (N s eq_refl).
Qed.

(** ** Structs *)

Lemma unjson_in_file_exact : exact unjson_in_file place_value.
Proof.
  intros v i. split.
  - intros X. destruct v as [| | | | | |l]; try discriminate. destruct l as [|[k x] [|]]; try discriminate. cbn [unjson_in_file] in X.
    destruct (eqb_spec k (L "Line")) as [->|_].
    + destruct (unjusize x) as [n|] eqn:E; [|discriminate]. injection X as <-. constructor. apply unjusize_exact, E.
    + destruct (eqb_spec k (L "LineAndColumn")) as [->|_].
      * destruct x as [| | | | |[|a [|b [|]]]|]; try discriminate.
        destruct (unjusize a) as [n|] eqn:E; [|discriminate]. destruct (unjusize b) as [c|] eqn:E'; [|discriminate].
        injection X as <-. constructor; apply unjusize_exact; assumption.
      * destruct (eqb_spec k (L "String")) as [->|_]; [|discriminate].
        destruct (unjstr x) as [s|] eqn:E; [|discriminate]. injection X as <-. apply unjstr_exact in E. rewrite E. constructor.
  - intros [x n H|x y n c H1 H2|s]; cbn [unjson_in_file].
    + apply unjusize_exact in H. rewrite H. reflexivity.
    + apply unjusize_exact in H1, H2. rewrite H1, H2. reflexivity.
    + reflexivity.
Qed.

Ltac read_all := repeat match goal with
  | X : match ?e with Some _ => _ | None => None end = Some _ |- _ =>
      let E := fresh "E" in destruct e eqn:E; [|discriminate X]
  end.


Lemma unjson_location_exact : exact unjson_location location_value.
Proof.
  intros v x. split.
  - intros X. destruct v as [| | | | |l|l]; try discriminate.
    + destruct l as [|a [|b [|]]]; try discriminate. cbn [unjson_location] in X. read_all. injection X as <-. constructor.
      * apply unjstr_exact. assumption.
      * apply (unjopt_exact _ _ unjson_in_file_exact). assumption.
    + cbn [unjson_location] in X. read_all. injection X as <-. constructor.
      * apply (required_iff _ _ _ _ _ unjstr_exact). assumption.
      * apply (optional_iff _ _ _ _ _ unjson_in_file_exact). assumption.
  - intros [l f i H1 H2|a b f i H1 H2]; cbn [unjson_location].
    + apply (required_iff _ _ _ _ _ unjstr_exact) in H1. apply (optional_iff _ _ _ _ _ unjson_in_file_exact) in H2.
      rewrite H1, H2. reflexivity.
    + apply unjstr_exact in H1. apply (unjopt_exact _ _ unjson_in_file_exact) in H2. rewrite H1, H2. reflexivity.
Qed.
Lemma unjson_reference_exact : exact unjson_reference reference_value.
Proof.
  intros v x. split.
  - intros X. destruct v as [| | | | |l|l]; try discriminate.
    + destruct l as [|a [|b [|c [|]]]]; try discriminate. cbn [unjson_reference] in X. read_all. injection X as <-. constructor.
      * apply unjstr_exact. assumption.
      * apply (unjopt_exact _ _ unjstr_exact). assumption.
      * apply unjson_location_exact. assumption.
    + cbn [unjson_reference] in X. read_all. injection X as <-. constructor.
      * apply (required_iff _ _ _ _ _ unjstr_exact). assumption.
      * apply (optional_iff _ _ _ _ _ unjstr_exact). assumption.
      * apply (required_iff _ _ _ _ _ unjson_location_exact). assumption.
  - intros [l i t y H1 H2 H3|a b c i t y H1 H2 H3]; cbn [unjson_reference].
    + apply (required_iff _ _ _ _ _ unjstr_exact) in H1. apply (optional_iff _ _ _ _ _ unjstr_exact) in H2.
      apply (required_iff _ _ _ _ _ unjson_location_exact) in H3. rewrite H1, H2, H3. reflexivity.
    + apply unjstr_exact in H1. apply (unjopt_exact _ _ unjstr_exact) in H2. apply unjson_location_exact in H3.
      rewrite H1, H2, H3. reflexivity.
Qed.
Lemma unjson_requirement_exact : exact unjson_requirement requirement_value.
Proof.
  pose proof (unjlist_exact _ _ unjson_reference_exact) as RS. pose proof (unjlist_exact _ _ unjstr_exact) as TS.
  intros v x. split.
  - intros X. destruct v as [| | | | |l|l]; try discriminate.
    + destruct l as [|a1 [|a2 [|a3 [|a4 [|a5 [|a6 [|a7 [|]]]]]]]]; try discriminate. cbn [unjson_requirement] in X. read_all.
      injection X as <-. constructor.
      * apply unjstr_exact. assumption.
      * apply (unjopt_exact _ _ unjstr_exact). assumption.
      * apply unjson_location_exact. assumption.
      * apply RS. assumption.
      * apply RS. assumption.
      * apply TS. assumption.
      * apply unjmap_exact. assumption.
    + cbn [unjson_requirement] in X. read_all. injection X as <-. constructor.
      * apply (required_iff _ _ _ _ _ unjstr_exact). assumption.
      * apply (optional_iff _ _ _ _ _ unjstr_exact). assumption.
      * apply (required_iff _ _ _ _ _ unjson_location_exact). assumption.
      * apply (required_iff _ _ _ _ _ RS). assumption.
      * apply (required_iff _ _ _ _ _ RS). assumption.
      * apply (required_iff _ _ _ _ _ TS). assumption.
      * apply (required_iff _ _ _ _ _ unjmap_exact). assumption.
  - intros [l i t y c d g a H1 H2 H3 H4 H5 H6 H7|a1 a2 a3 a4 a5 a6 a7 i t y c d g a H1 H2 H3 H4 H5 H6 H7]; cbn [unjson_requirement].
    + apply (required_iff _ _ _ _ _ unjstr_exact) in H1. apply (optional_iff _ _ _ _ _ unjstr_exact) in H2.
      apply (required_iff _ _ _ _ _ unjson_location_exact) in H3. apply (required_iff _ _ _ _ _ RS) in H4, H5.
      apply (required_iff _ _ _ _ _ TS) in H6. apply (required_iff _ _ _ _ _ unjmap_exact) in H7.
      rewrite H1, H2, H3, H4, H5, H6, H7. reflexivity.
    + apply unjstr_exact in H1. apply (unjopt_exact _ _ unjstr_exact) in H2. apply unjson_location_exact in H3.
      apply RS in H4, H5. apply TS in H6. apply unjmap_exact in H7. rewrite H1, H2, H3, H4, H5, H6, H7. reflexivity.
Qed.

Lemma unjson_requirements_exact v reqs : unjson_requirements v = Some reqs <-> requirements_value v reqs.
Proof. exact (unjlist_exact _ _ unjson_requirement_exact v reqs). Qed.
Lemma unjson_requirements_none v : unjson_requirements v = None <-> ~ exists reqs, requirements_value v reqs.
Proof.
  split.
  - intros E (reqs & X). apply unjson_requirements_exact in X. congruence.
  - intros N. destruct (unjson_requirements v) as [reqs|] eqn:E; [|reflexivity]. destruct N. exists reqs.
    apply unjson_requirements_exact, E.
Qed.
