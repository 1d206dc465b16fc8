(** Substrate: strings, decidable orders, outcomes, loops.

    Nothing here models a function of /repo; these are the Rust language and
    standard library notions the model is written in. *)
From Coq Require Export List NArith Bool Lia Ascii String Arith.
Export ListNotations.
Open Scope list_scope.

Notation length := List.length (only parsing).
Notation concat := List.concat (only parsing).

(** A Rust [char] is a Unicode scalar value; a Rust [str]/[String] is the list of
    its scalar values.  (Byte level reading is modelled in Utf8.v.) *)
Definition chr := N.
Definition str := list chr.

(** ASCII literals of the source code. *)
Fixpoint L (s : string) : str :=
  match s with
  | EmptyString => []
  | String a s' => N_of_ascii a :: L s'
  end.

(** A computation that may panic ([panic!], [unwrap], [expect], [todo!],
    [assert!], map index).  A panic is never silently turned into a value. *)
Inductive outcome (A : Type) : Type :=
| Done (a : A)
| Panic.
Arguments Done {A} a.
Arguments Panic {A}.

Definition obind {A B} (x : outcome A) (f : A -> outcome B) : outcome B :=
  match x with Done a => f a | Panic => Panic end.
Notation "'let*' x := e 'in' k" := (obind e (fun x => k))
  (at level 200, x name, e at level 100, k at level 200, right associativity).

Definition omap_out {A B} (f : A -> B) (x : outcome A) : outcome B :=
  match x with Done a => Done (f a) | Panic => Panic end.

(** [opt.unwrap()], [opt.expect(..)], [map[key]] *)
Definition unwrap {A} (x : option A) : outcome A :=
  match x with Some a => Done a | None => Panic end.

(** [for a in l { s = f s a }] with panics aborting the loop. *)
Fixpoint for_each {S A} (l : list A) (f : S -> A -> outcome S) (s : S) : outcome S :=
  match l with
  | [] => Done s
  | a :: l' => let* s' := f s a in for_each l' f s'
  end.

Fixpoint mapO {A B} (f : A -> outcome B) (l : list A) : outcome (list B) :=
  match l with
  | [] => Done []
  | a :: l' => let* b := f a in let* bs := mapO f l' in Done (b :: bs)
  end.

(** Total orders, as used by [Ord] of Rust's derived orders. *)
Class Ord (K : Type) := {
  cmp : K -> K -> comparison;
  cmp_eq : forall a b, cmp a b = Eq <-> a = b;
  cmp_opp : forall a b, cmp b a = CompOpp (cmp a b);
  cmp_trans : forall a b c, cmp a b = Lt -> cmp b c = Lt -> cmp a c = Lt
}.

Definition lt {K} `{Ord K} (a b : K) : Prop := cmp a b = Lt.
Definition le {K} `{Ord K} (a b : K) : Prop := cmp a b <> Gt.

Definition eqb {K} `{Ord K} (a b : K) : bool :=
  match cmp a b with Eq => true | _ => false end.

Section OrdFacts.
  Context {K : Type} `{O : Ord K}.
  Implicit Types a b c : K.

  Lemma cmp_refl a : cmp a a = Eq.
  Proof. apply cmp_eq; reflexivity. Qed.

  Lemma eqb_true a b : eqb a b = true <-> a = b.
  Proof.
    unfold eqb. rewrite <- (cmp_eq a b).
    destruct (cmp a b); split; congruence.
  Qed.

  Lemma eqb_refl a : eqb a a = true.
  Proof. apply eqb_true; reflexivity. Qed.

  Lemma eqb_false a b : eqb a b = false <-> a <> b.
  Proof.
    rewrite <- not_true_iff_false, eqb_true. tauto.
  Qed.

  Lemma eqb_sym a b : eqb a b = eqb b a.
  Proof.
    destruct (eqb b a) eqn:E.
    - apply eqb_true in E. subst. apply eqb_refl.
    - apply eqb_false in E. apply eqb_false. congruence.
  Qed.

  Lemma eqb_spec a b : reflect (a = b) (eqb a b).
  Proof. apply iff_reflect. symmetry. apply eqb_true. Qed.

  Lemma ord_eq_dec a b : {a = b} + {a <> b}.
  Proof. destruct (eqb_spec a b); [left|right]; assumption. Qed.

  Lemma lt_irrefl a : ~ lt a a.
  Proof. unfold lt. rewrite cmp_refl. discriminate. Qed.

  Lemma lt_trans a b c : lt a b -> lt b c -> lt a c.
  Proof. apply cmp_trans. Qed.

  Lemma lt_asym a b : lt a b -> ~ lt b a.
  Proof. intros H1 H2. apply (lt_irrefl a). eapply lt_trans; eassumption. Qed.

  Lemma lt_neq a b : lt a b -> a <> b.
  Proof. intros H ->. exact (lt_irrefl _ H). Qed.

  Lemma cmp_gt_lt a b : cmp a b = Gt <-> lt b a.
  Proof. unfold lt. rewrite (cmp_opp a b). destruct (cmp a b); cbn; split; congruence. Qed.

  Lemma lt_total a b : lt a b \/ a = b \/ lt b a.
  Proof.
    destruct (cmp a b) eqn:E.
    - right; left. apply cmp_eq; exact E.
    - left; exact E.
    - right; right. apply cmp_gt_lt; exact E.
  Qed.

  Lemma le_lt_eq a b : le a b <-> lt a b \/ a = b.
  Proof.
    unfold le, lt. rewrite <- (cmp_eq a b). destruct (cmp a b); intuition congruence.
  Qed.

  Lemma le_refl a : le a a.
  Proof. apply le_lt_eq; right; reflexivity. Qed.

  Lemma le_trans a b c : le a b -> le b c -> le a c.
  Proof.
    rewrite !le_lt_eq. intros [H1| ->] [H2| ->]; auto.
    left. eapply lt_trans; eassumption.
  Qed.

  Lemma le_antisym a b : le a b -> le b a -> a = b.
  Proof.
    rewrite !le_lt_eq. intros [H1|H1] [H2|H2]; subst; auto.
    exfalso. exact (lt_asym _ _ H1 H2).
  Qed.

  Lemma not_lt_le a b : ~ lt a b <-> le b a.
  Proof.
    rewrite le_lt_eq. destruct (lt_total a b) as [H|[H|H]].
    - split; intros HH; [contradiction|]. destruct HH as [HH|HH].
      + exfalso; exact (lt_asym _ _ H HH).
      + subst. exact (lt_irrefl _).
    - subst. split; auto. intros _. apply lt_irrefl.
    - split; auto. intros _ H2. exact (lt_asym _ _ H H2).
  Qed.

  Lemma le_total a b : le a b \/ le b a.
  Proof. rewrite !le_lt_eq. destruct (lt_total a b) as [H|[H|H]]; auto. Qed.
End OrdFacts.

#[export] Instance Ord_N : Ord N.
Proof.
  refine {| cmp := N.compare |}.
  - apply N.compare_eq_iff.
  - intros; apply N.compare_antisym.
  - intros a b c; rewrite !N.compare_lt_iff; apply N.lt_trans.
Defined.

(** lexicographic order of sequences ([Vec<T>: Ord], [str: Ord]; for strings
    the order of scalar values equals the order of the UTF-8 bytes: C106). *)
Fixpoint list_cmp {A} (c : A -> A -> comparison) (x y : list A) : comparison :=
  match x, y with
  | [], [] => Eq
  | [], _ :: _ => Lt
  | _ :: _, [] => Gt
  | a :: x', b :: y' => match c a b with Eq => list_cmp c x' y' | r => r end
  end.

#[export] Instance Ord_list {A} `{Ord A} : Ord (list A).
Proof.
  refine {| cmp := list_cmp cmp |}.
  - induction a as [|a x IH]; destruct b as [|b y]; cbn; try (split; congruence).
    destruct (cmp a b) eqn:E.
    + apply cmp_eq in E. subst. rewrite IH. split; congruence.
    + split; [discriminate|]. intros HH; inversion HH; subst. rewrite cmp_refl in E; discriminate.
    + split; [discriminate|]. intros HH; inversion HH; subst. rewrite cmp_refl in E; discriminate.
  - induction a as [|a x IH]; destruct b as [|b y]; cbn; try reflexivity.
    rewrite (cmp_opp a b). destruct (cmp a b); cbn; auto.
  - induction a as [|a x IH]; destruct b as [|b y]; destruct c as [|c z]; cbn;
      try congruence.
    destruct (cmp a b) eqn:E1; try discriminate;
      destruct (cmp b c) eqn:E2; try discriminate; intros H1 H2.
    + apply cmp_eq in E1. subst. rewrite E2. eapply IH; eassumption.
    + apply cmp_eq in E1. subst. rewrite E2. reflexivity.
    + apply cmp_eq in E2. subst. rewrite E1. reflexivity.
    + rewrite (cmp_trans _ _ _ E1 E2). reflexivity.
Defined.

#[export] Instance Ord_prod {A B} `{Ord A} `{Ord B} : Ord (A * B).
Proof.
  refine {| cmp := fun x y => match cmp (fst x) (fst y) with
                              | Eq => cmp (snd x) (snd y) | r => r end |}.
  - intros [a b] [a' b']; cbn. destruct (cmp a a') eqn:E.
    + apply cmp_eq in E. subst. rewrite cmp_eq. split; congruence.
    + split; [discriminate|]. intros HH; inversion HH; subst. rewrite cmp_refl in E; discriminate.
    + split; [discriminate|]. intros HH; inversion HH; subst. rewrite cmp_refl in E; discriminate.
  - intros [a b] [a' b']; cbn. rewrite (cmp_opp a a'). destruct (cmp a a'); cbn; auto using cmp_opp.
  - intros [a b] [a' b'] [a'' b'']; cbn.
    destruct (cmp a a') eqn:E1; try discriminate;
      destruct (cmp a' a'') eqn:E2; try discriminate; intros H1 H2.
    + apply cmp_eq in E1. subst. rewrite E2. eapply cmp_trans; eassumption.
    + apply cmp_eq in E1. subst. rewrite E2. reflexivity.
    + apply cmp_eq in E2. subst. rewrite E1. reflexivity.
    + rewrite (cmp_trans _ _ _ E1 E2). reflexivity.
Defined.

Definition str_eqb (a b : str) : bool := eqb a b.

Definition option_eqb {A} (e : A -> A -> bool) (x y : option A) : bool :=
  match x, y with
  | None, None => true
  | Some a, Some b => e a b
  | _, _ => false
  end.

(** [iter.any(|x| p x)] on an [is_empty] test *)
Definition is_nil {A} (l : list A) : bool := match l with [] => true | _ => false end.

Definition opt_default {A} (o : option A) (d : A) : A :=
  match o with Some a => a | None => d end.

(** [slice.join(sep)] *)
Fixpoint join (sep : str) (l : list str) : str :=
  match l with
  | [] => []
  | [x] => x
  | x :: l' => x ++ sep ++ join sep l'
  end.

(** Facts about loops. *)
Lemma for_each_app {S A} (l1 l2 : list A) (f : S -> A -> outcome S) s :
  for_each (l1 ++ l2) f s = let* s' := for_each l1 f s in for_each l2 f s'.
Proof.
  revert s. induction l1 as [|a l1 IH]; intros s; cbn; [reflexivity|].
  destruct (f s a); cbn; auto.
Qed.

Lemma for_each_done {S A} (l : list A) (f : S -> A -> outcome S) (g : S -> A -> S) s :
  (forall s a, In a l -> f s a = Done (g s a)) ->
  for_each l f s = Done (fold_left g l s).
Proof.
  revert s. induction l as [|a l IH]; intros s Hf; cbn; [reflexivity|].
  rewrite Hf by (left; reflexivity). cbn. apply IH. intros; apply Hf; right; assumption.
Qed.

Lemma flat_map_nil_iff {A B} (f : A -> list B) l :
  flat_map f l = [] <-> forall a, In a l -> f a = [].
Proof.
  induction l as [|a l IH]; cbn.
  - split; [intros _ a []|reflexivity].
  - assert (Happ : forall (x y : list B), x ++ y = [] <-> x = [] /\ y = []).
    { intros x y; split; [apply app_eq_nil|intros [-> ->]; reflexivity]. }
    rewrite Happ, IH. split.
    + intros [H1 H2] x [<-|Hx]; auto.
    + intros Hx; split; auto.
Qed.

Lemma flat_map_ext_in {A B} (f g : A -> list B) l :
  (forall a, In a l -> f a = g a) -> flat_map f l = flat_map g l.
Proof.
  induction l as [|a l IH]; cbn; intros Hfg; [reflexivity|].
  rewrite Hfg, IH; auto.
Qed.

Lemma map_flat_map {A B C} (f : B -> C) (g : A -> list B) l :
  map f (flat_map g l) = flat_map (fun a => map f (g a)) l.
Proof. induction l as [|a l IH]; cbn; [reflexivity|]. rewrite map_app, IH. reflexivity. Qed.

Lemma flat_map_flat_map {A B C} (f : B -> list C) (g : A -> list B) l :
  flat_map f (flat_map g l) = flat_map (fun a => flat_map f (g a)) l.
Proof. induction l as [|a l IH]; cbn; [reflexivity|]. rewrite flat_map_app, IH. reflexivity. Qed.

Lemma filter_filter {A} (p q : A -> bool) l :
  filter p (filter q l) = filter (fun x => q x && p x) l.
Proof.
  induction l as [|a l IH]; cbn; [reflexivity|].
  destruct (q a); cbn; [destruct (p a)|]; rewrite ?IH; reflexivity.
Qed.

Lemma is_nil_true {A} (l : list A) : is_nil l = true <-> l = [].
Proof. destruct l; cbn; split; congruence. Qed.

Lemma is_nil_false {A} (l : list A) : is_nil l = false <-> l <> [].
Proof. destruct l; cbn; split; congruence. Qed.
