(** What the display texts of errors and relations say, and the order they give. *)
From Coq Require Import Permutation Sorting.Sorted.
From Verif Require Import Base OMap Models Unicode Location Show Sort.
Open Scope N_scope.

(** ** Specification *)
(** All characters are above the blank. *)
Definition word (s : str) : Prop := Forall (fun c => 32 < c) s.

(** The groups of a sorted list of errors. *)
Definition group_no (e : error) : N :=
  match e with
  | EDuplicateArtefact _ => 0
  | EConfig _ => 1
  | EDuplicateAttribute _ _ _ => 2
  | EDuplicateRequirement _ _ => 3
  | EEmptyGraph => 4
  | EIo _ _ => 5
  | EFormat _ _ => 6
  | EUnusedRelation _ => 7
  | ECoveredWithWrongTitle _ _ _ _ | EDependWithWrongTitle _ _ _ _ | EReferencedWithoutTitle _ _
  | ERequirementWithoutTitle _ | EDependOnUnknownRequirement _ _ _ | ECoversUnknownRequirement _ _ _ => 8
  | EUnknownArtefact _ => 9
  end.

(** The errors of one requirement: its id, unknown ids that are covered first, then those depended
    on, then the missing title; and the unknown id. *)
Definition about (e : error) : option (str * (N * str)) :=
  match e with
  | ECoversUnknownRequirement r id _ => Some (req_id r, (0, id))
  | EDependOnUnknownRequirement r id _ => Some (req_id r, (1, id))
  | ERequirementWithoutTitle r => Some (req_id r, (2, []))
  | _ => None
  end.

(** Errors of the same form: what comes first. *)
Definition in_group (x y : error) : Prop :=
  match x, y with
  | EDuplicateArtefact a, EDuplicateArtefact b
  | EConfig a, EConfig b
  | EUnknownArtefact a, EUnknownArtefact b => le a b
  | EDuplicateAttribute _ a r, EDuplicateAttribute _ b r' => word a -> word b -> word r -> word r' -> le (a, r) (b, r')
  | EDuplicateRequirement a a', EDuplicateRequirement b b' =>
      word (req_id a) -> word (req_id b) -> le (req_id a, req_id a') (req_id b, req_id b')
  | EIo p m, EIo p' m' => m = m' -> le p p'
  | EFormat l m, EFormat l' m' => l = l' -> le m m'
  | EUnusedRelation r, EUnusedRelation r' => word (rel_upper r) -> word (rel_upper r') -> le (rel_upper r) (rel_upper r')
  | ECoveredWithWrongTitle u l _ _, ECoveredWithWrongTitle u' l' _ _
  | EDependWithWrongTitle u l _ _, EDependWithWrongTitle u' l' _ _ =>
      word (req_id u) -> word (req_id u') -> word (req_id l) -> word (req_id l') ->
      le (req_id u, req_id l) (req_id u', req_id l')
  | EReferencedWithoutTitle r loc, EReferencedWithoutTitle r' loc' =>
      word (req_id r) -> word (req_id r') -> le (req_id r, show_location loc) (req_id r', show_location loc')
  | _, _ =>
      match about x, about y with
      | Some (id, (k, i)), Some (id', (k', i')) => word id -> word id' -> word i -> word i' -> le (id, (k, i)) (id', (k', i'))
      | _, _ => True
      end
  end.
Definition error_before (x y : error) : Prop := group_no x < group_no y \/ (group_no x = group_no y /\ in_group x y).

Definition contains (part s : str) : Prop := exists a b, s = a ++ part ++ b.
(** The texts that an error text contains. *)
Definition named (e : error) : list str :=
  match e with
  | EFormat l m => [show_location l; m]
  | EDuplicateRequirement a b => [req_id a; req_id b]
  | EDuplicateAttribute l a r => [a; r; show_location l]
  | EIo p m => [p; m]
  | EConfig m | EDuplicateArtefact m | EUnknownArtefact m => [m]
  | ECoveredWithWrongTitle u l t loc | EDependWithWrongTitle u l t loc => [req_id u; req_id l; t; show_location loc]
  | EReferencedWithoutTitle r loc => [req_id r; show_location loc]
  | ERequirementWithoutTitle r => [req_id r]
  | EDependOnUnknownRequirement r id loc | ECoversUnknownRequirement r id loc => [req_id r; id; show_location loc]
  | EEmptyGraph => []
  | EUnusedRelation r => rel_upper r :: rel_lower r
  end.

(** ** Relations *)
Fixpoint listed (l : list str) : str :=
  match l with
  | [] => []
  | [x] => x
  | x :: l' => x ++ L ", " ++ listed l'
  end.
(** Artefact names with which the text of a relation can be read back. *)
Definition readable_relation (r : relation) : Prop :=
  ~ In 62 (* > *) (rel_upper r) /\ Forall (fun x => x <> [] /\ ~ In COMMA x) (rel_lower r).

Lemma show_relation_text r : show_relation r = rel_upper r ++ L " => [" ++ listed (rel_lower r) ++ L "]".
Proof.
  unfold show_relation. do 3 f_equal. induction (rel_lower r) as [|x l IH]; [reflexivity|].
  destruct l as [|y l]; [reflexivity|]. cbn [join listed] in *. rewrite IH. reflexivity.
Qed.

Lemma cut_unique (c : chr) a b x y : ~ In c a -> ~ In c b -> a ++ c :: x = b ++ c :: y -> a = b /\ x = y.
Proof.
  revert b. induction a as [|d a IH]; intros [|e b] Ha Hb H; cbn in *.
  - inversion H. auto.
  - inversion H; subst. elim Hb. auto.
  - inversion H; subst. elim Ha. auto.
  - inversion H; subst. destruct (IH b) as [-> ->]; auto.
Qed.

Lemma listed_inj l : forall l', Forall (fun x => x <> [] /\ ~ In COMMA x) l -> Forall (fun x => x <> [] /\ ~ In COMMA x) l' ->
  listed l = listed l' -> l = l'.
Proof.
  assert (Z : forall x l, Forall (fun x => x <> [] /\ ~ In COMMA x) (x :: l) -> listed (x :: l) <> []).
  { intros x l0 H. inversion H as [|? ? [Hx _] _]; subst. destruct x; [congruence|]. destruct l0; discriminate. }
  induction l as [|x l IH]; intros [|x' l'] H H' E; [reflexivity| | |].
  - elim (Z _ _ H'). symmetry. exact E.
  - elim (Z _ _ H). exact E.
  - inversion H as [|? ? [Hx Hc] HF]; inversion H' as [|? ? [Hx' Hc'] HF']; subst.
    destruct l as [|y l], l' as [|y' l'].
    + cbn in E. congruence.
    + exfalso. cbn [listed] in E. apply Hc. rewrite E. apply in_or_app. right. left. reflexivity.
    + exfalso. cbn [listed] in E. apply Hc'. rewrite <- E. apply in_or_app. right. left. reflexivity.
    + change (x ++ COMMA :: 32 :: listed (y :: l) = x' ++ COMMA :: 32 :: listed (y' :: l')) in E.
      apply cut_unique in E; [|exact Hc|exact Hc']. destruct E as [-> E]. f_equal. apply IH; [assumption|assumption|].
      congruence.
Qed.

Theorem show_relation_inj r r' : readable_relation r -> readable_relation r' -> show_relation r = show_relation r' -> r = r'.
Proof.
  destruct r as [u l], r' as [u' l']. intros [H1 H2] [H1' H2']. cbn [rel_upper rel_lower] in *. rewrite !show_relation_text.
  cbn [rel_upper rel_lower]. intros E.
  assert (HX : forall v w, (v ++ [32; 61]) ++ 62 :: w = v ++ L " =>" ++ w) by (intros; rewrite <- app_assoc; reflexivity).
  assert (E' : (u ++ [32; 61]) ++ 62 :: (L " [" ++ listed l ++ L "]") = (u' ++ [32; 61]) ++ 62 :: (L " [" ++ listed l' ++ L "]")).
  { rewrite !HX. exact E. }
  assert (HN : forall v, ~ In 62 v -> ~ In 62 (v ++ [32; 61])).
  { intros v Hv H. apply in_app_or in H. destruct H as [H|[H|[H|[]]]]; [auto|discriminate|discriminate]. }
  apply cut_unique in E'; [|apply HN; assumption|apply HN; assumption]. destruct E' as [EU EL].
  assert (u = u') by (apply (app_inv_tail [32; 61]); exact EU). subst u'. f_equal.
  apply listed_inj; [assumption|assumption|]. apply (app_inv_tail (L "]")). apply (app_inv_head (L " [")). exact EL.
Qed.

(** ** Order of error texts *)
Lemma le_app (p x y : str) : le (p ++ x) (p ++ y) -> le x y.
Proof.
  induction p as [|c p IH]; [auto|]. cbn [app]. intros H. apply IH. unfold le in *. cbn in H |- *.
  rewrite N.compare_refl in H. exact H.
Qed.
Lemma cmp_pair_le {A B} `{Ord A} `{Ord B} (a a' : A) (b b' : B) : lt a a' \/ (a = a' /\ le b b') -> le (a, b) (a', b').
Proof.
  unfold lt, le. cbn. intros [-> | [-> Hb]]; [discriminate|]. rewrite cmp_refl. exact Hb.
Qed.

(** Words that are followed by a blank are compared first. *)
Lemma le_word a b x y : word a -> word b -> le (a ++ 32 :: x) (b ++ 32 :: y) -> lt a b \/ (a = b /\ le x y).
Proof.
  unfold le, lt. revert b. induction a as [|c a IH]; intros [|d b] Ha Hb H.
  - right. split; [reflexivity|]. cbn in H. exact H.
  - left. reflexivity.
  - exfalso. inversion Ha; subst. cbn in H. destruct (N.compare_spec c 32); [lia|lia|congruence].
  - inversion Ha; inversion Hb; subst. cbn in H |- *. destruct (N.compare_spec c d) as [->| |]; [|left; reflexivity|congruence].
    destruct (IH b) as [HL|[-> HR]]; [assumption|assumption|exact H|left; exact HL|right; auto].
Qed.
Lemma le_words a b x y : word a -> word b -> le (a ++ 32 :: x) (b ++ 32 :: y) -> le (a, x) (b, y).
Proof. intros Ha Hb H. apply cmp_pair_le. apply le_word; assumption. Qed.

Lemma not_le (x y : str) : le x y -> cmp x y = Gt -> False.
Proof. unfold le. congruence. Qed.

Ltac sep H :=
  repeat match type of H with le (?c :: ?x) (?c :: ?y) => apply (le_app [c] x y) in H end.

Lemma about_suffix x y id k i id' k' i' :
  about x = Some (id, (k, i)) -> about y = Some (id', (k', i')) -> le (show_error x) (show_error y) ->
  word id -> word id' -> word i -> word i' -> le (id, (k, i)) (id', (k', i')).
Proof.
  intros Hx Hy H W W' V V'.
  destruct x; try discriminate Hx; destruct y; try discriminate Hy;
    cbn [about] in Hx, Hy; inversion Hx; inversion Hy; subst;
    unfold show_error, show_requirement in H; apply (le_app (L "Requirement ")) in H;
    apply (le_word _ _ _ _ W W') in H; apply cmp_pair_le;
    (destruct H as [H|[-> H]]; [left; exact H|right; split; [reflexivity|]]);
    try (apply cmp_pair_le; left; reflexivity); try (exfalso; apply (not_le _ _ H); reflexivity);
    apply cmp_pair_le; right; (split; [reflexivity|]).
  - apply le_refl.
  - apply (le_app (L "depends on unknown Requirement ")) in H. apply (le_word _ _ _ _ V V') in H.
    apply le_lt_eq. destruct H as [H|[-> _]]; [left; exact H|right; reflexivity].
  - apply (le_app (L "covers unknown Requirement ")) in H. apply (le_word _ _ _ _ V V') in H.
    apply le_lt_eq. destruct H as [H|[-> _]]; [left; exact H|right; reflexivity].
Qed.

Theorem text_before x y : le (show_error x) (show_error y) -> error_before x y.
Proof.
  intros H. unfold error_before.
  destruct (N.lt_trichotomy (group_no x) (group_no y)) as [HG|[HG|HG]]; [left; exact HG| |].
  2:{ exfalso. destruct x, y; cbn in HG; try lia; apply (not_le _ _ H); reflexivity. }
  right. split; [exact HG|].
  destruct x, y; cbn in HG; try discriminate HG; unfold in_group;
    try exact Logic.I;
    try (cbn [about]; exact Logic.I);
    try (cbn [about]; intros; eapply about_suffix; try exact H; try reflexivity; assumption);
    unfold show_error, show_requirement in H.
  - intros ->. apply (le_app (L "Invalid Format ")), le_app, (le_app (L ": ")) in H. exact H.
  - intros W W'. apply (le_app (L "Duplicate Requirements: ")) in H. exact (le_words _ _ _ _ W W' H).
  - intros W W' V V'. apply (le_app (L "Duplicate Attribute ")) in H. apply (le_word _ _ _ _ W W') in H.
    apply cmp_pair_le. destruct H as [H|[-> H]]; [left; exact H|right; split; [reflexivity|]].
    apply (le_app (L "when parsing ")) in H. apply (le_word _ _ _ _ V V') in H.
    apply le_lt_eq. destruct H as [H|[-> _]]; [left; exact H|right; reflexivity].
  - intros ->. apply (le_app (L "IO Error: ")), le_app, (le_app (L " in ")) in H. exact H.
  - apply (le_app (L "Configuration Error  ")) in H. exact H.
  - apply (le_app (L "Artefact added twice: ")) in H. exact H.
  - apply (le_app (L "Unknown Artefact: ")) in H. exact H.
  - intros W W' V V'. apply (le_app (L "Requirement Covered with Wrong Title ")) in H. apply (le_word _ _ _ _ W W') in H.
    apply cmp_pair_le. destruct H as [H|[-> H]]; [left; exact H|right; split; [reflexivity|]].
    apply (le_app (L "<- ")) in H. apply (le_word _ _ _ _ V V') in H.
    apply le_lt_eq. destruct H as [H|[-> _]]; [left; exact H|right; reflexivity].
  - intros W W' V V'. apply (le_app (L "Requirement Depended with Wrong Title ")) in H. apply (le_word _ _ _ _ W W') in H.
    apply cmp_pair_le. destruct H as [H|[-> H]]; [left; exact H|right; split; [reflexivity|]].
    apply (le_app (L "-> ")) in H. apply (le_word _ _ _ _ V V') in H.
    apply le_lt_eq. destruct H as [H|[-> _]]; [left; exact H|right; reflexivity].
  - intros W W'. apply (le_app (L "Requirement referenced without title ")) in H. apply (le_word _ _ _ _ W W') in H.
    apply cmp_pair_le. destruct H as [H|[-> H]]; [left; exact H|right; split; [reflexivity|]].
    apply (le_app (L "at ")) in H. exact H.
  - intros W W'. apply (le_app (L "No requirements covered by relation ")) in H.
    rewrite !show_relation_text in H. apply (le_word _ _ _ _ W W') in H.
    apply le_lt_eq. destruct H as [H|[-> _]]; [left; exact H|right; reflexivity].
Qed.

Theorem errors_in_order l : sorted_by show_error l -> StronglySorted error_before l.
Proof.
  intros H. induction H as [|x l H IH HF]; [constructor|]. constructor; [exact IH|].
  eapply Forall_impl; [|exact HF]. intros y. apply text_before.
Qed.

(** ** Contents *)
Lemma contains_refl s : contains s s.
Proof. exists [], []. rewrite app_nil_r. reflexivity. Qed.
Lemma contains_left p s t : contains p s -> contains p (s ++ t).
Proof. intros (a & b & ->). exists a, (b ++ t). rewrite <- !app_assoc. reflexivity. Qed.
Lemma contains_right p s t : contains p t -> contains p (s ++ t).
Proof. intros (a & b & ->). exists (s ++ a), b. rewrite <- !app_assoc. reflexivity. Qed.
Lemma contains_listed x l : In x l -> contains x (listed l).
Proof.
  induction l as [|y l IH]; intros [].
  - subst y. destruct l; [apply contains_refl|]. apply contains_left, contains_refl.
  - destruct l as [|z l]; [destruct H|]. change (contains x (y ++ L ", " ++ listed (z :: l))).
    apply contains_right, contains_right, IH. exact H.
Qed.

Ltac inside := first [apply contains_refl | apply contains_left; inside | apply contains_right; inside].
Theorem text_contains e : Forall (fun p => contains p (show_error e)) (named e).
Proof.
  destruct e; cbn [named]; unfold show_error, show_requirement;
    try solve [repeat (apply Forall_cons; [inside|]); apply Forall_nil].
  constructor; rewrite show_relation_text; [inside|].
  apply Forall_forall. intros x Hx. do 3 apply contains_right. apply contains_left, contains_listed. exact Hx.
Qed.
