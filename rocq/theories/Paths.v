(** Unix paths as text: the functions of [std::path] used by /repo. *)
From Verif Require Import Base Unicode.
Open Scope N_scope.

Definition SLASH : chr := 47.
Definition DOT : chr := 46.

(** [Path::is_absolute] *)
Definition is_absolute (p : str) : bool := starts_with_c SLASH p.

(** [Path::join] *)
Definition path_join (base p : str) : str :=
  if is_absolute p then p
  else match base with
       | [] => p
       | _ => if ends_with_c SLASH base then base ++ p else base ++ [SLASH] ++ p
       end.

(** The parts between slashes that [Path::components] does not skip; a leading `.` is a component
    of its own but never a file name, so it may be skipped here too. *)
Definition part_counts (c : str) : bool := negb (eqb c [] || eqb c [DOT]).
Definition parts (p : str) : list str := filter part_counts (split_on SLASH p).

(** [Path::file_name]: the last component, if it is a normal one *)
Definition file_name (p : str) : option str :=
  match rev (parts p) with
  | c :: _ => if eqb c [DOT; DOT] then None else Some c
  | [] => None
  end.

(** [str::rsplit_once(c)] *)
Fixpoint rsplit_once (sep : chr) (s : str) : option (str * str) :=
  match s with
  | [] => None
  | c :: s' =>
      match rsplit_once sep s' with
      | Some (a, b) => Some (c :: a, b)
      | None => if c =? sep then Some ([], s') else None
      end
  end.

(** [Path::file_stem]: the file name up to its last dot, unless that is its first character *)
Definition file_stem (p : str) : option str :=
  match file_name p with
  | None => None
  | Some n => match rsplit_once DOT n with
              | Some ([], _) | None => Some n
              | Some (a, _) => Some a
              end
  end.

(** ** Facts *)
Lemma split_on_nil sep s : split_on sep s <> [].
Proof. destruct s as [|c s]; cbn; [discriminate|]. destruct (c =? sep); [discriminate|]. destruct (split_on sep s); discriminate. Qed.

Lemma split_on_app sep a b :
  split_on sep (a ++ sep :: b) = split_on sep a ++ split_on sep b.
Proof.
  induction a as [|c a IH]; cbn [app split_on].
  - rewrite N.eqb_refl. reflexivity.
  - rewrite IH. destruct (c =? sep); [reflexivity|].
    destruct (split_on sep a) as [|x xs] eqn:E; [destruct (split_on_nil _ _ E)|]. reflexivity.
Qed.

Lemma split_on_free sep s : ~ In sep s -> split_on sep s = [s].
Proof.
  induction s as [|c s IH]; intros H; [reflexivity|]. cbn [split_on].
  destruct (N.eqb_spec c sep) as [->|_]; [elim H; left; reflexivity|].
  rewrite IH; [reflexivity|]. intros H'. apply H. right. exact H'.
Qed.

Lemma file_name_last (dir n : str) :
  ~ In SLASH n -> n <> [] -> n <> [DOT] -> n <> [DOT; DOT] ->
  file_name (dir ++ SLASH :: n) = Some n /\ file_name n = Some n.
Proof.
  intros H1 H2 H3 H4.
  assert (E : filter part_counts [n] = [n]).
  { cbn [filter]. unfold part_counts. rewrite (proj2 (eqb_false n [])), (proj2 (eqb_false n [DOT])) by assumption. reflexivity. }
  assert (E2 : eqb n [DOT; DOT] = false) by (apply eqb_false; exact H4).
  assert (P1 : parts (dir ++ SLASH :: n) = parts dir ++ [n]).
  { transitivity (filter part_counts (split_on SLASH dir ++ [n])).
    - unfold parts. f_equal. rewrite split_on_app. f_equal. apply split_on_free. exact H1.
    - rewrite filter_app. f_equal. exact E. }
  assert (P2 : parts n = [n]).
  { etransitivity; [|exact E]. unfold parts. f_equal. apply split_on_free. exact H1. }
  unfold file_name. rewrite P1, P2, rev_app_distr. cbn [rev app]. rewrite E2. split; reflexivity.
Qed.

Lemma rsplit_once_free sep s : ~ In sep s -> rsplit_once sep s = None.
Proof.
  induction s as [|c s IH]; intros H; [reflexivity|]. cbn [rsplit_once].
  rewrite IH by (intros H'; apply H; right; exact H').
  destruct (N.eqb_spec c sep) as [->|]; [elim H; left; reflexivity|reflexivity].
Qed.

Lemma rsplit_once_last sep a b : ~ In sep b -> rsplit_once sep (a ++ sep :: b) = Some (a, b).
Proof.
  intros H. induction a as [|c a IH]; cbn [app rsplit_once].
  - rewrite rsplit_once_free by exact H. rewrite N.eqb_refl. reflexivity.
  - rewrite IH. reflexivity.
Qed.

(** `dir/stem.ext` *)
Theorem file_stem_ext (dir stem ext : str) :
  stem <> [] -> stem <> [DOT] -> ~ In SLASH stem -> ~ In SLASH ext -> ~ In DOT ext ->
  file_stem (dir ++ SLASH :: stem ++ DOT :: ext) = Some stem /\
  file_stem (stem ++ DOT :: ext) = Some stem.
Proof.
  intros Hs Hd H1 H2 H3. unfold file_stem.
  destruct (file_name_last dir (stem ++ DOT :: ext)) as [-> ->].
  - intros H. apply in_app_or in H. destruct H as [H|[H|H]]; [exact (H1 H)|discriminate H|exact (H2 H)].
  - destruct stem; discriminate.
  - destruct stem as [|c [|]]; [elim Hs; reflexivity| |]; discriminate.
  - destruct stem as [|c [|c' [|]]]; [elim Hs; reflexivity| | |]; try discriminate.
    intros E. inversion E; subst. apply Hd. reflexivity.
  - rewrite rsplit_once_last by exact H3. destruct stem as [|c s]; [elim Hs; reflexivity|].
    split; reflexivity.
Qed.
