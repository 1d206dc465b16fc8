(** Reading a tags file: lines, and fields separated by tabulators. *)
From Coq Require Import Permutation Sorted.
From Verif Require Import Base OMap Models Unicode Utf8 ReadFacts MdLex MdSyntax Location LocFacts Sort TraceSpec Tags FmtSpec FmtFacts FmtCor.
Open Scope N_scope.

Fixpoint fields (s : str) : list str :=
  match s with
  | [] => [[]]
  | c :: s' =>
      if c =? 9 then [] :: fields s'
      else match fields s' with f :: fs => (c :: f) :: fs | [] => [[c]] end
  end.

(** The line [l] says that [name] is in line [n] of [file]. *)
Definition says_tag (l : str) (e : str * path * N) : Prop :=
  let '(name, file, n) := e in
  exists d, fields l = [name; file; d ++ [59; 34]; L "r" ++ [NL]] /\ decimal d n.

Lemma says_tag_unique l e e' : says_tag l e -> says_tag l e' -> e = e'.
Proof.
  destruct e as [[a f] n], e' as [[a' f'] n']. intros (d & H & _ & D) (d' & H' & _ & D').
  rewrite H in H'. inversion H' as [[H1 H2 H3]].
  assert (d = d') by (apply (app_inv_tail [59; 34]); exact H3). subst. reflexivity.
Qed.

Lemma fields_cons a s : ~ In 9 a -> fields (a ++ 9 :: s) = a :: fields s.
Proof.
  induction a as [|c a IH]; intros H; cbn [app fields]; [reflexivity|].
  destruct (N.eqb_spec c 9) as [->|_]; [destruct H; left; reflexivity|].
  rewrite IH by (intros H'; apply H; right; exact H'). reflexivity.
Qed.
Lemma fields_last a : ~ In 9 a -> fields a = [a].
Proof.
  induction a as [|c a IH]; intros H; cbn [fields]; [reflexivity|].
  destruct (N.eqb_spec c 9) as [->|_]; [destruct H; left; reflexivity|].
  rewrite IH by (intros H'; apply H; right; exact H'). reflexivity.
Qed.

Definition plain_text (s : str) : Prop := ~ In 9 s /\ ~ In NL s.
Definition entry_of (r : requirement) : str * path * N :=
  (req_id r, loc_file (req_location r), match line_of (req_location r) with Some n => n | None => 0 end).

Lemma digits_no d c : forallb is_digit_ascii d = true -> is_digit_ascii c = false -> ~ In c d.
Proof. intros H E Hin. rewrite forallb_forall in H. specialize (H _ Hin). congruence. Qed.

Lemma tag_fields r n : plain_text (req_id r) -> plain_text (loc_file (req_location r)) ->
  line_of (req_location r) = Some n -> says_tag (tag_of r n) (entry_of r).
Proof.
  intros [Hi _] [Hf _] Hn. unfold entry_of. rewrite Hn. exists (show_N n).
  destruct (show_N_spec n) as [_ HD]. split; [|exact HD]. destruct HD as [HD _]. unfold tag_of. cbn [app].
  rewrite fields_cons by exact Hi. rewrite fields_cons by exact Hf.
  replace (show_N n ++ L ";" ++ 34 :: 9 :: L "r" ++ [NL]) with ((show_N n ++ [59; 34]) ++ 9 :: L "r" ++ [NL])
    by (rewrite <- app_assoc; reflexivity).
  rewrite fields_cons; [reflexivity|]. intros H. apply in_app_or in H. destruct H as [H|[H|[H|[]]]]; try discriminate.
  revert H. apply digits_no; [exact HD|reflexivity].
Qed.

(** ** Lines *)
Lemma split_line a s : ~ In NL a -> split_lines (a ++ NL :: s) = (a ++ [NL]) :: split_lines s.
Proof.
  induction a as [|c a IH]; intros H; cbn [app split_lines].
  - reflexivity.
  - destruct (N.eqb_spec c 10) as [->|_]; [destruct H; left; reflexivity|].
    rewrite IH by (intros H'; apply H; right; exact H'). reflexivity.
Qed.

Definition one_line (l : str) : Prop := exists a, l = a ++ [NL] /\ ~ In NL a.
Lemma split_concat ls s : Forall one_line ls -> split_lines (concat ls ++ s) = ls ++ split_lines s.
Proof.
  induction 1 as [|l ls (a & -> & Ha) _ IH]; [reflexivity|]. cbn [concat app].
  rewrite <- !app_assoc. cbn [app]. rewrite split_line by exact Ha. rewrite IH. reflexivity.
Qed.

Lemma tag_one_line r n : plain_text (req_id r) -> plain_text (loc_file (req_location r)) -> one_line (tag_of r n).
Proof.
  intros [_ Hi] [_ Hf]. exists (req_id r ++ [9] ++ loc_file (req_location r) ++ [9] ++ show_N n ++ L ";" ++ [34] ++ [9] ++ L "r").
  split; [unfold tag_of; rewrite <- !app_assoc; reflexivity|].
  destruct (show_N_spec n) as [_ [HD _]].
  intros H. repeat (apply in_app_or in H; destruct H as [H|H]; [auto|]);
    try (destruct H as [H|[]]; discriminate); try (revert H; apply digits_no; [exact HD|reflexivity]);
    try (vm_compute in H; intuition discriminate).
Qed.

Definition header_lines : list str := split_lines TAGS_HEADER.
Lemma header_split s : split_lines (TAGS_HEADER ++ s) = header_lines ++ split_lines s.
Proof.
  assert (E : TAGS_HEADER = concat header_lines) by (vm_compute; reflexivity).
  rewrite E at 1. apply split_concat. unfold header_lines. 
  assert (H : forall ls, lines_wf ls -> (forall l, In l ls -> last l 0 = NL) -> Forall one_line ls).
  { induction 1 as [|s0 H1 H2|a l H1 H2 IH]; intros HL; constructor.
    - exists (removelast s0). split.
      + rewrite <- (HL s0 (or_introl eq_refl)). apply app_removelast_last. exact H1.
      + intros Hin. apply H2. rewrite (app_removelast_last 0 H1). apply in_or_app. auto.
    - constructor.
    - exists a. split; [reflexivity|exact H1].
    - apply IH. intros l' Hl'. apply HL. right. exact Hl'. }
  apply H; [apply split_lines_wf|]. intros l Hl. vm_compute in Hl.
  repeat destruct Hl as [<-|Hl]; try reflexivity. destruct Hl.
Qed.

Lemma le_first a b x y : a < b -> le (a :: x) (b :: y).
Proof. intros H. unfold le. cbn. destruct (N.compare_spec a b); try lia; discriminate. Qed.

Theorem tags_read g :
  (forall r, In r (all_reqs g) -> has_line r = true ->
     plain_text (req_id r) /\ plain_text (loc_file (req_location r)) /\ (forall c, In c (req_id r) -> 33 < c) /\ req_id r <> []) ->
  exists lines rs,
    split_lines (tags_requirements g) = header_lines ++ lines /\
    Forall2 says_tag lines (map entry_of rs) /\
    Permutation (filter has_line (all_reqs g)) rs /\ sorted_by req_id rs /\
    sorted_by (fun l => l) (split_lines (tags_requirements g)).
Proof.
  intros H. destruct (tags_exact g) as (lines & E & P & S). rewrite tags_of_map in P.
  destruct (Permutation_map_inv the_tag _ (Permutation_sym P)) as (rs & -> & PF).
  assert (HR : forall r, In r rs -> In r (all_reqs g) /\ has_line r = true).
  { intros r Hr. apply (Permutation_in _ (Permutation_sym PF)) in Hr. apply filter_In in Hr. exact Hr. }
  assert (HS : split_lines (tags_requirements g) = header_lines ++ map the_tag rs).
  { rewrite E, header_split. f_equal. rewrite <- (app_nil_r (concat _)), split_concat; [apply app_nil_r|].
    apply Forall_forall. intros l Hl. apply in_map_iff in Hl. destruct Hl as (r & <- & Hr).
    destruct (HR r Hr) as [Hr1 Hr2]. destruct (H r Hr1 Hr2) as (H1 & H2 & _ & _).
    unfold the_tag, has_line in *. destruct (line_of (req_location r)); [|discriminate]. apply tag_one_line; assumption. }
  exists (map the_tag rs), rs. split; [exact HS|]. split; [|split; [exact PF|split]].
  - clear - H HR. induction rs as [|r rs IH]; cbn [map]; constructor.
    + destruct (HR r (or_introl eq_refl)) as [Hr1 Hr2]. destruct (H r Hr1 Hr2) as (H1 & H2 & _ & _).
      unfold the_tag. unfold has_line in Hr2. destruct (line_of (req_location r)) eqn:En; [|discriminate].
      apply tag_fields; assumption.
    + apply IH. intros r' Hr'. apply HR. right. exact Hr'.
  - apply sorted_map_tags; [| |exact S].
    + intros r Hr c Hc. destruct (HR r Hr) as [Hr1 Hr2]. destruct (H r Hr1 Hr2) as (_ & _ & H3 & _). specialize (H3 c Hc). lia.
    + intros r Hr. apply (HR r Hr).
  - rewrite HS. 
    assert (HB : forall l, In l (map the_tag rs) -> exists c l', l = c :: l' /\ 33 < c).
    { intros l Hl. apply in_map_iff in Hl. destruct Hl as (r & <- & Hr). destruct (HR r Hr) as [Hr1 Hr2].
      destruct (H r Hr1 Hr2) as (_ & _ & H3 & H4). unfold the_tag. unfold has_line in Hr2.
      destruct (line_of (req_location r)) eqn:En; [|discriminate]. unfold tag_of.
      destruct (req_id r) as [|c i]; [contradiction|]. exists c. eexists. split; [reflexivity|]. apply H3. left. reflexivity. }
    assert (HT : Forall (fun y => le (33 :: []) y) (map the_tag rs)) by
      (apply Forall_forall; intros l Hl; destruct (HB l Hl) as (c & l' & -> & Hc); apply le_first; exact Hc).
    assert (HH : forall h, In h header_lines -> Forall (fun y => le h y) (map the_tag rs)).
    { intros h Hh. apply Forall_forall. intros l Hl. destruct (HB l Hl) as (c & l' & -> & Hc).
      vm_compute in Hh. repeat destruct Hh as [<-|Hh]; try (apply le_first; exact Hc). destruct Hh. }
    assert (HD : sorted_by (fun l => l) header_lines).
    { unfold sorted_by. vm_compute. repeat constructor; try (vm_compute; discriminate). }
    revert HH HD. generalize header_lines. intros hs HH HD. induction hs as [|h hs IH]; [exact S|].
    cbn [app]. inversion HD as [|? ? HD1 HD2]; subst. constructor.
    + apply IH; [|exact HD1]. intros h' Hh'. apply HH. right. exact Hh'.
    + apply Forall_app. split; [exact HD2|]. apply HH. left. reflexivity.
Qed.

(** The fields of the header *)
Lemma header_fields g :
  map fields (firstn 4 (split_lines (tags_requirements g))) =
  [ [L "!_TAG_FILE_SORTED"; L "1"; L "/0=unsorted, 1=sorted, 2=foldcase/" ++ [NL]];
    [L "!_TAG_PROGRAM_NAME"; L "reqtrace/" ++ [NL]];
    [L "!_TAG_PROGRAM_URL"; L "https://github.com/wonkodv/reqtrace/" ++ [NL]];
    [L "!_TAG_PROGRAM_VERSION"; L "0"; L "//" ++ [NL]] ].
Proof.
  unfold tags_requirements. rewrite header_split. rewrite firstn_app.
  replace (4 - length header_lines)%nat with 0%nat by reflexivity. cbn [firstn]. rewrite app_nil_r. vm_compute. reflexivity.
Qed.
