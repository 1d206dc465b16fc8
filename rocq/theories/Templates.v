(** The texts of messages as templates with holes, and the lines of Markdown messages (C103). *)
From Coq Require Import Lia.
From Verif Require Import Base OMap Models Unicode Location Show Sort MdFmt TraceSpec AggSpec FmtSpec EntrySpec GnuReadSpec GnuErr OutlineSpec Outline CodeMsg.
Open Scope N_scope.

(** ** Specification *)
(** `{0}` stands for the first value, and so on. *)
Fixpoint fill (values : list str) (s : str) : str :=
  match s with
  | [] => []
  | c :: s1 =>
      match s1 with
      | d :: e :: s' => if (c =? 123) && (e =? 125) then nth (N.to_nat (d - 48)) values [] ++ fill values s' else c :: fill values s1
      | _ => c :: fill values s1
      end
  end.

(** The display texts (models.rs:277-338); the values in the order of the fields. *)
Definition display_template (e : error) : string * list str :=
  match e with
  | EFormat l m => ("Invalid Format {0}: {1}", [show_location l; m])
  | EDuplicateRequirement a b => ("Duplicate Requirements: {0} {1}", [req_id a; req_id b])
  | EDuplicateAttribute l a r => ("Duplicate Attribute {1} when parsing {2} at {0}", [show_location l; a; r])
  | EIo p m => ("IO Error: {1} in {0}", [p; m])
  | EConfig m => ("Configuration Error  {0}", [m])
  | EDuplicateArtefact a => ("Artefact added twice: {0}", [a])
  | EUnknownArtefact a => ("Unknown Artefact: {0}", [a])
  | ECoveredWithWrongTitle u l t loc =>
      ("Requirement Covered with Wrong Title {0} <- {1} with {2} at {3}", [req_id u; req_id l; t; show_location loc])
  | EDependWithWrongTitle u l t loc =>
      ("Requirement Depended with Wrong Title {0} -> {1} with {2} at {3}", [req_id u; req_id l; t; show_location loc])
  | EReferencedWithoutTitle r loc => ("Requirement referenced without title {0} at {1}", [req_id r; show_location loc])
  | ERequirementWithoutTitle r => ("Requirement {0} must have a title", [req_id r])
  | EDependOnUnknownRequirement r id loc =>
      ("Requirement {0} depends on unknown Requirement {1} at {2}", [req_id r; id; show_location loc])
  | ECoversUnknownRequirement r id loc =>
      ("Requirement {0} covers unknown Requirement {1} at {2}", [req_id r; id; show_location loc])
  | EEmptyGraph => ("Empty Tracing Graph", [])
  | EUnusedRelation rel => ("No requirements covered by relation {0}", [show_relation rel])
  end%string.

(** The messages of the GNU reports, line by line (gnuerr.rs:12-114). *)
Definition gnu_template {D : Debug} (e : error) : list string * list str :=
  match e with
  | EFormat l m => (["{0}: {1}"], [show_location l; m])
  | EDuplicateRequirement a b =>
      (["{1}: Duplicate Requirement: {0}"; "{2}: note: previously seen here"],
       [req_id a; show_location (req_location b); show_location (req_location a)])
  | EDuplicateAttribute l a r => (["{0}: {2} has duplicate Attribute: {1}"], [show_location l; a; r])
  | EIo p m => (["{0}: IO Error: {1}"], [p; m])
  | EConfig _ | EDuplicateArtefact _ | EUnknownArtefact _ | EEmptyGraph | EUnusedRelation _ =>
      (["Error in config file: {0}"], [debug_error e])
  | ECoveredWithWrongTitle u _ t loc =>
      (["{0}: {1} covered with wrong title. Expected {2}, actual {3}"; "{4}: note: Defined here"],
       [show_location loc; req_id u; debug_str (title_or u "<no title>"); debug_str t; show_location (req_location u)])
  | EDependWithWrongTitle _ l t loc =>
      (["{0}: {1} depended with wrong title. Expected {2}, actual {3}"; "{4}: note: Defined here"],
       [show_location loc; req_id l; debug_str (title_or l "<no title>"); debug_str t; show_location (req_location l)])
  | EReferencedWithoutTitle r loc =>
      (["{0}: should reference {1} with title {2}"], [show_location loc; req_id r; debug_str (title_or r "<no title>")])
  | ERequirementWithoutTitle r =>
      (["{0}: requirement {1} without title in artefact that requires referencing with title"], [show_location (req_location r); req_id r])
  | EDependOnUnknownRequirement r id loc =>
      (["{0}: {1} Depends on unknown requirement {2}"], [show_location loc; req_id r; id])
  | ECoversUnknownRequirement r id loc =>
      (["{0}: {1} Covers unknown requirement {2}"], [show_location loc; req_id r; id])
  end%string.

(** The messages of the Markdown reports, line by line (markdown.rs:213-355). *)
Definition wrong_title_lines (what whose : string) : list string :=
  [ what; "    *   Upper Requirement {0}"; "    *   Lower Requirement {1}"; whose; "        *    ````{2}````";
    "    *   Title used to cover it:"; "        *    ````{3}````"; "    *  At: {4}" ]%string.
Definition md_template {CT : CaseTables} (e : error) : list string * list str :=
  match e with
  | EFormat l m => (["*   Format Error: {0}"; "    in {1}"], [m; location_link l])
  | EDuplicateRequirement a b =>
      (["*   Duplicate Requirement: {0}"; "    first seen in {1}"; "    then again in {2}"],
       [req_id a; location_link (req_location b); location_link (req_location a)])
  | EDuplicateAttribute l a r => (["*   Duplicate Attribute: {0} when parsing {1}"; "    {2}"], [a; r; location_link l])
  | EIo p m => (["*   IO Error: {0}"; "   {1}"], [m; p])
  | EConfig m => (["*   Config Error: {0}"], [m])
  | EDuplicateArtefact a => (["*   Duplicate Artefact: {0}"], [a])
  | EUnknownArtefact a => (["*    Unknown Artefact: {0}"], [a])
  | ECoveredWithWrongTitle u l t loc =>
      (wrong_title_lines "*   Requirement covered with wrong title:" "    *   Title of Upper Requirement:",
       [requirement_link u; requirement_link l; title_or u ""; t; show_location loc])
  | EDependWithWrongTitle u l t loc =>
      (wrong_title_lines "*   Requirement depended on with wrong title:" "    *   Title of Lower Requirement:",
       [requirement_link u; requirement_link l; title_or l ""; t; show_location loc])
  | EReferencedWithoutTitle r loc => (["*   {0} covered without title"; "    {1}"], [requirement_link r; show_location loc])
  | ERequirementWithoutTitle r =>
      (["*   Requirement {0} without title in artefact that requires referencing with title"], [requirement_link r])
  | EDependOnUnknownRequirement r id loc =>
      (["*   {0} depends on unknown Requirement {1}"; "    {2}"], [requirement_link r; id; location_link loc])
  | ECoversUnknownRequirement r id loc =>
      (["*   {0} covers unknown Requirement {1}"; "    {2}"], [requirement_link r; id; location_link loc])
  | EEmptyGraph => (["Tracing Graph is empty"], [])
  | EUnusedRelation rel => (["*   No requirement was traced along the relation {0}. (Configuration error?)"], [show_relation rel])
  end%string.
Definition with_ends (lines : list string) : str := flat_map (fun l => L l ++ [NL]) lines.
Definition filled_lines (x : list string * list str) : str := fill (snd x) (with_ends (fst x)).

(** A list item of CommonMark: an asterisk and at least three blanks; its other lines are indented. *)
Definition begins_with (p s : str) : Prop := exists rest, s = p ++ rest.
Definition item_of_lines (lines : list str) : Prop :=
  exists first rest, lines = first :: rest /\ begins_with (L "*   ") first /\ Forall (begins_with (L "   ")) rest.

(** ** Proofs *)
Lemma display_filled e : show_error e = fill (snd (display_template e)) (L (fst (display_template e))).
Proof. destruct e; cbn; rewrite ?app_nil_r; reflexivity. Qed.
Lemma gnu_filled {D : Debug} e : gnu_error e = filled_lines (gnu_template e).
Proof. destruct e; reflexivity. Qed.
Lemma md_filled {CT : CaseTables} e : md_error e = filled_lines (md_template e).
Proof. destruct e; reflexivity. Qed.

Lemma fill_other v c q : (c =? 123) = false -> fill v (c :: q) = c :: fill v q.
Proof. intros H. destruct q as [|x [|y z]]; [reflexivity|reflexivity|]. cbn [fill]. rewrite H. reflexivity. Qed.

(** Holes do not go beyond the end of a line. *)
Lemma fill_end values b : forall n a, (length a <= n)%nat -> negb (last a 0 =? 123) = true ->
  fill values (a ++ NL :: b) = fill values a ++ NL :: fill values b.
Proof.
  induction n as [|n IH]; intros a Hn Ha; destruct a as [|c a]; cbn [length] in Hn; try lia.
  - cbn [app fill]. destruct b as [|d [|e b]]; reflexivity.
  - cbn [app fill]. destruct b as [|d [|e b]]; reflexivity.
  - assert (S : a <> [] -> fill values (a ++ NL :: b) = fill values a ++ NL :: fill values b).
    { intros X. apply IH; [lia|]. destruct a; [congruence|exact Ha]. }
    destruct a as [|d [|e a]].
    + cbn [last] in Ha. apply negb_true_iff in Ha. cbn [app]. change (fill values [c]) with [c]. cbn [app].
      transitivity (c :: fill values (NL :: b)).
      * cbn [fill]. destruct b as [|d b]; [reflexivity|]. rewrite Ha. reflexivity.
      * f_equal. cbn [fill]. destruct b as [|d [|e b]]; reflexivity.
    + transitivity (c :: fill values ([d] ++ NL :: b)).
      * cbn [app fill]. replace ((c =? 123) && (NL =? 125)) with false by (rewrite andb_comm; reflexivity). reflexivity.
      * rewrite S by discriminate. reflexivity.
    + cbn [app]. transitivity (if (c =? 123) && (e =? 125) then nth (N.to_nat (d - 48)) values [] ++ fill values (a ++ NL :: b)
        else c :: fill values ((d :: e :: a) ++ NL :: b)); [reflexivity|].
      transitivity ((if (c =? 123) && (e =? 125) then nth (N.to_nat (d - 48)) values [] ++ fill values a
        else c :: fill values (d :: e :: a)) ++ NL :: fill values b); [|reflexivity].
      destruct ((c =? 123) && (e =? 125)).
      * rewrite <- app_assoc. f_equal. destruct a as [|f a].
        -- cbn [app fill]. destruct b as [|x [|y b]]; reflexivity.
        -- apply IH; [cbn [length] in *; lia|exact Ha].
      * rewrite S by discriminate. reflexivity.
Qed.
Lemma fill_lines values lines : Forall (fun l => negb (last (L l) 0 =? 123) = true) lines ->
  fill values (with_ends lines) = flat_map (fun l => fill values (L l) ++ [NL]) lines.
Proof.
  induction 1 as [|l lines H _ IH]; [reflexivity|]. unfold with_ends in *. cbn [flat_map]. rewrite <- app_assoc. cbn [app].
  rewrite (fill_end values _ _ _ (le_n _) H), IH, <- app_assoc. reflexivity.
Qed.

Lemma fill_line values : Forall one_line values -> forall n s, (length s <= n)%nat -> one_line s -> one_line (fill values s).
Proof.
  intros H. assert (V : forall k, one_line (nth k values [])).
  { intros k. destruct (nth_in_or_default k values []) as [X| ->]; [|intros []]. rewrite Forall_forall in H. apply H, X. }
  induction n as [|n IH]; intros s Hn Hs; destruct s as [|c s1]; cbn [length] in Hn; try (intros X; exact X); [lia|].
  assert (S1 : one_line s1) by (intros X; apply Hs; right; exact X).
  assert (K : one_line (c :: fill values s1)).
  { intros [X|X]; [apply Hs; left; exact X|]. revert X. apply IH; [lia|exact S1]. }
  cbn [fill]. destruct s1 as [|d [|e s']]; [exact K|exact K|].
  destruct ((c =? 123) && (e =? 125)); [|exact K]. intros X. apply in_app_or in X. destruct X as [X|X]; [exact (V _ X)|].
  revert X. apply IH; [cbn [length] in Hn; lia|]. intros X. apply S1. right. right. exact X.
Qed.

Section Items.
  Context {CT : CaseTables}.

  Lemma template_values e : error_line e -> Forall one_line (snd (md_template e)).
  Proof.
    destruct e; cbn [error_line md_template snd]; intros H;
      repeat match goal with
             | H : _ /\ _ |- _ => destruct H
             | H : requirement_line ?r |- _ =>
                 pose proof (link_line r H); pose proof (proj1 H); pose proof (title_text_line _ (proj1 (proj2 H)));
                 pose proof (place_line _ (proj1 (proj2 (proj2 H)))); clear H
             | H : location_line ?l |- _ => pose proof (place_line l H); pose proof (place_text l H); clear H
             | H : relation_line ?l |- _ => pose proof (relation_text l H); clear H
             end; repeat first [apply Forall_nil | apply Forall_cons]; assumption.
  Qed.
  Lemma template_ends e : Forall (fun l => negb (last (L l) 0 =? 123) = true) (fst (md_template e)).
  Proof.
    destruct e; cbn [md_template fst wrong_title_lines]; unfold wrong_title_lines;
      repeat first [apply Forall_nil | apply Forall_cons; [reflexivity|]].
  Qed.
  Lemma template_lines e : Forall (fun l => one_line (L l)) (fst (md_template e)).
  Proof.
    destruct e; cbn [md_template fst wrong_title_lines]; unfold wrong_title_lines;
      repeat first [apply Forall_nil | apply Forall_cons; [apply line_lit; reflexivity|]].
  Qed.

  Lemma message_lines e : error_line e ->
    page_lines (md_error e) = map (fun l => fill (snd (md_template e)) (L l)) (fst (md_template e)) ++ [[]].
  Proof.
    intros H. rewrite md_filled. unfold filled_lines. rewrite (fill_lines _ _ (template_ends e)).
    rewrite <- (page_lines_all (map _ _)).
    - f_equal. rewrite !flat_map_concat_map, map_map. reflexivity.
    - intros l Hl. apply in_map_iff in Hl. destruct Hl as (t & <- & Ht).
      apply (fill_line _ (template_values e H) _ _ (le_n _)). pose proof (template_lines e) as T. rewrite Forall_forall in T. apply T, Ht.
  Qed.

  Lemma message_item e : error_line e -> e <> EEmptyGraph ->
    exists lines, page_lines (md_error e) = lines ++ [[]] /\ item_of_lines lines.
  Proof.
    intros H N. rewrite (message_lines e H). eexists. split; [reflexivity|]. unfold item_of_lines, begins_with.
    assert (B : forall v p l, forallb (fun c => negb (c =? 123)) p = true -> firstn (length p) (L l) = p ->
      exists rest, fill v (L l) = p ++ rest).
    { intros v p l Hp Hl. exists (fill v (skipn (length p) (L l))). rewrite <- (firstn_skipn (length p) (L l)) at 1.
      rewrite Hl. generalize (skipn (length p) (L l)). intros s. clear Hl.
      induction p as [|c p IH]; [reflexivity|]. cbn [forallb] in Hp. apply andb_true_iff in Hp. destruct Hp as [Hc Hp].
      apply negb_true_iff in Hc. cbn [app].
      exact (eq_trans (fill_other v c (p ++ s) Hc) (f_equal (cons c) (IH Hp))). }
    assert (I : forall v first rest, firstn 4 (L first) = L "*   " -> Forall (fun l => firstn 3 (L l) = L "   ") rest ->
      exists f r, map (fun l => fill v (L l)) (first :: rest) = f :: r /\ (exists x, f = L "*   " ++ x) /\
        Forall (fun s => exists x, s = L "   " ++ x) r).
    { intros v first rest H1 H2. do 2 eexists. split; [reflexivity|]. split; [apply B; [reflexivity|exact H1]|].
      apply Forall_forall. intros s Hs. apply in_map_iff in Hs. destruct Hs as (l & <- & Hl). apply B; [reflexivity|].
      rewrite Forall_forall in H2. exact (H2 l Hl). }
    destruct e; try congruence; cbn [md_template fst]; unfold wrong_title_lines; apply I;
      first [reflexivity | repeat first [apply Forall_nil | apply Forall_cons; [reflexivity|]]].
  Qed.
End Items.
