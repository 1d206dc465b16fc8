(** Consequences for the properties of the formatters. *)
From Coq Require Import Permutation Sorting.Sorted.
From Verif Require Import Base OMap Models Unicode Location Show Sort JsonSpec JsonRound Tracer TraceSpec TraceIndex TraceFacts TraceCor
  Aggregator AggSpec AggFacts GnuErr Tags Serialize MdFmt Formatters FmtSpec FmtFacts EntrySpec JobCor.
Open Scope N_scope.

(** ** Tags *)
Definition has_line (r : requirement) : bool :=
  match line_of (req_location r) with Some _ => true | None => false end.
Definition the_tag (r : requirement) : str :=
  match line_of (req_location r) with Some n => tag_of r n | None => [] end.

Lemma tags_of_map l : tags_of l = map the_tag (filter has_line l).
Proof.
  induction l as [|r l IH]; [reflexivity|]. cbn [tags_of flat_map filter]. fold (tags_of l). rewrite IH.
  unfold has_line at 2, the_tag. destruct (line_of (req_location r)) as [n|] eqn:E; [|reflexivity].
  cbn [map app]. rewrite E. reflexivity.
Qed.

Lemma tag_order a b x y :
  (forall c, In c a -> 9 < c) -> (forall c, In c b -> 9 < c) ->
  le (a ++ 9 :: x) (b ++ 9 :: y) -> le a b.
Proof.
  revert b. induction a as [|c a IH]; intros b Ha Hb H.
  - unfold le. destruct b; cbn; discriminate.
  - destruct b as [|d b].
    + exfalso. apply H. specialize (Ha c (or_introl eq_refl)).
      assert (E : (c ?= 9) = Gt) by (apply N.compare_gt_iff; exact Ha).
      change (match c ?= 9 with Eq => list_cmp N.compare (a ++ 9 :: x) y | o => o end = Gt). rewrite E. reflexivity.
    + unfold le in *. cbn in *. destruct (c ?= d); try congruence.
      apply IH; [intros; apply Ha; right; assumption|intros; apply Hb; right; assumption|exact H].
Qed.

Lemma sorted_map_tags l :
  (forall r, In r l -> forall c, In c (req_id r) -> 9 < c) -> (forall r, In r l -> has_line r = true) ->
  sorted_by (fun x => x) (map the_tag l) -> sorted_by req_id l.
Proof.
  intros H HL HS. induction l as [|r l IH]; [constructor|].
  cbn [map] in HS. inversion HS as [|? ? HS' HF E]; subst.
  constructor.
  - apply IH; [intros r' H'; apply H; right; exact H'|intros r' H'; apply HL; right; exact H'|exact HS'].
  - rewrite Forall_forall in *. intros r' Hr'. specialize (HF (the_tag r') (in_map _ _ _ Hr')). cbn in HF.
    pose proof (HL r (or_introl eq_refl)) as L1. pose proof (HL r' (or_intror Hr')) as L2.
    unfold the_tag, has_line in *. destruct (line_of (req_location r)); [|discriminate].
    destruct (line_of (req_location r')); [|discriminate]. unfold tag_of in HF.
    eapply tag_order; [apply H; left; reflexivity|apply H; right; exact Hr'|exact HF].
Qed.

Lemma all_reqs_flat g :
  flat_map (fun a => ovalues (art_requirements a)) (ovalues (g_artefacts g)) = all_reqs g.
Proof. unfold all_reqs, ovalues. rewrite !flat_map_concat_map, map_map. reflexivity. Qed.
Lemma all_errors_flat g : flat_map art_errors (ovalues (g_artefacts g)) = all_errors g.
Proof. unfold all_errors, ovalues. rewrite !flat_map_concat_map, map_map. reflexivity. Qed.
Lemma tag_lines l : flat_map tag_line l = tags_of l.
Proof.
  unfold tags_of. apply flat_map_ext. intros r. unfold tag_line, line_of, tag_of.
  destruct (loc_in_file (req_location r)) as [[n|n c|s]|]; reflexivity.
Qed.

Lemma tags_exact g : exists lines,
  tags_requirements g = TAGS_HEADER ++ concat lines /\
  Permutation (tags_of (all_reqs g)) lines /\ sorted_by (fun l => l) lines.
Proof.
  exists (sort_by (fun l => l) (tags_of (all_reqs g))). unfold tags_requirements.
  rewrite all_reqs_flat, tag_lines. split; [reflexivity|]. split; [apply sort_by_perm|apply sort_by_sorted].
Qed.

Lemma tags_names g :
  (forall r, In r (all_reqs g) -> forall c, In c (req_id r) -> 9 < c) ->
  exists rs, tags_requirements g = TAGS_HEADER ++ flat_map the_tag rs /\
    Permutation (filter has_line (all_reqs g)) rs /\ sorted_by req_id rs.
Proof.
  intros H. destruct (tags_exact g) as (lines & E & P & S). rewrite tags_of_map in P.
  destruct (Permutation_map_inv the_tag _ (Permutation_sym P)) as (rs & -> & P').
  exists rs. rewrite E, concat_map_flat. split; [reflexivity|].
  assert (PF : Permutation (filter has_line (all_reqs g)) rs) by exact P'.
  split; [exact PF|].
  apply sorted_map_tags; [| |exact S].
  - intros r Hr. apply H. apply (Permutation_in _ (Permutation_sym PF)) in Hr. apply filter_In in Hr. apply Hr.
  - intros r Hr. apply (Permutation_in _ (Permutation_sym PF)) in Hr. apply filter_In in Hr. apply Hr.
Qed.

(** ** JSON *)
Lemma json_exact {US : UnstableSort} g : exists reqs errs,
  let v := json_requirements (flat_map (fun a => ovalues (art_requirements a)) (ovalues (g_artefacts g)))
                    (flat_map art_errors (ovalues (g_artefacts g))) in
  v = JObj [(L "version", JNum 0); (L "requirements", JArr (map json_requirement reqs));
        (L "errors", JArr (map json_error errs))] /\
  a_parse_report v = Some (0, reqs, errs) /\
  Permutation (all_reqs g) reqs /\ sorted_by req_id reqs /\
  (forall id, filter (fun r => eqb (req_id r) id) reqs = filter (fun r => eqb (req_id r) id) (all_reqs g)) /\
  Permutation (all_errors g) errs /\ sorted_by show_error errs.
Proof.
  exists (sort_by req_id (all_reqs g)), (sort_errors (all_errors g)). cbv zeta.
  rewrite all_reqs_flat, all_errors_flat. split; [reflexivity|]. split; [apply parse_report_back|].
  split; [apply sort_by_perm|]. split; [apply sort_by_sorted|]. split; [intros id; apply sort_by_stable|].
  split; [apply sort_errors_perm|apply sort_errors_sorted].
Qed.

(** *** Round trip *)
Lemma mapM_map {A B} (f : B -> option A) (h : A -> B) l :
  (forall a, In a l -> f (h a) = Some a) -> mapM f (map h l) = Some l.
Proof.
  induction l as [|a l IH]; intros H; cbn [map mapM]; [reflexivity|].
  rewrite (H a (or_introl eq_refl)), IH; [reflexivity|]. intros x Hx. apply H. right. exact Hx.
Qed.
Definition fits_in_file (l : location_in_file) : Prop :=
  match l with Line n => n < 2 ^ 64 | LineAndColumn n c => n < 2 ^ 64 /\ c < 2 ^ 64 | LocString _ => True end.
Definition fits_location (l : location) : Prop :=
  match loc_in_file l with Some i => fits_in_file i | None => True end.
(** The values the types of the program can have: numbers below 2^64, sorted maps. *)
Definition fits (r : requirement) : Prop :=
  fits_location (req_location r) /\
  Forall (fun x => fits_location (ref_location x)) (req_covers r) /\
  Forall (fun x => fits_location (ref_location x)) (req_depends r) /\
  osorted (req_attributes r).

Lemma usize_round n : n < USIZE -> unjusize (JNum n) = Some n.
Proof. intros H. cbn. apply N.ltb_lt in H. rewrite H. reflexivity. Qed.
Lemma in_file_round i : fits_in_file i -> unjopt unjson_in_file (json_in_file i) = Some (Some i).
Proof.
  destruct i as [n|n c|s]; intros H; cbn -[USIZE]; cbn [fits_in_file] in H; try change (2 ^ 64) with USIZE in H;
    [| |reflexivity].
  - apply N.ltb_lt in H. rewrite H. reflexivity.
  - destruct H as [H1 H2]. apply N.ltb_lt in H1. apply N.ltb_lt in H2. rewrite H1, H2. reflexivity.
Qed.
Lemma location_round l : fits_location l -> unjson_location (json_location l) = Some l.
Proof.
  destruct l as [f [i|]]; intros H; [|reflexivity]. unfold fits_location in H. cbn [loc_in_file] in H.
  unfold json_location. cbn [loc_file loc_in_file jopt]. unfold unjson_location, field.
  cbn [filter fst snd eqb cmp]. cbn -[unjson_in_file json_in_file unjopt].
  rewrite (in_file_round i H). reflexivity.
Qed.
Lemma title_round t : unjopt unjstr (jopt JStr t) = Some t.
Proof. destruct t; reflexivity. Qed.
Lemma reference_round r : fits_location (ref_location r) -> unjson_reference (json_reference r) = Some r.
Proof.
  destruct r as [i t l]; cbn [ref_location]; intros H. unfold json_reference, unjson_reference, field.
  cbn [ref_id ref_title ref_location]. cbn -[unjson_location json_location unjopt jopt].
  rewrite (location_round l H), title_round. reflexivity.
Qed.
Lemma references_round l : Forall (fun x => fits_location (ref_location x)) l ->
  unjlist unjson_reference (jlist json_reference l) = Some l.
Proof.
  intros H. rewrite Forall_forall in H. cbn. apply mapM_map. intros r Hr. apply reference_round. apply H. exact Hr.
Qed.
Lemma strings_round l : unjlist unjstr (jlist JStr l) = Some l.
Proof. cbn. apply mapM_map. reflexivity. Qed.
Lemma ocollect_of_sorted {K V} `{Ord K} (m : omap K V) : osorted m -> ocollect m = m.
Proof.
  intros HS. apply osorted_ext; [apply ocollect_sorted|exact HS|]. intros k. rewrite oget_ocollect.
  destruct (oget k m) as [v|] eqn:E.
  - apply oget_Some_In in E. pose proof (osorted_nodup_keys m HS) as ND.
    destruct (oget k (rev m)) as [w|] eqn:F.
    + apply oget_Some_In in F. apply in_rev in F. apply (In_oget _ _ _ HS) in F. apply (In_oget _ _ _ HS) in E. congruence.
    + apply oget_None in F. exfalso. apply F. unfold okeys. rewrite map_rev. apply -> in_rev.
      apply (in_map fst) in E. exact E.
  - apply oget_None. apply oget_None in E. intros F. apply E. unfold okeys in *. rewrite map_rev in F.
    apply in_rev in F. exact F.
Qed.
Lemma attributes_round (m : omap str str) : osorted m -> unjmap unjstr (jmap JStr m) = Some m.
Proof.
  intros HS. cbn. rewrite (mapM_map (fun e => option_map (pair (fst e)) (unjstr (snd e)))
                             (fun e => (fst e, JStr (snd e)))).
  - cbn. rewrite ocollect_of_sorted by exact HS. reflexivity.
  - intros [k v] _. reflexivity.
Qed.
Lemma requirement_round r : fits r -> unjson_requirement (json_requirement r) = Some r.
Proof.
  destruct r as [i t l c d g a]. intros (H1 & H2 & H3 & H4). cbn [req_location req_covers req_depends req_attributes] in *.
  unfold json_requirement, unjson_requirement, field. cbn [req_id req_title req_location req_covers req_depends req_tags req_attributes].
  cbn -[unjson_location json_location unjopt jopt unjlist jlist unjmap jmap].
  rewrite (location_round l H1), title_round, (references_round c H2), (references_round d H3), strings_round,
    (attributes_round a H4). reflexivity.
Qed.
Lemma json_round reqs : Forall fits reqs -> unjson_requirements (JArr (map json_requirement reqs)) = Some reqs.
Proof.
  intros H. rewrite Forall_forall in H. cbn. apply mapM_map. intros r Hr. apply requirement_round. apply H. exact Hr.
Qed.

(** ** GNU errors *)
Lemma infix_l x a s : infix x s -> infix x (a ++ s).
Proof. intros (p & q & ->). exists (a ++ p), q. rewrite !app_assoc. reflexivity. Qed.
Lemma infix_here x b : infix x (x ++ b).
Proof. exists [], b. reflexivity. Qed.

Definition ends_nl (s : str) : Prop := exists a, s = a ++ [NL].
Lemma ends_nl_app a s : ends_nl s -> ends_nl (a ++ s).
Proof. intros (b & ->). exists (a ++ b). apply app_assoc. Qed.
Lemma ends_nl_here : ends_nl [NL].
Proof. exists []. reflexivity. Qed.

Lemma infix_cons x c s : infix x s -> infix x (c :: s).
Proof. apply (infix_l x [c] s). Qed.
(** Finds a phrase that need not begin where a part of the text begins: both are taken apart into
    characters and unknown texts, and compared by computation. *)
Inductive expr := Lit (s : str) | Unk (n : nat) | Cat (a b : expr).
Fixpoint text_of (env : list str) (e : expr) : str :=
  match e with Lit s => s | Unk n => nth n env [] | Cat a b => text_of env a ++ text_of env b end.
Fixpoint flat (e : expr) : list (chr + nat) :=
  match e with Lit s => map inl s | Unk n => [inr n] | Cat a b => flat a ++ flat b end.
Definition text_of_part (env : list str) (t : chr + nat) : str := match t with inl c => [c] | inr n => nth n env [] end.
Lemma text_of_flat env e : text_of env e = flat_map (text_of_part env) (flat e).
Proof.
  induction e as [s|n|a IHa b IHb]; cbn [text_of flat].
  - induction s as [|c s IH]; [reflexivity|]. cbn. f_equal. exact IH.
  - cbn. rewrite app_nil_r. reflexivity.
  - rewrite flat_map_app. congruence.
Qed.
Definition same_part (x y : chr + nat) : bool :=
  match x, y with inl c, inl d => N.eqb c d | inr n, inr m => Nat.eqb n m | _, _ => false end.
Fixpoint begins (x s : list (chr + nat)) : bool :=
  match x, s with [], _ => true | a :: x', b :: s' => same_part a b && begins x' s' | _, [] => false end.
Fixpoint occurs (x s : list (chr + nat)) : bool :=
  begins x s || match s with [] => false | _ :: s' => occurs x s' end.
Lemma begins_sound env x : forall s, begins x s = true ->
  exists b, flat_map (text_of_part env) s = flat_map (text_of_part env) x ++ b.
Proof.
  induction x as [|a x IH]; intros s H; [eexists; reflexivity|]. destruct s as [|b s]; [discriminate|].
  cbn [begins] in H. apply andb_true_iff in H. destruct H as [H1 H2]. destruct (IH s H2) as [r E]. exists r.
  assert (a = b) as ->.
  { destruct a, b; cbn in H1; try discriminate; f_equal; [apply N.eqb_eq|apply Nat.eqb_eq]; exact H1. }
  cbn [flat_map]. rewrite E. apply app_assoc.
Qed.
Lemma occurs_sound env x s : occurs x s = true ->
  infix (flat_map (text_of_part env) x) (flat_map (text_of_part env) s).
Proof.
  induction s as [|t s IH]; intros H; cbn [occurs] in H; apply orb_true_iff in H; destruct H as [H|H].
  - destruct (begins_sound env _ _ H) as [b E]. exists [], b. exact E.
  - discriminate.
  - destruct (begins_sound env _ _ H) as [b E]. exists [], b. exact E.
  - cbn [flat_map]. apply infix_l. apply IH. exact H.
Qed.
Lemma occurs_infix env x s : occurs (flat x) (flat s) = true -> infix (text_of env x) (text_of env s).
Proof. intros H. rewrite !text_of_flat. apply occurs_sound. exact H. Qed.
Ltac place_in v env :=
  lazymatch env with
  | v :: _ => constr:(O)
  | _ :: ?env' => let n := place_in v env' in constr:(S n)
  end.
Ltac unknowns s env :=
  lazymatch s with
  | ?a ++ ?b => let env' := unknowns a env in unknowns b env'
  | _ :: ?r => unknowns r env
  | [] => env
  | L _ => env
  | ?v => match env with
          | context [v :: _] => env
          | _ => constr:(v :: env)
          end
  end.
Ltac parts s env :=
  lazymatch s with
  | ?a ++ ?b => let x := parts a env in let y := parts b env in constr:(Cat x y)
  | ?c :: ?r => let y := parts r env in constr:(Cat (Lit [c]) y)
  | [] => constr:(Lit [])
  | L ?l => constr:(Lit (L l))
  | ?v => let n := place_in v env in constr:(Unk n)
  end.
Ltac find_phrase :=
  unfold title_or, opt_default, NO_TITLE, TICKS;
  repeat match goal with |- context [match ?o with Some _ => _ | None => _ end] => destruct o end;
  lazymatch goal with
  | |- infix ?x ?s =>
      let e1 := unknowns x (@nil str) in let env := unknowns s e1 in
      let a := parts x env in let b := parts s env in
      refine (occurs_infix env a b _); vm_compute; reflexivity
  end.

Ltac find_infix :=
  match goal with
  | |- infix ?x (?x ++ _) => apply infix_here
  | |- infix ?x (?a ++ ?s) => apply (infix_l x a s); find_infix
  end.
Ltac find_nl :=
  match goal with
  | |- ends_nl [NL] => exact ends_nl_here
  | |- ends_nl (?a ++ ?s) => apply (ends_nl_app a s); find_nl
  end.

Section Gnu.
  Context {D : Debug}.
  Lemma gnu_ends e : ends_nl (gnu_error e).
  Proof. destruct e; cbn [gnu_error]; find_nl. Qed.

  Lemma place_lemma (a : str) s : ends_nl s -> exists rest, a ++ L ": " ++ s = a ++ L ": " ++ rest ++ [NL].
  Proof. intros (r & ->). exists r. reflexivity. Qed.

  Lemma gnu_place e l : place e = Some l -> exists rest, gnu_error e = show_location l ++ L ": " ++ rest ++ [NL].
  Proof.
    destruct e; cbn [place]; intros H; inversion H; subst; cbn [gnu_error].
    - apply place_lemma. find_nl.
    - apply (place_lemma _ (L "Duplicate Requirement: " ++ req_id old ++ [NL] ++
        show_location (req_location old) ++ L ": note: previously seen here" ++ [NL])). find_nl.
    - apply place_lemma. find_nl.
    - apply place_lemma. find_nl.
    - apply place_lemma. find_nl.
    - apply (place_lemma _ (L "should reference " ++ req_id referenced ++ L " with title " ++
        debug_str (opt_default (req_title referenced) NO_TITLE) ++ [NL])). find_nl.
    - apply (place_lemma _ (L "requirement " ++ req_id req ++
        L " without title in artefact that requires referencing with title" ++ [NL])). find_nl.
    - apply place_lemma. find_nl.
    - apply place_lemma. find_nl.
  Qed.

  Lemma gnu_other_place e l : other_place e = Some l -> exists first rest,
    gnu_error e = first ++ [NL] ++ show_location l ++ L ": note: " ++ rest ++ [NL].
  Proof.
    destruct e; cbn [other_place]; intros H; inversion H; subst; cbn [gnu_error].
    - exists (show_location (req_location new) ++ L ": Duplicate Requirement: " ++ req_id old), (L "previously seen here").
      rewrite <- !app_assoc. reflexivity.
    - exists (show_location loc ++ L ": " ++ req_id upper ++ L " covered with wrong title. Expected " ++
        debug_str (opt_default (req_title upper) NO_TITLE) ++ L ", actual " ++ debug_str wrong_title), (L "Defined here").
      rewrite <- !app_assoc. reflexivity.
    - exists (show_location loc ++ L ": " ++ req_id lower ++ L " depended with wrong title. Expected " ++
        debug_str (opt_default (req_title lower) NO_TITLE) ++ L ", actual " ++ debug_str wrong_title), (L "Defined here").
      rewrite <- !app_assoc. reflexivity.
  Qed.

  Lemma gnu_mentions e x : In x (mentions e) -> infix x (gnu_error e).
  Proof.
    destruct e; cbn [mentions gnu_error]; intros H; cbn [In] in H;
      repeat (destruct H as [H|H]; [subst x; find_infix|]); destruct H.
  Qed.

  Lemma gnu_phrases_in e x : In x (gnu_phrases e) -> infix x (gnu_error e).
  Proof.
    revert x. apply Forall_forall.
    destruct e; cbn [gnu_phrases gnu_error]; repeat (apply Forall_cons || apply Forall_nil); find_phrase.
  Qed.
End Gnu.

(** ** Markdown *)
Section MdPhrases.
  Context {CT : CaseTables}.
  Lemma md_phrases_in e x : In x (md_phrases e) -> infix x (md_error e).
  Proof.
    revert x. apply Forall_forall.
    destruct e; cbn [md_phrases md_error]; unfold quoted_title; repeat (apply Forall_cons || apply Forall_nil); find_phrase.
  Qed.
  Lemma location_link_line l n : line_of l = Some n ->
    location_link l = L "[" ++ show_location l ++ L "](../" ++ loc_file l ++ L "?plain=1#L" ++ show_N n ++ L ")".
  Proof.
    destruct l as [f [[m|m c|s]|]]; cbn [line_of loc_in_file]; intros H; inversion H; subst; unfold location_link, show_location;
      cbn [loc_in_file loc_file]; cbn [show_in_file]; rewrite <- ?app_assoc; reflexivity.
  Qed.
End MdPhrases.

Lemma infix_trans x y z : infix x y -> infix y z -> infix x z.
Proof. intros (a & b & ->) (c & d & ->). exists (c ++ a), (b ++ d). rewrite <- !app_assoc. reflexivity. Qed.
Lemma infix_r x s b : infix x s -> infix x (s ++ b).
Proof. intros (p & q & ->). exists p, (q ++ b). rewrite <- !app_assoc. reflexivity. Qed.
Lemma infix_concat x l : In x l -> infix x (concat l).
Proof. intros H. apply in_split in H. destruct H as (a & b & ->). rewrite concat_app. apply infix_l. apply infix_here. Qed.
Lemma infix_flat_map {A} (f : A -> str) a l : In a l -> infix (f a) (flat_map f l).
Proof. intros H. rewrite flat_map_concat_map. apply infix_concat. apply in_map. exact H. Qed.
Lemma infix_sections {A} title name (entries : A -> list str) l a x :
  In a l -> In x (entries a) -> infix x (sections title name entries l).
Proof.
  intros Ha Hx. unfold sections.
  assert (HF : In a (filter (fun a => negb (is_nil (entries a))) l)).
  { apply filter_In. split; [exact Ha|]. destruct (entries a); [destruct Hx|reflexivity]. }
  destruct (filter (fun a => negb (is_nil (entries a))) l) as [|b l'] eqn:E; [destruct HF|].
  apply infix_l. eapply infix_trans; [|apply (infix_flat_map _ a); exact HF]. cbn beta.
  apply infix_l. apply infix_concat. exact Hx.
Qed.

Section Md.
  Context {CT : CaseTables}.

  Section Listed.
    Variables (g : graph) (tg : traced_graph) (ag : aggregated_graph).

    Lemma listed_input_error a e : In a (ovalues (g_artefacts g)) -> In e (art_errors a) ->
      infix (md_error e) (md_report g tg ag).
    Proof.
      intros Ha He. unfold md_report. apply infix_r. eapply infix_sections; [exact Ha|]. apply in_map. exact He.
    Qed.
    Lemma listed_error e : In e (tg_errors tg) -> infix (md_error e) (md_report g tg ag).
    Proof.
      intros He. unfold md_report. apply infix_l. apply infix_r.
      assert (En : is_nil (tg_errors tg) = false) by (destruct (tg_errors tg); [destruct He|reflexivity]).
      rewrite En. apply infix_l. apply infix_concat. apply firsts_In. apply in_map. exact He.
    Qed.
    Lemma listed_uncovered rel r : In rel (g_relations g) -> In r (uncovered_reqs g rel) ->
      infix (item tg r) (md_report g tg ag).
    Proof.
      intros Ha Hr. unfold md_report. do 2 apply infix_l. apply infix_r.
      apply (infix_sections _ _ _ _ rel); [exact Ha|]. apply (in_map (item tg)). exact Hr.
    Qed.
    Lemma listed_derived k a r : In (k, a) (g_artefacts g) -> In r (derived_reqs g k a) ->
      infix (item tg r) (md_report g tg ag).
    Proof.
      intros Ha Hr. unfold md_report. do 3 apply infix_l. apply infix_r.
      apply (infix_sections _ _ _ _ (k, a)); [exact Ha|]. apply (in_map (item tg)). exact Hr.
    Qed.
  End Listed.

  Lemma md_possible g tg :
    graph_wf g -> trace g = Done tg ->
    (forall rel la, In rel (g_relations g) -> In la (rel_lower rel) -> In la (okeys (g_artefacts g))) ->
    exists ag, aggregate tg = Done ag /\ md_tracing ag = Done (md_report g tg ag).
  Proof.
    intros WF TR HL. destruct (proj2 (agg_total_iff g tg WF TR) HL) as [ag HA]. exists ag. split; [exact HA|].
    apply md_exact; assumption.
  Qed.

  (** *** Entries *)
  Section Entries.
    Variables (g : graph) (tg : traced_graph) (ag : aggregated_graph).
    Hypothesis WF : graph_wf g.
    Hypothesis TR : trace g = Done tg.
    Hypothesis AG : aggregate tg = Done ag.
    Hypothesis UN : unique_ids g.

    Lemma unique_artefact k k' r r' :
      In r (reqs_of g k) -> In r' (reqs_of g k') -> req_id r = req_id r' -> k = k'.
    Proof.
      assert (HC : forall k k' r r', In r (reqs_of g k) -> In r' (reqs_of g k') -> req_id r = req_id r' -> cmp k k' <> Lt).
      { clear k k' r r'. intros k k' r r' H1 H2 E HC.
        assert (Hd : dup_errors g = []) by (apply dup_errors_unique; assumption).
        unfold dup_errors in Hd. destruct (reqs_of_index g WF k r H1) as (a & A1 & A2).
        destruct (reqs_of_index g WF k' r' H2) as (a' & B1 & B2).
        rewrite flat_map_nil_iff in Hd. specialize (Hd _ (oget_Some_In _ _ _ B1)). cbn [fst snd] in Hd.
        rewrite flat_map_nil_iff in Hd.
        assert (Hr' : In r' (ovalues (art_requirements a'))).
        { apply ovalues_In. exists (req_id r'). apply oget_Some_In. exact B2. }
        specialize (Hd _ Hr'). unfold dup_errors_of in Hd.
        assert (HB : defined_before g k' (req_id r') = true).
        { unfold defined_before. apply existsb_exists. exists (k, a). split; [apply oget_Some_In; exact A1|].
          cbn [fst snd]. rewrite HC. cbn [andb]. apply existsb_exists. exists r. split.
          - apply ovalues_In. exists (req_id r). apply oget_Some_In. exact A2.
          - rewrite E. apply eqb_refl. }
        rewrite HB, (reqs_of_first g WF k' r' UN H2) in Hd. discriminate. }
      intros H1 H2 E. destruct (cmp k k') eqn:Ec.
      - apply cmp_eq. exact Ec.
      - destruct (HC k k' r r' H1 H2 E Ec).
      - exfalso. apply (HC k' k r' r H2 H1 (eq_sym E)). rewrite cmp_opp, Ec. reflexivity.
    Qed.

    Lemma ids_of_reqs k id : In id (ids_of tg k) <-> exists r, In r (reqs_of g k) /\ req_id r = id.
    Proof.
      unfold ids_of, reqs_of. rewrite (tg_arts g WF tg TR). destruct (oget k (g_artefacts g)) as [a|] eqn:E.
      - apply oget_Some_In in E. destruct (proj2 WF _ _ E) as [_ [HS HI]]. unfold okeys, ovalues.
        rewrite in_map_iff. split.
        + intros ([i r] & <- & H). exists r. split; [apply (in_map snd) in H; exact H|]. cbn [fst]. apply HI. exact H.
        + intros (r & H & <-). apply in_map_iff in H. destruct H as ([i r'] & Er & H). cbn in Er. subst r'.
          exists (i, r). split; [|exact H]. cbn. symmetry. apply HI. exact H.
      - split; [intros []|intros (r & [] & _)].
    Qed.

    Lemma the_req_unique k r : In r (reqs_of g k) -> the_req tg (req_id r) = [r].
    Proof.
      intros H. pose proof (unique_shown g tg k r WF TR UN H) as E. unfold shown in E. unfold the_req.
      destruct (last_def_of g WF tg TR k r H) as (a & r' & E'). rewrite E' in *. rewrite E. reflexivity.
    Qed.

    Lemma listed_rel R : rel_listed tg R <-> In R (g_relations g).
    Proof.
      unfold rel_listed. rewrite (tg_rels g WF tg TR), map_map. cbn [tr_relation]. rewrite map_id. reflexivity.
    Qed.

    Lemma first_defs_reqs k r : In r (first_defs g k) -> In r (reqs_of g k).
    Proof. intros H. apply filter_In in H. apply H. Qed.

    Lemma covered_flat {B} (ls : list link) (p : coverage -> bool) (h : coverage -> list B) (f : link -> B) :
      (forall l, In l ls -> h (link_coverage l) = [f l]) ->
      flat_map (fun c => if p c then h c else []) (map link_coverage ls) =
      map f (filter (fun l => p (link_coverage l)) ls).
    Proof.
      induction ls as [|l ls IH]; intros H; cbn [map flat_map filter]; [reflexivity|].
      rewrite IH by (intros x Hx; apply H; right; exact Hx).
      destruct (p (link_coverage l)); cbn [map app]; [|reflexivity].
      rewrite (H l (or_introl eq_refl)). reflexivity.
    Qed.

    Lemma below_eq r R : below tg (req_id r) R = links_below g r R.
    Proof.
      unfold below, links_below. rewrite (tg_rels g WF tg TR), flat_map_concat_map, map_map, <- flat_map_concat_map.
      apply flat_map_ext. intros rel. cbn [tr_relation tr_covered]. destruct (eqb rel R); [|reflexivity].
      rewrite (covered_flat _ (fun c => eqb (cov_upper c) (req_id r))
                 (fun c => map (fun r0 => (r0, cov_location c)) (the_req tg (cov_lower c)))
                 (fun l => (lk_lower l, ref_location (lk_ref l)))); [reflexivity|].
      intros l Hl. apply in_links in Hl. destruct Hl as (_ & _ & H & _). cbn [link_coverage cov_lower cov_location].
      rewrite (the_req_unique (lk_lower_art l)) by (apply first_defs_reqs; exact H). reflexivity.
    Qed.
    Lemma above_eq r R : above tg (req_id r) R = links_above g r R.
    Proof.
      unfold above, links_above. rewrite (tg_rels g WF tg TR), flat_map_concat_map, map_map, <- flat_map_concat_map.
      apply flat_map_ext. intros rel. cbn [tr_relation tr_covered]. destruct (eqb rel R); [|reflexivity].
      rewrite (covered_flat _ (fun c => eqb (cov_lower c) (req_id r))
                 (fun c => map (fun r0 => (r0, cov_location c)) (the_req tg (cov_upper c)))
                 (fun l => (lk_upper l, ref_location (lk_ref l)))); [reflexivity|].
      intros l Hl. apply in_links in Hl. destruct Hl as (H & _). cbn [link_coverage cov_upper cov_location].
      rewrite (the_req_unique (rel_upper rel)) by exact H. reflexivity.
    Qed.

    Lemma last_def_unique k r : In r (reqs_of g k) ->
      exists a, last_def tg (req_id r) = Some (a, r) /\ art_id a = k.
    Proof.
      intros H. destruct (last_def_of g WF tg TR k r H) as (a & r' & E).
      pose proof (unique_shown g tg k r WF TR UN H) as Es. unfold shown in Es. rewrite E in Es. subst r'.
      exists a. split; [exact E|]. unfold last_def in E. apply oget_Some_In in E. apply in_rev in E.
      unfold all_defs in E. rewrite (tg_arts g WF tg TR) in E. apply in_flat_map in E.
      destruct E as (a' & Ha & Hin). apply in_map_iff in Hin. destruct Hin as ([i x] & Ei & Hin).
      cbn [fst snd] in Ei. inversion Ei; subst. apply ovalues_In in Ha. destruct Ha as [k' Ha].
      destruct (proj2 WF _ _ Ha) as [HA [HS HI]].
      subst k'. apply (unique_artefact (art_id a) k r r); [|exact H|reflexivity].
      unfold reqs_of. rewrite (In_oget _ _ _ (proj1 WF) Ha). apply ovalues_In. exists (req_id r). exact Hin.
    Qed.

    Lemma md_attributes_eq l : flat_map md_attribute l =
      flat_map (fun e => if eqb (fst e) (L "Description") || is_nil (trim (snd e)) then []
                       else [NL] ++ fst e ++ L ":" ++ [NL] ++ trim (snd e) ++ [NL]) l.
    Proof.
      apply flat_map_ext. intros [k v]. unfold md_attribute. cbn [fst snd].
      destruct (eqb k (L "Description")); [reflexivity|]. cbn [orb]. destruct (trim v); reflexivity.
    Qed.

    Lemma md_entry k r : In r (reqs_of g k) ->
      exists t, oget (req_id r) (ag_requirements ag) = Some t /\ entry g k r (md_traced_requirement t).
    Proof.
      intros H. destruct (last_def_unique k r H) as (a & E & Ea).
      pose proof (proj1 (agg_total_iff g tg WF TR) (ex_intro _ ag AG)) as HL.
      destruct (aggregate_spec tg (trace_agg_ok g tg WF TR)
                  (proj2 (trace_lowers_known g tg WF TR) HL)) as (ag' & E' & _ & _ & _ & _ & Hd).
      assert (ag' = ag) by congruence. subst ag'.
      destruct (Hd _ _ _ E) as (t & H1 & Hart & Hreq & S1 & S2 & HD & HC). exists t. split; [exact H1|].
      exists (rt_covers t), (rt_depends t). split; [exact S2|]. split; [exact S1|]. split; [|split].
      - intros R l. specialize (HC R). rewrite listed_rel in HC. rewrite above_eq in HC.
        destruct HC as [(C1 & (la & C2 & C3) & C4)|[C1 C2]].
        + assert (la = k).
          { apply ids_of_reqs in C3. destruct C3 as (r' & C3 & C5). apply (unique_artefact la k r' r C3 H C5). }
          subst la. rewrite C4. split; [intros X; inversion X; auto|intros (_ & _ & ->); reflexivity].
        + rewrite C2. split; [discriminate|]. intros (X1 & X2 & _). exfalso. apply C1. split; [exact X1|].
          exists k. split; [exact X2|]. apply ids_of_reqs. exists r. auto.
      - intros R l. specialize (HD R). rewrite listed_rel in HD. rewrite below_eq in HD.
        destruct HD as [(C1 & C3 & C4)|[C1 C2]].
        + assert (rel_upper R = k).
          { apply ids_of_reqs in C3. destruct C3 as (r' & C3 & C5). apply (unique_artefact _ k r' r C3 H C5). }
          rewrite C4. split; [intros X; inversion X; auto|intros (_ & _ & ->); reflexivity].
        + rewrite C2. split; [discriminate|]. intros (X1 & X2 & _). exfalso. apply C1. split; [exact X1|].
          apply ids_of_reqs. exists r. rewrite X2. auto.
      - unfold md_traced_requirement. rewrite Hart, Hreq, Ea. unfold free_text, md_description.
        rewrite md_attributes_eq.
        assert (ED : forallb (fun e : relation * list (requirement * location) => is_nil (snd e)) (rt_covers t) =
                     negb (existsb (fun e => negb (is_nil (snd e))) (rt_covers t))).
        { clear. induction (rt_covers t) as [|e m IH]; [reflexivity|]. cbn [forallb existsb]. rewrite IH, negb_orb, negb_involutive.
          reflexivity. }
        assert (EL : forall m : omap relation (list (requirement * location)),
          flat_map (fun e => L "*   " ++ show_relation (fst e) ++ [NL] ++
                             (if is_nil (snd e) then L "    *    UNCOVERED" ++ [NL] else []) ++
                             flat_map md_trace_link (snd e)) m =
          flat_map (fun e => L "*   " ++ show_relation (fst e) ++ [NL] ++
                             match snd e with
                             | [] => L "    *    UNCOVERED" ++ [NL]
                             | xs => flat_map link_item xs
                             end) m).
        { intros m. apply flat_map_ext. intros [R l]. cbn [fst snd]. destruct l; reflexivity. }
        rewrite ED, EL. rewrite <- !app_assoc.
        destruct (existsb (fun e => negb (is_nil (snd e))) (rt_covers t)); reflexivity.
    Qed.

    Lemma md_entries : exists pre (f : artefact_id -> requirement -> str),
      md_tracing ag = Done (pre ++ flat_map (fun e => L "## " ++ fst e ++ [NL] ++
                              flat_map (f (fst e)) (ovalues (art_requirements (snd e)))) (g_artefacts g)) /\
      forall k r, In r (reqs_of g k) -> entry g k r (f k r).
    Proof.
      rewrite (md_exact g WF tg TR ag AG). unfold md_report.
      exists (sections "Input Errors" art_id (fun a => map md_error (art_errors a)) (ovalues (g_artefacts g)) ++
        (if is_nil (tg_errors tg) then []
         else md_headline "Tracing Errors" ++ concat (firsts (map md_error (tg_errors tg)))) ++
        sections "Uncovered Requirements" show_relation (fun rel => map (item tg) (uncovered_reqs g rel))
          (g_relations g) ++
        sections "Derived Requirements" fst (fun e => map (item tg) (derived_reqs g (fst e) (snd e)))
          (g_artefacts g) ++
        md_headline "Requirements").
      exists (fun _ r => match oget (req_id r) (ag_requirements ag) with
                         | Some t => md_traced_requirement t
                         | None => []
                         end).
      split.
      - rewrite <- !app_assoc. do 6 f_equal.
        assert (HA : forall k a, In (k, a) (g_artefacts g) -> art_id a = k) by (intros k a H; apply (proj2 WF _ _ H)).
        revert HA. generalize (g_artefacts g). induction o as [|[k a] m IH]; intros HA; [reflexivity|].
        cbn [flat_map ovalues map fst snd]. rewrite (HA k a) by (left; reflexivity). f_equal.
        apply IH. intros k' a' H. apply HA. right. exact H.
      - intros k r H. destruct (md_entry k r H) as (t & -> & HE). exact HE.
    Qed.
  End Entries.

  (** *** Anchors *)
  Lemma anchor_clean r : exists anchor rest,
    requirement_link r = L "[" ++ req_id r ++ L "](#" ++ anchor ++ rest /\
    (rest = L ")" \/ exists t, req_title r = Some t /\ rest = [32; DQUOTE] ++ t ++ [DQUOTE; 41]) /\
    forall c, In c anchor -> anchor_char c.
  Proof.
    unfold requirement_link. destruct (req_title r) as [t|] eqn:E.
    - exists (slug (req_id r ++ L "-" ++ t)), ([32; DQUOTE] ++ t ++ [DQUOTE; 41]). split; [reflexivity|].
      split; [right; exists t; auto|]. intros c. apply slug_clean.
    - exists (slug (req_id r)), (L ")"). split; [reflexivity|]. split; [left; reflexivity|]. intros c. apply slug_clean.
  Qed.

  Lemma to_lowercase_ascii s : is_ascii s = true -> forall b, to_lowercase_from b s = map lower_ascii s.
  Proof.
    induction s as [|c s IH]; intros H b; cbn [to_lowercase_from map]; [reflexivity|].
    cbn [is_ascii forallb] in H. apply andb_true_iff in H. destruct H as [H1 H2].
    rewrite (IH H2). rewrite H1. unfold lower_ascii at 2, is_upper_ascii. destruct ((65 <=? c) && (c <=? 90)); reflexivity.
  Qed.
  Lemma slug_ascii s : is_ascii s = true -> slug s = heading_anchor s.
  Proof.
    intros H. unfold slug, to_lowercase, heading_anchor. rewrite (to_lowercase_ascii s H), map_map. f_equal.
    apply map_ext. intros c. unfold lower_ascii, is_upper_ascii.
    destruct (65 <=? c) eqn:E1; cbn [andb]; [|reflexivity]. destruct (c <=? 90) eqn:E2; [|reflexivity].
    apply N.leb_le in E1. apply N.leb_le in E2.
    assert (F1 : (c + 32 =? 32) = false) by (apply N.eqb_neq; lia).
    assert (F2 : (c =? 32) = false) by (apply N.eqb_neq; lia). rewrite F1, F2. reflexivity.
  Qed.
  Lemma is_ascii_app a b : is_ascii (a ++ b) = is_ascii a && is_ascii b.
  Proof. apply forallb_app. Qed.
  Lemma anchor_heading r :
    is_ascii (req_id r) = true -> is_ascii (opt_default (req_title r) []) = true ->
    exists rest, requirement_link r =
      L "[" ++ req_id r ++ L "](#" ++
      heading_anchor (req_id r ++ match req_title r with Some t => L ": " ++ t | None => [] end) ++ rest.
  Proof.
    intros H1 H2. unfold requirement_link. destruct (req_title r) as [t|]; cbn [opt_default] in H2.
    - eexists. rewrite slug_ascii by (rewrite !is_ascii_app, H1, H2; reflexivity).
      assert (E : heading_anchor (req_id r ++ L ": " ++ t) = heading_anchor (req_id r ++ L "-" ++ t)).
      { unfold heading_anchor. rewrite !map_app, !filter_app. reflexivity. }
      rewrite E. reflexivity.
    - exists (L ")"). rewrite slug_ascii by exact H1. rewrite (app_nil_r (req_id r)). reflexivity.
  Qed.
End Md.
