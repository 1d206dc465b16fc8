(** The parser of the command line implements CliSpec.v. *)
From Verif Require Import Base OMap Models Unicode Utf8 Paths MdParser MonoParser RustParser Tracer
  Show Sort Serialize MdFmt Formatters Controller Config Cli CliSpec.
Open Scope N_scope.

(** ** Applying items *)
Definition do_item (i : item) (m : matches) : matches + stop :=
  match i with
  | IQuiet => set_quiet m
  | IValue o v => set_value o v m
  | IJob s => inl (add_job s m)
  end.
Fixpoint run_items (is : list item) (m : matches) : matches + stop :=
  match is with
  | [] => inl m
  | i :: is' => match do_item i m with inl m' => run_items is' m' | inr s => inr s end
  end.

Lemma run_items_app a b m :
  run_items (a ++ b) m = match run_items a m with inl m' => run_items b m' | inr s => inr s end.
Proof.
  revert m. induction a as [|i a IH]; intros m; [reflexivity|]. cbn [app run_items].
  destruct (do_item i m) as [m'|s]; [apply IH|reflexivity].
Qed.

Lemma set_value_fails o v m s : set_value o v m = inr s -> s = Usage.
Proof.
  unfold set_value. destruct (ma_get o m); [congruence|]. destruct (is_path_option o && is_nil v); congruence.
Qed.
Lemma set_quiet_fails m s : set_quiet m = inr s -> s = Usage.
Proof. unfold set_quiet. destruct (ma_quiet m); congruence. Qed.

(** ** An option whose value has come is stored, sooner or later. *)
Definition after (x : matches + stop) {A} (k : matches -> A + stop) : A + stop :=
  match x with inl m => k m | inr s => inr s end.

Lemma opt_value_eager o a p m : opt_value o a p m = after (resolve p m) (fun m' => opt_value o a None m').
Proof. unfold opt_value, after. destruct (resolve p m); reflexivity. Qed.
Lemma flag_eager f p m : flag f p m = after (resolve p m) (fun m' => flag f None m').
Proof. unfold flag, after. destruct (resolve p m); reflexivity. Qed.

Lemma resolve_fails p m s : resolve p m = inr s -> s = Usage.
Proof.
  destruct p as [[o [v|]]|]; cbn; [apply set_value_fails|congruence|discriminate].
Qed.
Lemma after_usage p m : after (resolve p m) (fun _ => inr Usage) = (inr Usage : (matches * pending_option) + stop).
Proof. unfold after. destruct (resolve p m) as [m'|s] eqn:E; [reflexivity|]. rewrite (resolve_fails _ _ _ E). reflexivity. Qed.

Lemma short_eager w p m : w <> [] -> short_args w p m = after (resolve p m) (fun m' => short_args w None m').
Proof.
  intros Hw. destruct w as [|c w]; [congruence|]. cbn [short_args].
  destruct (c =? 113); [|destruct (c =? 104); [apply flag_eager|]; destruct (c =? 86); [apply flag_eager|]].
  - rewrite flag_eager. unfold after. destruct (resolve p m); reflexivity.
  - destruct (option_short c); [apply opt_value_eager|]. symmetry. apply after_usage.
Qed.
Lemma long_eager w p m : long_arg w p m = after (resolve p m) (fun m' => long_arg w None m').
Proof.
  unfold long_arg. destruct (split_equals w) as [name value]. destruct (option_long name); [apply opt_value_eager|].
  destruct (str_eqb name (L "quiet")); [destruct value; [symmetry; apply after_usage|apply flag_eager]|].
  destruct (str_eqb name (L "help")); [destruct value; [symmetry; apply after_usage|apply flag_eager]|].
  destruct (str_eqb name (L "version")); [destruct value; [symmetry; apply after_usage|apply flag_eager]|].
  symmetry. apply after_usage.
Qed.
Lemma positional_eager s p m : positional s p m = after (resolve p m) (fun m' => positional s None m').
Proof. unfold positional, after. destruct (resolve p m); reflexivity. Qed.

Lemma parse_eager args : forall tr o v m,
  parse_from args tr (Some (o, Some v)) m = after (set_value o v m) (fun m' => parse_from args tr None m').
Proof.
  induction args as [|a args IH]; intros tr o v m.
  - cbn [parse_from resolve]. unfold after. destruct (set_value o v m); reflexivity.
  - pose (p := Some (o, Some v) : pending_option).
    assert (HK : forall (f : pending_option -> matches -> (matches * pending_option) + stop),
      f p m = after (resolve p m) (fun m' => f None m') ->
      (match f p m with inl (m', p') => parse_from args tr p' m' | inr s => inr s end) =
      after (set_value o v m) (fun m' => match f None m' with inl (m2, p') => parse_from args tr p' m2 | inr s => inr s end)).
    { intros f E. rewrite E. cbn [resolve p]. unfold after. destruct (set_value o v m); reflexivity. }
    cbn [parse_from]. fold p.
    pose proof (HK (positional a) (positional_eager a p m)) as HP.
    destruct tr; [exact HP|].
    destruct a as [|d w]; [exact HP|]. destruct (d =? DASH); [|exact HP]. destruct w as [|d2 w2]; [exact HP|].
    destruct (d2 =? DASH).
    + destruct w2 as [|x w2]; [apply IH|]. apply (HK (long_arg (x :: w2))). apply long_eager.
    + apply (HK (short_args (d2 :: w2))). apply short_eager. discriminate.
Qed.

(** ** Words *)
Lemma plain_dec s : plain s \/ (s = L "--" \/ (exists w, w <> [] /\ s = L "--" ++ w) \/
  exists c w, c <> DASH /\ s = DASH :: c :: w).
Proof.
  destruct s as [|d w]; [left; right; intros w H; discriminate|].
  destruct (N.eqb_spec d DASH) as [-> |Hd].
  - destruct w as [|d2 w2]; [left; left; reflexivity|]. right. destruct (N.eqb_spec d2 DASH) as [-> |Hd2].
    + destruct w2 as [|x w2]; [left; reflexivity|]. right. left. exists (x :: w2). split; [discriminate|reflexivity].
    + right. right. eauto.
  - left. right. intros w' H. congruence.
Qed.

Lemma plain_step s args p m : plain s ->
  parse_from (s :: args) false p m =
  match p with
  | Some (o, None) => parse_from args false (Some (o, Some s)) m
  | _ => match positional s p m with inl (m', p') => parse_from args false p' m' | inr e => inr e end
  end.
Proof.
  intros [-> | H]; [reflexivity|]. cbn [parse_from]. destruct s as [|d w]; [reflexivity|].
  destruct (N.eqb_spec d DASH) as [-> |Hd]; [|reflexivity]. elim (H w). reflexivity.
Qed.
Lemma long_step w args p m : w <> [] ->
  parse_from ((L "--" ++ w) :: args) false p m =
  match long_arg w p m with inl (m', p') => parse_from args false p' m' | inr e => inr e end.
Proof. intros H. destruct w as [|x w]; [congruence|]. reflexivity. Qed.
Lemma short_step c w args p m : c <> DASH ->
  parse_from ((DASH :: c :: w) :: args) false p m =
  match short_args (c :: w) p m with inl (m', p') => parse_from args false p' m' | inr e => inr e end.
Proof.
  intros H. cbn [parse_from]. replace (DASH =? DASH) with true by reflexivity.
  destruct (N.eqb_spec c DASH) as [-> |_]; [congruence|]. reflexivity.
Qed.
Lemma escape_step args p m : parse_from (L "--" :: args) false p m = parse_from args true p m.
Proof. reflexivity. Qed.

Lemma trailing_missing args o m : parse_from args true (Some (o, None)) m = inr Usage.
Proof. destruct args; reflexivity. Qed.
Lemma trailing_jobs args : forall m, parse_from args true None m = run_items (map IJob args) m.
Proof. induction args as [|a args IH]; intros m; [reflexivity|]. cbn. apply IH. Qed.

(** An option whose value is still missing. *)
Lemma missing_value args o m :
  parse_from args false (Some (o, None)) m = inr Usage \/
  exists v args', args = v :: args' /\ plain v /\
    parse_from args false (Some (o, None)) m = after (set_value o v m) (fun m' => parse_from args' false None m').
Proof.
  destruct args as [|v args]; [left; reflexivity|].
  destruct (plain_dec v) as [H|[-> |[(w & Hw & ->)|(c & w & Hc & ->)]]].
  - right. exists v, args. split; [reflexivity|]. split; [exact H|]. rewrite (plain_step _ _ _ _ H). apply parse_eager.
  - left. rewrite escape_step. apply trailing_missing.
  - left. rewrite (long_step _ _ _ _ Hw), long_eager. reflexivity.
  - left. rewrite (short_step _ _ _ _ _ Hc), short_eager by discriminate. reflexivity.
Qed.

(** ** Letters *)
Lemma option_short_name c o : option_short c = Some o <-> c = short_name o.
Proof.
  unfold option_short. split.
  - destruct (N.eqb_spec c 108); [intros H; inversion H; subst; reflexivity|].
    destruct (N.eqb_spec c 99); [intros H; inversion H; subst; reflexivity|].
    destruct (N.eqb_spec c 98); [intros H; inversion H; subst; reflexivity|discriminate].
  - intros ->. destruct o; reflexivity.
Qed.

Definition opened_option (o : option cli_option) : pending_option := option_map (fun o => (o, None)) o.

Lemma letters_run w is o : letters w is o -> forall m m', run_items is m = inl m' ->
  short_args w None m = inl (m', opened_option o).
Proof.
  induction 1 as [|w is o H IH|o v Hv He|o v|o]; intros m m' HR.
  - cbn in *. inversion HR; subst; reflexivity.
  - cbn [run_items do_item] in HR. cbn [short_args]. replace (113 =? 113) with true by reflexivity.
    unfold flag. cbn [resolve]. destruct (set_quiet m) as [m1|]; [|discriminate]. apply IH. exact HR.
  - cbn [run_items do_item] in HR. destruct (set_value o v m) as [m1|] eqn:E; [|discriminate].
    destruct v as [|x v]; [congruence|].
    assert (Ex : (x =? EQUALS) = false) by (apply N.eqb_neq; intros ->; apply (He v); reflexivity).
    destruct o; cbn [short_args short_name N.eqb Pos.eqb option_short]; unfold opt_value; cbn [resolve]; rewrite Ex, E;
      inversion HR; subst; reflexivity.
  - cbn [run_items do_item] in HR. destruct (set_value o v m) as [m1|] eqn:E; [|discriminate].
    change (61 :: v) with (EQUALS :: v). destruct o; cbn [short_args short_name N.eqb Pos.eqb option_short]; unfold opt_value; cbn [resolve];
      replace (EQUALS =? EQUALS) with true by reflexivity; rewrite E; inversion HR; subst; reflexivity.
  - cbn in HR. destruct o; inversion HR; subst; reflexivity.
Qed.

(** What the letters of a word can do. *)
Lemma short_cases w : forall m,
  (exists is o m', letters w is o /\ run_items is m = inl m' /\ short_args w None m = inl (m', opened_option o)) \/
  (exists n w' m', (w = repeat 113 n ++ 104 :: w' /\ short_args w None m = inr Help \/
                    w = repeat 113 n ++ 86 :: w' /\ short_args w None m = inr Version) /\
                   run_items (repeat IQuiet n) m = inl m') \/
  short_args w None m = inr Usage.
Proof.
  induction w as [|c w IH]; intros m.
  - left. exists [], None, m. split; [constructor|]. split; reflexivity.
  - cbn [short_args]. destruct (N.eqb_spec c 113) as [-> |Hq].
    + unfold flag. cbn [resolve]. destruct (set_quiet m) as [m1|s] eqn:E.
      * destruct (IH m1) as [(is & o & m' & H1 & H2 & H3)|[(n & w' & m' & H1 & H2)|H]].
        -- left. exists (IQuiet :: is), o, m'. split; [constructor; exact H1|]. split; [|exact H3].
           cbn [run_items do_item]. rewrite E. exact H2.
        -- right. left. exists (S n), w', m'. cbn [repeat app run_items do_item]. rewrite E. split; [|exact H2].
           destruct H1 as [[-> H1]|[-> H1]]; auto.
        -- right. right. exact H.
      * right. right. rewrite (set_quiet_fails _ _ E). reflexivity.
    + destruct (N.eqb_spec c 104) as [-> |Hh].
      { right. left. exists 0%nat, w, m. split; [left; split; reflexivity|reflexivity]. }
      destruct (N.eqb_spec c 86) as [-> |HV].
      { right. left. exists 0%nat, w, m. split; [right; split; reflexivity|reflexivity]. }
      destruct (option_short c) as [o|] eqn:Eo; [|right; right; reflexivity].
      apply option_short_name in Eo. subst c.
      assert (HL : forall v, letters (short_name o :: w) [IValue o v] None ->
                     opt_value o (Some v) None m =
                       match set_value o v m with inl m2 => inl (m2, None) | inr s => inr s end ->
                     (exists is o0 m', letters (short_name o :: w) is o0 /\ run_items is m = inl m' /\
                        opt_value o (Some v) None m = inl (m', opened_option o0)) \/
                     opt_value o (Some v) None m = inr Usage).
      { intros v Hl ->. destruct (set_value o v m) as [m1|s] eqn:E.
        - left. exists [IValue o v], None, m1. split; [exact Hl|]. split; [cbn; rewrite E; reflexivity|reflexivity].
        - right. rewrite (set_value_fails _ _ _ _ E). reflexivity. }
      destruct w as [|e v].
      * left. exists [], (Some o), m. split; [constructor|]. split; reflexivity.
      * destruct (N.eqb_spec e EQUALS) as [-> |He].
        -- destruct (HL v (le_equals o v) eq_refl) as [H|H]; auto.
        -- destruct (HL (e :: v)) as [H|H]; auto. constructor; [discriminate|]. intros v' E. inversion E. auto.
Qed.

(** ** Long names *)
Lemma split_equals_none w n : split_equals w = (n, None) -> w = n.
Proof.
  revert n. induction w as [|c w IH]; intros n; cbn; [congruence|].
  destruct (c =? EQUALS); [discriminate|]. destruct (split_equals w) as [n' v]. intros H. inversion H; subst.
  f_equal. apply IH. reflexivity.
Qed.
Lemma split_equals_some w n v : split_equals w = (n, Some v) -> w = n ++ EQUALS :: v.
Proof.
  revert n. induction w as [|c w IH]; intros n; cbn; [discriminate|].
  destruct (N.eqb_spec c EQUALS) as [-> |_]; [intros H; inversion H; reflexivity|].
  destruct (split_equals w) as [n' v']. intros H. inversion H; subst. cbn. f_equal. apply IH. reflexivity.
Qed.
Lemma option_long_name n o : option_long n = Some o <-> n = long_name o.
Proof.
  unfold option_long. split.
  - destruct (str_eqb n (L "log-level")) eqn:E1; [intros H; inversion H; apply (proj1 (eqb_true _ _)) in E1; exact E1|].
    destruct (str_eqb n (L "config")) eqn:E2; [intros H; inversion H; apply (proj1 (eqb_true _ _)) in E2; exact E2|].
    destruct (str_eqb n (L "base")) eqn:E3; [intros H; inversion H; apply (proj1 (eqb_true _ _)) in E3; exact E3|discriminate].
  - intros ->. destruct o; reflexivity.
Qed.

Lemma long_cases w m :
  (w = L "quiet" /\ long_arg w None m = match set_quiet m with inl m' => inl (m', None) | inr s => inr s end) \/
  (exists o v, w = long_name o ++ EQUALS :: v /\
     long_arg w None m = match set_value o v m with inl m' => inl (m', None) | inr s => inr s end) \/
  (exists o, w = long_name o /\ long_arg w None m = inl (m, Some (o, None))) \/
  (w = L "help" /\ long_arg w None m = inr Help) \/ (w = L "version" /\ long_arg w None m = inr Version) \/
  long_arg w None m = inr Usage.
Proof.
  unfold long_arg. destruct (split_equals w) as [name value] eqn:Es.
  destruct (option_long name) as [o|] eqn:Eo.
  - apply option_long_name in Eo. subst name. destruct value as [v|].
    + right. left. exists o, v. apply split_equals_some in Es. split; [exact Es|reflexivity].
    + right. right. left. exists o. apply split_equals_none in Es. split; [exact Es|reflexivity].
  - destruct value as [v|]; [do 5 right; destruct (str_eqb name (L "quiet")), (str_eqb name (L "help")),
      (str_eqb name (L "version")); reflexivity|].
    apply split_equals_none in Es. subst name.
    destruct (str_eqb w (L "quiet")) eqn:E1; [left; apply (proj1 (eqb_true _ _)) in E1; split; [exact E1|reflexivity]|].
    destruct (str_eqb w (L "help")) eqn:E2; [do 3 right; left; apply (proj1 (eqb_true _ _)) in E2; split; [exact E2|reflexivity]|].
    destruct (str_eqb w (L "version")) eqn:E3; [do 4 right; left; apply (proj1 (eqb_true _ _)) in E3; split; [exact E3|reflexivity]|].
    do 5 right. reflexivity.
Qed.
Lemma long_equals o v m : long_arg (long_name o ++ EQUALS :: v) None m =
  match set_value o v m with inl m' => inl (m', None) | inr s => inr s end.
Proof. destruct o; reflexivity. Qed.

(** ** Completeness *)
Lemma letters_word w is o : letters w is o -> w <> [] -> exists c w', w = c :: w' /\ c <> DASH.
Proof.
  intros H Hn. destruct H as [|w is o H|o v Hv He|o v|o]; [congruence| | | |]; eexists _, _; (split; [reflexivity|]);
    try destruct o; discriminate.
Qed.

Lemma says_run args items : says args items -> forall tail m m', run_items items m = inl m' ->
  parse_from (args ++ tail) false None m = parse_from tail false None m'.
Proof.
  induction 1 as [|w is args rest Hw Hl H IH|w is o v args rest Hl Hp H IH|args rest H IH|o v args rest Hp H IH
                 |o v args rest H IH|s args rest Hp H IH]; intros tail m m' HR.
  - cbn in *. congruence.
  - rewrite run_items_app in HR. destruct (run_items is m) as [m1|] eqn:E; [|discriminate].
    destruct (letters_word _ _ _ Hl Hw) as (c & w' & -> & Hc). cbn [app]. rewrite (short_step _ _ _ _ _ Hc).
    rewrite (letters_run _ _ _ Hl _ _ E). cbn [opened_option option_map]. apply IH. exact HR.
  - rewrite run_items_app in HR. destruct (run_items is m) as [m1|] eqn:E; [|discriminate].
    assert (Hw : w <> []) by (intros ->; inversion Hl).
    destruct (letters_word _ _ _ Hl Hw) as (c & w' & -> & Hc). cbn [app]. rewrite (short_step _ _ _ _ _ Hc).
    rewrite (letters_run _ _ _ Hl _ _ E). cbn [opened_option option_map].
    rewrite (plain_step _ _ _ _ Hp), parse_eager. cbn [run_items do_item] in HR.
    destruct (set_value o v m1) as [m2|]; [|discriminate]. cbn [after]. apply IH. exact HR.
  - cbn [app]. rewrite (long_step (L "quiet")) by discriminate. cbn [run_items do_item] in HR.
    change (long_arg (L "quiet") None m) with (match set_quiet m with inl m' => inl (m', None) | inr s => inr s end : (matches * pending_option) + stop).
    destruct (set_quiet m) as [m1|]; [|discriminate]. apply IH. exact HR.
  - cbn [app]. rewrite (long_step (long_name o)) by (destruct o; discriminate).
    replace (long_arg (long_name o) None m) with (inl (m, Some (o, None)) : (matches * pending_option) + stop)
      by (destruct o; reflexivity).
    rewrite (plain_step _ _ _ _ Hp), parse_eager. cbn [run_items do_item] in HR.
    destruct (set_value o v m) as [m2|]; [|discriminate]. cbn [after]. apply IH. exact HR.
  - cbn [app]. rewrite (long_step (long_name o ++ EQUALS :: v)) by (destruct o; discriminate).
    rewrite long_equals. cbn [run_items do_item] in HR.
    destruct (set_value o v m) as [m2|]; [|discriminate]. apply IH. exact HR.
  - cbn [app]. rewrite (plain_step _ _ _ _ Hp). cbn [run_items do_item] in HR. cbn [positional resolve]. apply IH. exact HR.
Qed.

(** ** Soundness *)
(** A stop after items that can be applied. *)
Definition stops (s : stop) (args : list str) (m : matches) : Prop :=
  exists before is n w after m',
    args = before ++ w :: after /\ says before is /\ run_items (is ++ repeat IQuiet n) m = inl m' /\
    match s with
    | Help => (n = 0%nat /\ w = L "--help") \/ exists w', w = DASH :: repeat 113 n ++ 104 :: w'
    | Version => (n = 0%nat /\ w = L "--version") \/ exists w', w = DASH :: repeat 113 n ++ 86 :: w'
    | Usage => False
    end.

Definition outcome_of (args : list str) (m : matches) (r : matches + stop) : Prop :=
  match r with
  | inl m' => exists items, command args items /\ run_items items m = inl m'
  | inr Usage => True
  | inr s => stops s args m
  end.

Lemma outcome_cons args1 is m m1 args r :
  (forall a rest, says a rest -> says (args1 ++ a) (is ++ rest)) -> run_items is m = inl m1 ->
  outcome_of args m1 r -> outcome_of (args1 ++ args) m r.
Proof.
  intros HS HR HO. destruct r as [m'|s]; cbn in *.
  - destruct HO as (items & HC & HI). exists (is ++ items). split; [|rewrite run_items_app, HR; exact HI].
    destruct HC as [HC|(b & j & i & -> & H1 & ->)]; [left; apply HS; exact HC|].
    right. exists (args1 ++ b), j, (is ++ i). rewrite <- !app_assoc. split; [reflexivity|]. split; [apply HS; exact H1|reflexivity].
  - assert (HX : stops s args m1 -> stops s (args1 ++ args) m).
    { intros (b & i & n & w & a & m' & -> & H1 & H2 & H3). exists (args1 ++ b), (is ++ i), n, w, a, m'.
      rewrite <- app_assoc. split; [reflexivity|]. split; [apply HS; exact H1|]. split; [|exact H3].
      rewrite <- app_assoc, run_items_app, HR. exact H2. }
    destruct s; auto.
Qed.

Lemma parse_outcome_len k : forall args m, (length args <= k)%nat -> outcome_of args m (parse_from args false None m).
Proof.
  induction k as [|k IH]; intros args m Hk.
  - destruct args; [|cbn in Hk; lia]. cbn. exists []. split; [left; constructor|reflexivity].
  - destruct args as [|a args]; [cbn; exists []; split; [left; constructor|reflexivity]|]. cbn [length] in Hk.
    (* an option whose value is missing *)
    assert (HM : forall is m1 o first,
      (forall v a rest, plain v -> says a rest -> says (first :: v :: a) (is ++ IValue o v :: rest)) ->
      run_items is m = inl m1 -> outcome_of (first :: args) m (parse_from args false (Some (o, None)) m1)).
    { intros is m1 o first HS HR. destruct (missing_value args o m1) as [-> |(v & args' & -> & Hp & ->)]; [exact I|].
      destruct (set_value o v m1) as [m2|s] eqn:E; cbn [after].
      - apply (outcome_cons [first; v] (is ++ [IValue o v]) m m2).
        + intros a0 rest Hs. rewrite <- app_assoc. apply HS; assumption.
        + rewrite run_items_app, HR. cbn. rewrite E. reflexivity.
        + apply IH. cbn in Hk. lia.
      - rewrite (set_value_fails _ _ _ _ E). exact I. }
    destruct (plain_dec a) as [Hp|[-> |[(w & Hw & ->)|(c & w & Hc & ->)]]].
    + rewrite (plain_step _ _ _ _ Hp). cbn [positional resolve].
      apply (outcome_cons [a] [IJob a] m (add_job a m)); [intros a0 rest Hs; apply sa_job; assumption|reflexivity|].
      apply IH. lia.
    + rewrite escape_step, trailing_jobs. destruct (run_items (map IJob args) m) as [m'|s] eqn:E.
      * exists (map IJob args). split; [|exact E]. right. exists [], args, []. split; [reflexivity|]. split; [constructor|reflexivity].
      * exfalso. clear -E. revert m E. induction args as [|a args IH]; intros m E; [discriminate|]. exact (IH _ E).
    + rewrite (long_step _ _ _ _ Hw).
      destruct (long_cases w m) as [[-> ->]|[(o & v & -> & ->)|[(o & -> & ->)|[[-> ->]|[[-> ->]| ->]]]]].
      * destruct (set_quiet m) as [m1|s] eqn:E; [|rewrite (set_quiet_fails _ _ E); exact I].
        apply (outcome_cons [L "--quiet"] [IQuiet] m m1); [intros a0 rest Hs; apply sa_quiet; exact Hs|cbn; rewrite E; reflexivity|].
        apply IH. lia.
      * destruct (set_value o v m) as [m1|s] eqn:E; [|rewrite (set_value_fails _ _ _ _ E); exact I].
        apply (outcome_cons [L "--" ++ long_name o ++ EQUALS :: v] [IValue o v] m m1);
          [intros a0 rest Hs; apply sa_equals; exact Hs|cbn; rewrite E; reflexivity|].
        apply IH. lia.
      * apply (HM [] m o); [|reflexivity]. intros v a0 rest Hp Hs. apply sa_value; assumption.
      * exists [], [], 0%nat, (L "--help"), args, m. repeat split; [constructor|]. left. auto.
      * exists [], [], 0%nat, (L "--version"), args, m. repeat split; [constructor|]. left. auto.
      * exact I.
    + rewrite (short_step _ _ _ _ _ Hc).
      destruct (short_cases (c :: w) m) as [(is & o & m' & H1 & H2 & ->)|[(n & w' & m' & H1 & H2)| ->]].
      * destruct o as [o|]; cbn [opened_option option_map].
        -- apply (HM is m' o); [|exact H2]. intros v a0 rest Hp Hs. apply sa_letters_value; assumption.
        -- apply (outcome_cons [DASH :: c :: w] is m m'); [|exact H2|apply IH; lia].
           intros a0 rest Hs. apply sa_letters; [discriminate|exact H1|exact Hs].
      * destruct H1 as [[E1 ->]|[E1 ->]]; exists [], [], n, (DASH :: c :: w), args, m';
          (split; [reflexivity|]); (split; [constructor|]); (split; [exact H2|]); right; exists w'; rewrite E1; reflexivity.
      * exact I.
Qed.

Lemma parse_outcome args m : outcome_of args m (parse_from args false None m).
Proof. apply (parse_outcome_len (length args)). lia. Qed.

(** ** Items and settings *)
Definition summary (items : list item) : matches :=
  mkMatches (negb (Nat.eqb (quiets items) 0)) (hd_error (values OLog items)) (hd_error (values OConfig items))
            (hd_error (values OBase items)) (jobs_of items).

Lemma values_app o a b : values o (a ++ b) = values o a ++ values o b.
Proof. unfold values. apply flat_map_app. Qed.
Lemma quiets_app a b : quiets (a ++ b) = (quiets a + quiets b)%nat.
Proof. unfold quiets. rewrite filter_app. apply app_length. Qed.
Lemma jobs_app a b : jobs_of (a ++ b) = jobs_of a ++ jobs_of b.
Proof. unfold jobs_of. apply flat_map_app. Qed.

Lemma summary_get o items : ma_get o (summary items) = hd_error (values o items).
Proof. destruct o; reflexivity. Qed.

Lemma values_one o o' v : values o [IValue o' v] = if match o, o' with OLog, OLog | OConfig, OConfig | OBase, OBase => true | _, _ => false end
                                                   then [v] else [].
Proof. destruct o, o'; reflexivity. Qed.

Lemma hd_error_app_nil {A} (l : list A) : hd_error (l ++ []) = hd_error l.
Proof. rewrite app_nil_r. reflexivity. Qed.

Lemma allowed_prefix a b : allowed (a ++ b) -> allowed a.
Proof.
  intros (H1 & H2 & H3 & H4). rewrite quiets_app in H1. split; [lia|]. split; [|split].
  - intros o. specialize (H2 o). rewrite values_app, app_length in H2. lia.
  - intros H. apply H3. rewrite values_app. apply in_or_app. auto.
  - intros H. apply H4. rewrite values_app. apply in_or_app. auto.
Qed.

Lemma run_summary items : (allowed items -> run_items items no_matches = inl (summary items)) /\
  (forall m, run_items items no_matches = inl m -> allowed items /\ m = summary items).
Proof.
  induction items as [|i items [IH1 IH2]] using rev_ind.
  - split; [reflexivity|]. intros m H. cbn in H. split; [|unfold summary; inversion H; subst; reflexivity].
    split; [cbn; lia|]. split; [intros []; cbn; lia|]. split; intros [].
  - assert (Step : run_items (items ++ [i]) no_matches =
                   match run_items items no_matches with inl m => do_item i m | inr s => inr s end).
    { rewrite run_items_app. destruct (run_items items no_matches) as [m|]; [|reflexivity]. cbn.
      destruct (do_item i m); reflexivity. }
    split.
    + intros HA. rewrite Step, (IH1 (allowed_prefix _ _ HA)). destruct HA as (H1 & H2 & H3 & H4).
      destruct i as [|o v|s]; cbn [do_item].
      * unfold set_quiet. rewrite quiets_app in H1. cbn in H1. unfold summary at 1. cbn [ma_quiet].
        assert (E : quiets items = 0%nat) by lia. rewrite E. cbn [Nat.eqb negb].
        unfold summary. rewrite !values_app, jobs_app, quiets_app. cbn. rewrite !app_nil_r, Nat.add_1_r. reflexivity.
      * specialize (H2 o). rewrite values_app, app_length, values_one in H2.
        assert (E : values o items = []) by (destruct (values o items); [reflexivity|destruct o; cbn in H2; lia]).
        unfold set_value. rewrite summary_get, E. cbn [hd_error].
        assert (Ev : is_path_option o && is_nil v = false).
        { destruct o; cbn; [reflexivity| |]; destruct v as [|x v]; cbn; try reflexivity; exfalso;
            [apply H3|apply H4]; rewrite values_app; apply in_or_app; right; left; reflexivity. }
        rewrite Ev. unfold summary. rewrite !values_app, jobs_app, quiets_app, !values_one.
        destruct o; cbn; rewrite ?app_nil_r, ?Nat.add_0_r, ?E; reflexivity.
      * unfold summary. rewrite !values_app, jobs_app, quiets_app. cbn. rewrite !app_nil_r, Nat.add_0_r. reflexivity.
    + intros m H. rewrite Step in H. destruct (run_items items no_matches) as [m0|] eqn:E0; [|discriminate].
      destruct (IH2 m0 eq_refl) as [(H1 & H2 & H3 & H4) ->]. clear IH1 IH2.
      destruct i as [|o v|s]; cbn [do_item] in H.
      * unfold set_quiet in H. unfold summary at 1 in H. cbn [ma_quiet] in H.
        destruct (quiets items) as [|n] eqn:Eq; [|discriminate]. cbn [Nat.eqb negb] in H. split.
        -- split; [rewrite quiets_app, Eq; cbn; lia|]. split; [|split].
           ++ intros o. rewrite values_app. destruct o; cbn; rewrite app_nil_r; apply H2.
           ++ rewrite values_app. cbn. rewrite app_nil_r. exact H3.
           ++ rewrite values_app. cbn. rewrite app_nil_r. exact H4.
        -- inversion H. unfold summary. rewrite !values_app, jobs_app, quiets_app, Eq. cbn. rewrite !app_nil_r. reflexivity.
      * unfold set_value in H. rewrite summary_get in H. destruct (values o items) as [|x xs] eqn:E; [|discriminate].
        cbn [hd_error] in H. destruct (is_path_option o && is_nil v) eqn:Ev; [discriminate|]. split.
        -- split; [rewrite quiets_app; cbn; lia|]. split; [|split].
           ++ intros o'. rewrite values_app, values_one. specialize (H2 o'). rewrite app_length.
              destruct o, o'; cbn in *; rewrite ?E in *; cbn in *; lia.
           ++ rewrite values_app, values_one. intros Hin. apply in_app_or in Hin. destruct Hin as [Hin|Hin]; [auto|].
              destruct o; cbn in Hin; try (destruct Hin; fail). destruct Hin as [-> |[]]. discriminate.
           ++ rewrite values_app, values_one. intros Hin. apply in_app_or in Hin. destruct Hin as [Hin|Hin]; [auto|].
              destruct o; cbn in Hin; try (destruct Hin; fail). destruct Hin as [-> |[]]. discriminate.
        -- inversion H. unfold summary. rewrite !values_app, jobs_app, quiets_app, !values_one.
           destruct o; cbn; rewrite ?app_nil_r, ?Nat.add_0_r, ?E; reflexivity.
      * split.
        -- split; [rewrite quiets_app; cbn; lia|]. split; [|split].
           ++ intros o. rewrite values_app. destruct o; cbn; rewrite app_nil_r; apply H2.
           ++ rewrite values_app. cbn. rewrite app_nil_r. exact H3.
           ++ rewrite values_app. cbn. rewrite app_nil_r. exact H4.
        -- inversion H. unfold summary. rewrite !values_app, jobs_app, quiets_app. cbn. rewrite !app_nil_r, Nat.add_0_r. reflexivity.
Qed.

Lemma hd_default {A} (l : list A) d : opt_default (hd_error l) d = hd d l.
Proof. destruct l; reflexivity. Qed.

(** ** The command line *)
Theorem parse_args_exact args a :
  parse_args args = inl a <-> exists items, command args items /\ allowed items /\ a = meaning items.
Proof.
  unfold parse_args. split.
  - pose proof (parse_outcome args no_matches) as H. destruct (parse_from args false None no_matches) as [m|s]; [|discriminate].
    intros E. destruct H as (items & HC & HR). destruct (proj2 (run_summary items) m HR) as [HA ->].
    exists items. split; [exact HC|]. split; [exact HA|]. inversion E. unfold meaning. cbn. rewrite !hd_default. reflexivity.
  - intros (items & HC & HA & ->). pose proof (proj1 (run_summary items) HA) as HR.
    assert (E : parse_from args false None no_matches = inl (summary items)).
    { destruct HC as [HC|(b & j & is & -> & HS & ->)].
      - pose proof (says_run _ _ HC [] _ _ HR) as H. rewrite app_nil_r in H. exact H.
      - rewrite run_items_app in HR. destruct (run_items is no_matches) as [m1|] eqn:E1; [|discriminate].
        rewrite (says_run _ _ HS (L "--" :: j) _ _ E1), escape_step, trailing_jobs. exact HR. }
    rewrite E. unfold meaning. cbn. rewrite !hd_default. reflexivity.
Qed.

Lemma quiet_letters n : letters (repeat 113 n) (repeat IQuiet n) None.
Proof. induction n; cbn; constructor. assumption. Qed.

Lemma short_stop n c w' m m' s : run_items (repeat IQuiet n) m = inl m' ->
  (c = 104 /\ s = Help \/ c = 86 /\ s = Version) -> short_args (repeat 113 n ++ c :: w') None m = inr s.
Proof.
  revert m. induction n as [|n IH]; intros m HR Hc.
  - destruct Hc as [[-> ->]|[-> ->]]; reflexivity.
  - cbn [repeat app run_items do_item] in *. destruct (set_quiet m) as [m1|] eqn:E; [|discriminate].
    cbn [short_args]. replace (113 =? 113) with true by reflexivity. unfold flag. cbn [resolve]. rewrite E.
    apply IH; assumption.
Qed.

Lemma stop_step n c w' a m : c <> DASH ->
  parse_from ((DASH :: repeat 113 n ++ c :: w') :: a) false None m =
  match short_args (repeat 113 n ++ c :: w') None m with inl (m', p') => parse_from a false p' m' | inr e => inr e end.
Proof.
  intros H. destruct n as [|n]; cbn [repeat app]; apply short_step; [exact H|discriminate].
Qed.

Theorem parse_args_stops args s : s <> Usage -> (parse_args args = inr s <-> asks s args).
Proof.
  intros Hs. unfold parse_args. split.
  - pose proof (parse_outcome args no_matches) as H. destruct (parse_from args false None no_matches) as [m|s']; [discriminate|].
    intros E. inversion E; subst s'. cbn in H. destruct s; [| |congruence];
      (destruct H as (b & is & n & w & a & m' & -> & H1 & H2 & H3); exists b, is, n, w, a;
       split; [reflexivity|]; split; [exact H1|]; split; [exact (proj1 (proj2 (run_summary _) m' H2))|exact H3]).
  - intros (b & is & n & w & a & -> & HS & HA & HW).
    pose proof (proj1 (run_summary _) HA) as HR. rewrite run_items_app in HR.
    destruct (run_items is no_matches) as [m1|] eqn:E1; [|discriminate].
    rewrite (says_run _ _ HS (w :: a) _ _ E1).
    destruct s; [| |congruence].
    + destruct HW as [[-> ->]|(w' & ->)]; [reflexivity|].
      rewrite stop_step by discriminate.
      pose proof (short_stop n 104 w' m1 _ Help HR (or_introl (conj eq_refl eq_refl))) as HX.
      unfold str, chr in *. rewrite HX. reflexivity.
    + destruct HW as [[-> ->]|(w' & ->)]; [reflexivity|].
      rewrite stop_step by discriminate.
      pose proof (short_stop n 86 w' m1 _ Version HR (or_intror (conj eq_refl eq_refl))) as HX.
      unfold str, chr in *. rewrite HX. reflexivity.
Qed.

(** ** The process *)
Definition obeyed (args : list str) (items : list item) : Prop := command args items /\ allowed items.

Lemma parse_args_usage args :
  parse_args args = inr Usage <->
  ~ (exists items, obeyed args items) /\ ~ asks Help args /\ ~ asks Version args.
Proof.
  split.
  - intros E. split; [|split].
    + intros (items & HC & HA). pose proof (proj2 (parse_args_exact args (meaning items))) as H.
      rewrite E in H. discriminate H. exists items. auto.
    + intros H. apply parse_args_stops in H; [|discriminate]. congruence.
    + intros H. apply parse_args_stops in H; [|discriminate]. congruence.
  - intros (H1 & H2 & H3). destruct (parse_args args) as [a|[]] eqn:E; [| | |reflexivity]; exfalso.
    + apply parse_args_exact in E. destruct E as (items & HC & HA & _). apply H1. exists items. split; assumption.
    + apply H2. apply parse_args_stops; [discriminate|exact E].
    + apply H3. apply parse_args_stops; [discriminate|exact E].
Qed.

Lemma meaning_unique args items items' : obeyed args items -> obeyed args items' -> meaning items = meaning items'.
Proof.
  intros [H1 H2] [H3 H4].
  assert (E1 : parse_args args = inl (meaning items)) by (apply parse_args_exact; eauto).
  assert (E2 : parse_args args = inl (meaning items')) by (apply parse_args_exact; eauto). congruence.
Qed.

Lemma same_meaning items items' :
  values OConfig items = values OConfig items' -> values OBase items = values OBase items' ->
  jobs_of items = jobs_of items' -> meaning items = meaning items'.
Proof. unfold meaning. intros -> -> ->. reflexivity. Qed.

Section Process.
  Context {U : UnicodeTables} {D : Debug} {US : UnstableSort} {CT : CaseTables} {J : JsonText}
    {I : Inputs} {O : Outputs} {T : TomlFile} {C : CliText}.

  Lemma process_obeys args items : obeyed args items ->
    process args = let '(h, msg, e) := main (meaning items) in mkRun h [] msg e.
  Proof.
    intros [H1 H2]. assert (E : parse_args args = inl (meaning items)) by (apply parse_args_exact; eauto).
    unfold process. rewrite E. reflexivity.
  Qed.
  Lemma process_asks args :
    (asks Help args -> process args = mkRun [] cli_help [] (Exit 0)) /\
    (asks Version args -> process args = mkRun [] cli_version [] (Exit 0)).
  Proof.
    split; intros H; apply parse_args_stops in H; try discriminate; unfold process; rewrite H; reflexivity.
  Qed.
  Lemma process_wrong args : ~ (exists items, obeyed args items) -> ~ asks Help args -> ~ asks Version args ->
    process args = mkRun [] [] (cli_usage args) (Exit 2).
  Proof.
    intros H1 H2 H3. assert (E : parse_args args = inr Usage) by (apply parse_args_usage; auto).
    unfold process. rewrite E. reflexivity.
  Qed.
  Lemma process_same args args' items items' : obeyed args items -> obeyed args' items' ->
    values OConfig items = values OConfig items' -> values OBase items = values OBase items' ->
    jobs_of items = jobs_of items' -> process args = process args'.
  Proof.
    intros H H' E1 E2 E3. rewrite (process_obeys _ _ H), (process_obeys _ _ H'), (same_meaning _ _ E1 E2 E3). reflexivity.
  Qed.
End Process.
