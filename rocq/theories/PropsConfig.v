(** Properties C66, C67: the configuration file, the messages of the process.
    Vocabulary: ConfigSpec.v, CtlSpec.v; model: Config.v.  The syntax of TOML, its errors and all
    files are arbitrary. *)
From Coq Require Import ZArith.
From Verif Require Import Base OMap Models Unicode Location Utf8 Paths MdParser MonoParser RustParser Tracer
  Show Sort Serialize MdFmt Formatters Controller FmtSpec CtlSpec Config ConfigSpec ConfigFacts CtlExamples.
Open Scope N_scope.

(** C66: a document is accepted exactly if it says a configuration, and then as that. *)
Theorem C66_exact : forall doc c, to_config doc = Some c <-> says_config doc c.
Proof. exact to_config_iff. Qed.
Print Assumptions C66_exact.

(** Every configuration can be written. *)
Theorem C66_round_trip : forall c, fits_u32 c -> to_config (write_config c) = Some c.
Proof. intros c H. exact (proj2 (to_config_iff _ _) (write_config_says c H)). Qed.
Print Assumptions C66_round_trip.

(** Only the keys of the format matter. *)
Theorem C66_known_keys : forall doc doc',
  (forall k, In k config_keys -> oget k doc = oget k doc') -> to_config doc = to_config doc'.
Proof. exact known_keys. Qed.
Print Assumptions C66_known_keys.
Theorem C66_known_artefact_keys : forall m m',
  (forall k, In k artefact_keys -> oget k m = oget k m') -> to_artefact (TTable m) = to_artefact (TTable m').
Proof. exact known_artefact_keys. Qed.
Print Assumptions C66_known_artefact_keys.

(** So a misspelled option is not reported. *)
Theorem C66_misspelled_refuted :
  ~ forall a k v m, to_artefact (TTable m) = Some a -> ~ In k artefact_keys -> to_artefact (TTable (oins k v m)) = None.
Proof.
  intros H. specialize (H a_config (L "ignore_derived_requirement") (TBool true)).
  assert (E : exists m, write_artefact a_config = TTable m) by (eexists; reflexivity). destruct E as [m E].
  specialize (H m). rewrite <- E in H.
  assert (HW : to_artefact (write_artefact a_config) = Some a_config) by (vm_compute; reflexivity).
  specialize (H HW). 
  assert (HN : ~ In (L "ignore_derived_requirement") artefact_keys).
  { cbn. intros X. repeat (destruct X as [X|X]; [discriminate X|]). exact X. }
  specialize (H HN). unfold write_artefact in E. injection E as <-. vm_compute in H. discriminate.
Qed.
Print Assumptions C66_misspelled_refuted.

Example C66_example : exists doc, says_config doc good_config /\ length doc = 5%nat.
Proof. exists (write_config good_config). split; [apply write_config_says; reflexivity|vm_compute; reflexivity]. Qed.
(** The array form, and forms that are not accepted. *)
Example C66_example_array :
  to_artefact (TArr [TStr (L "A"); TArr [TStr (L "a.md")]; TStr (L "Markdown"); TBool true; TBool false]) =
    Some (mkArtefactConfig (L "A") [L "a.md"] PMarkdown (Some true) (Some false)) /\
  to_artefact (TArr [TStr (L "A"); TArr [TStr (L "a.md")]; TStr (L "Markdown")]) = None /\
  to_parser (TStr (L "markdown")) = None /\
  to_config [(L "artefacts", TArr [])] = None /\
  to_config [(L "artefacts", TArr []); (L "relations", TArr [])] = Some (mkConfig None [] [] None None) /\
  to_config [(L "version", TInt (-1)%Z); (L "artefacts", TArr []); (L "relations", TArr [])] = None.
Proof. vm_compute. repeat split; reflexivity. Qed.

(** C67: the configuration file is used, or the complaint about it printed. *)
Theorem C67_used : forall {T : TomlFile} file c, load_config file = inl c <-> holds file c.
Proof.
  intros T file c. split; [|exact (holds_load file c)].
  intros H. pose proof (load_spec file) as HS. rewrite H in HS. exact HS.
Qed.
Print Assumptions C67_used.
Theorem C67_complaint : forall {T : TomlFile} file m, load_config file = inr m <-> complaint file m.
Proof.
  intros T file m. split; [|exact (complaint_load file m)].
  intros H. pose proof (load_spec file) as HS. rewrite H in HS. exact (proj1 HS).
Qed.
Print Assumptions C67_complaint.

(** The exit status is the one of C39, C56. *)
Theorem C67_status : forall {U : UnicodeTables} {D : Debug} {US : UnstableSort} {CT : CaseTables} {J : JsonText}
    {I : Inputs} {O : Outputs} {T : TomlFile} a,
  (exists c, holds (arg_config a) c /\
     exists h m x, main a = (h, m, x) /\ main_rc (Some c) (arg_base a) (arg_jobs a) = (h, x)) \/
  ((forall c, ~ holds (arg_config a) c) /\
   exists m, complaint (arg_config a) m /\ main a = ([], m ++ [NL], Exit 2)).
Proof. intros U D US CT J I O T. exact main_projects. Qed.
Print Assumptions C67_status.

(** The message: there is one exactly with status 2, and it says what failed. *)
Theorem C67_message : forall {U : UnicodeTables} {D : Debug} {US : UnstableSort} {CT : CaseTables} {J : JsonText}
    {I : Inputs} {O : Outputs} {T : TomlFile} a h m x,
  main a = (h, m, x) ->
  match x with
  | Exit 2 =>
      (h = [] /\ exists t, complaint (arg_config a) t /\ m = t ++ [NL]) \/
      exists c ctl, holds (arg_config a) c /\ controller_new c (arg_base a) = Done ctl /\
        ((h = [] /\ chosen ctl (arg_jobs a) = [] /\ m = L "Config Error: no default_jobs configured" ++ [NL]) \/
         (h = [] /\ exists n, first_unknown ctl (chosen ctl (arg_jobs a)) n /\ m = L "Unknown Job " ++ n ++ [NL]) \/
         (exists js pre j post ss h1 p t, jobs_named ctl (chosen ctl (arg_jobs a)) js /\ js = pre ++ j :: post /\
            all_run ctl pre [] ss h1 /\ run ctl j h1 = (h, RFail (CIo p t)) /\
            m = L "IO Error: " ++ t ++ L " in " ++ p ++ [NL]))
  | _ => m = []
  end.
Proof. intros U D US CT J I O T. exact main_message. Qed.
Print Assumptions C67_message.
Theorem C67_message_iff : forall {U : UnicodeTables} {D : Debug} {US : UnstableSort} {CT : CaseTables} {J : JsonText}
    {I : Inputs} {O : Outputs} {T : TomlFile} a h m x,
  main a = (h, m, x) -> (x = Exit 2 <-> m <> []).
Proof. intros U D US CT J I O T. exact message_iff_2. Qed.
Print Assumptions C67_message_iff.

Definition sample_toml : TomlFile := {|
  tf_read := fun p => if eqb p (L "no.toml") then inr (L "No such file") else inl p;
  tf_parse := fun s =>
    if eqb s (L "syntax.toml") then inr (mkTomlError (Some (4, 0)) (L "expected a value"))
    else if eqb s (L "new.toml") then inl (write_config (mkConfig (Some 1) [] [] None None))
    else if eqb s (L "empty.toml") then inl []
    else inl (write_config good_config);
  tf_decode_error := fun _ => mkTomlError None (L "missing field")
|}.

(** The column is printed counted from 0, the line counted from 1. *)
Theorem C67_column_refuted :
  ~ forall (T : TomlFile) file bytes e line col,
      tf_read file = inl bytes -> tf_parse bytes = inr e -> te_line_col e = Some (line, col) ->
      exists rest, load_config file = inr (file ++ L ":" ++ show_N (line + 1) ++ L ":" ++ show_N (col + 1) ++ L ":" ++ rest).
Proof.
  intros H. specialize (H sample_toml (L "syntax.toml") (L "syntax.toml") (mkTomlError (Some (4, 0)) (L "expected a value")) 4 0).
  destruct H as [rest H]; try reflexivity. vm_compute in H. discriminate.
Qed.
Print Assumptions C67_column_refuted.

#[local] Existing Instance sample_debug.
#[local] Existing Instance sample_json.
#[local] Existing Instance sample_inputs.
#[local] Existing Instance sample_outputs.
#[local] Existing Instance sample_toml.
#[local] Existing Instance ascii_case.

Definition said (file : string) (jobs : list str) : str * exit :=
  let '(_, m, x) := main (mkArguments (L file) (L "/p") jobs) in (m, x).
Example C67_example :
  said "no.toml" [] = (L "no.toml: No such file" ++ [NL], Exit 2) /\
  said "syntax.toml" [] = (L "syntax.toml:5:0: TOML Error expected a value" ++ [NL], Exit 2) /\
  said "empty.toml" [] = (L "empty.toml:  TOML Error missing field" ++ [NL], Exit 2) /\
  said "new.toml" [] = (L "new.toml has unknown version 1" ++ [NL], Exit 2) /\
  said "good.toml" [] = ([], Exit 0) /\
  said "good.toml" [L "gnu"; L "nojob"] = (L "Unknown Job nojob" ++ [NL], Exit 2) /\
  said "good.toml" [L "locked"] = (L "IO Error: denied in /p/locked" ++ [NL], Exit 2) /\
  said "good.toml" [L "bad"] = ([], Panicked).
Proof. vm_compute. repeat split; reflexivity. Qed.
