(** Properties C78, C79: the command line.
    Vocabulary: CliSpec.v ([command], [allowed], [meaning], [asks]); model: Cli.v.  All texts of clap,
    all files and the syntax of TOML are arbitrary. *)
From Coq Require Import Permutation.
From Verif Require Import Base OMap Models Unicode Utf8 Paths MdParser MonoParser RustParser Tracer
  Show Sort Serialize MdFmt Formatters Controller Config Cli CliSpec CliFacts CtlExamples PropsConfig.
Open Scope N_scope.

#[local] Existing Instance sample_debug.
#[local] Existing Instance sample_json.
#[local] Existing Instance sample_inputs.
#[local] Existing Instance sample_outputs.
#[local] Existing Instance sample_toml.
#[local] Existing Instance ascii_case.

(** C78: the words are obeyed exactly if they spell settings that are allowed, and then as these;
    help and version are printed exactly if they are asked for before the first mistake. *)
Theorem C78_obeyed : forall args a,
  parse_args args = inl a <-> exists items, command args items /\ allowed items /\ a = meaning items.
Proof. exact parse_args_exact. Qed.
Print Assumptions C78_obeyed.
Theorem C78_asked : forall args s, s <> Usage -> (parse_args args = inr s <-> asks s args).
Proof. exact parse_args_stops. Qed.
Print Assumptions C78_asked.

(** What the process does in the three cases. *)
Theorem C78_runs : forall {U : UnicodeTables} {D : Debug} {US : UnstableSort} {CT : CaseTables} {J : JsonText}
    {I : Inputs} {O : Outputs} {T : TomlFile} {C : CliText} args items,
  command args items /\ allowed items ->
  process args = let '(h, msg, e) := main (meaning items) in mkRun h [] msg e.
Proof. intros U D US CT J I O T C. exact process_obeys. Qed.
Print Assumptions C78_runs.
Theorem C78_prints : forall {U : UnicodeTables} {D : Debug} {US : UnstableSort} {CT : CaseTables} {J : JsonText}
    {I : Inputs} {O : Outputs} {T : TomlFile} {C : CliText} args,
  (asks Help args -> process args = mkRun [] cli_help [] (Exit 0)) /\
  (asks Version args -> process args = mkRun [] cli_version [] (Exit 0)).
Proof. intros U D US CT J I O T C. exact process_asks. Qed.
Print Assumptions C78_prints.
Theorem C78_refuses : forall {U : UnicodeTables} {D : Debug} {US : UnstableSort} {CT : CaseTables} {J : JsonText}
    {I : Inputs} {O : Outputs} {T : TomlFile} {C : CliText} args,
  ~ (exists items, command args items /\ allowed items) -> ~ asks Help args -> ~ asks Version args ->
  process args = mkRun [] [] (cli_usage args) (Exit 2).
Proof. intros U D US CT J I O T C. exact process_wrong. Qed.
Print Assumptions C78_refuses.

(** The words have one meaning. *)
Theorem C78_unique : forall args items items',
  command args items /\ allowed items -> command args items' /\ allowed items' -> meaning items = meaning items'.
Proof. exact meaning_unique. Qed.
Print Assumptions C78_unique.

Definition words (l : list string) : list str := map (fun s => L s) l.
Example C78_example :
  parse_args (words []%string) = inl (mkArguments (L "requirements.toml") (L ".") []) /\
  parse_args (words ["gnu"; "-qcx.toml"; "json"]%string) = inl (mkArguments (L "x.toml") (L ".") [L "gnu"; L "json"]) /\
  parse_args (words ["-c=x"; "--base=/p"; "--"; "-q"; "--help"]%string) = inl (mkArguments (L "x") (L "/p") [L "-q"; L "--help"]) /\
  parse_args (words ["-b"; "-"; "-"]%string) = inl (mkArguments (L "requirements.toml") (L "-") [L "-"]) /\
  parse_args (words ["-qh"]%string) = inr Help /\ parse_args (words ["gnu"; "--version"; "--none"]%string) = inr Version /\
  parse_args (words ["--none"; "--version"]%string) = inr Usage /\ parse_args (words ["-q"; "--quiet"]%string) = inr Usage /\
  parse_args (words ["-c"]%string) = inr Usage /\ parse_args (words ["--config="]%string) = inr Usage /\
  parse_args (words ["-c"; "-q"]%string) = inr Usage /\ parse_args (words ["--quiet=1"]%string) = inr Usage.
Proof. vm_compute. repeat split; reflexivity. Qed.
Example C78_example_items :
  command (words ["gnu"; "-qcx.toml"]%string) [IJob (L "gnu"); IQuiet; IValue OConfig (L "x.toml")] /\
  allowed [IJob (L "gnu"); IQuiet; IValue OConfig (L "x.toml")] /\ asks Help (words ["gnu"; "-qh"]%string).
Proof.
  assert (Hp : plain (L "gnu")) by (right; intros w H; discriminate).
  split; [|split].
  - left. apply (sa_job (L "gnu")); [exact Hp|]. apply (sa_letters (L "qcx.toml") [IQuiet; IValue OConfig (L "x.toml")] [] []);
      [discriminate| |constructor]. apply (le_quiet (L "cx.toml")). apply (le_value OConfig (L "x.toml")); [discriminate|].
    intros v H. discriminate.
  - split; [cbn; lia|]. split; [intros []; cbn; lia|]. split; cbn; intuition discriminate.
  - exists [L "gnu"], [IJob (L "gnu")], 1%nat, (L "-qh"), []. split; [reflexivity|]. split; [apply sa_job; [exact Hp|constructor]|].
    split; [|right; exists []; reflexivity].
    split; [cbn; lia|]. split; [intros []; cbn; lia|]. split; cbn; intuition.
Qed.

(** C79: only the configuration, the base directory and the jobs in their order matter: the place of
    the options does not, nor does the log level, nor does quiet. *)
Theorem C79_same : forall {U : UnicodeTables} {D : Debug} {US : UnstableSort} {CT : CaseTables} {J : JsonText}
    {I : Inputs} {O : Outputs} {T : TomlFile} {C : CliText} args args' items items',
  command args items /\ allowed items -> command args' items' /\ allowed items' ->
  values OConfig items = values OConfig items' -> values OBase items = values OBase items' ->
  jobs_of items = jobs_of items' -> process args = process args'.
Proof. intros U D US CT J I O T C. exact process_same. Qed.
Print Assumptions C79_same.

Definition sample_cli : CliText := {| cli_help := L "help"; cli_version := L "0.2.0"; cli_usage := fun _ => L "usage" |}.
#[local] Existing Instance sample_cli.

(** Quiet does not silence errors. *)
Theorem C79_quiet_refuted :
  ~ forall (U : UnicodeTables) (D : Debug) (US : UnstableSort) (CT : CaseTables) (J : JsonText)
      (I : Inputs) (O : Outputs) (T : TomlFile) (C : CliText) args items,
    command args items /\ allowed items -> In IQuiet items -> run_stderr (process args) = [].
Proof.
  intros H. specialize (H ascii_tables sample_debug stable_is_unstable ascii_case sample_json sample_inputs sample_outputs sample_toml
    sample_cli (words ["-qc"; "no.toml"]%string) [IQuiet; IValue OConfig (L "no.toml")]).
  vm_compute in H. discriminate H; [|left; reflexivity]. split.
  - left. apply (sa_letters_value (L "qc") [IQuiet] OConfig (L "no.toml") [] []); [|right; intros w E; discriminate|constructor].
    apply (le_quiet (L "c")). apply (le_open OConfig).
  - split; [cbn; lia|]. split; [intros []; cbn; lia|]. split; cbn; intuition discriminate.
Qed.
Print Assumptions C79_quiet_refuted.

(** Status 0 is not only for success of the jobs. *)
Example C79_example :
  process (words ["-b/p"; "gnu"; "-q"]%string) = process (words ["--base=/p"; "--"; "gnu"]%string) /\
  run_exit (process (words ["-b/p"]%string)) = Exit 0 /\ run_effects (process (words ["-b/p"]%string)) <> [] /\
  process (words ["-h"]%string) = mkRun [] (L "help") [] (Exit 0) /\
  process (words ["-x"]%string) = mkRun [] [] (L "usage") (Exit 2).
Proof. vm_compute. repeat split; try reflexivity. discriminate. Qed.
