(** Specification of the command line: which words spell which settings. *)
From Verif Require Import Base OMap Models Unicode Paths Config Cli.
Open Scope N_scope.

(** What a command line can say. *)
Inductive item :=
| IQuiet
| IValue (o : cli_option) (v : str)
| IJob (s : str).

Definition short_name (o : cli_option) : chr :=
  match o with OLog => 108 (* l *) | OConfig => 99 (* c *) | OBase => 98 (* b *) end.
Definition long_name (o : cli_option) : str :=
  match o with OLog => L "log-level" | OConfig => L "config" | OBase => L "base" end.

(** A word that can stand for itself: it does not begin with a dash, or is just a dash. *)
Definition plain (s : str) : Prop := s = L "-" \/ forall w, s <> DASH :: w.

(** The letters after a single dash: flags, then possibly an option, with its value attached or
    ([Some o]) still to come. *)
Inductive letters : str -> list item -> option cli_option -> Prop :=
| le_end : letters [] [] None
| le_quiet w is o : letters w is o -> letters (113 :: w) (IQuiet :: is) o
| le_value o v : v <> [] -> (forall v', v <> 61 (* = *) :: v') -> letters (short_name o :: v) [IValue o v] None
| le_equals o v : letters (short_name o :: 61 (* = *) :: v) [IValue o v] None
| le_open o : letters [short_name o] [] (Some o).

(** Words without `--`. *)
Inductive says : list str -> list item -> Prop :=
| sa_nil : says [] []
| sa_letters w is args rest :
    w <> [] -> letters w is None -> says args rest -> says ((DASH :: w) :: args) (is ++ rest)
| sa_letters_value w is o v args rest :
    letters w is (Some o) -> plain v -> says args rest ->
    says ((DASH :: w) :: v :: args) (is ++ IValue o v :: rest)
| sa_quiet args rest : says args rest -> says (L "--quiet" :: args) (IQuiet :: rest)
| sa_value o v args rest : plain v -> says args rest -> says ((L "--" ++ long_name o) :: v :: args) (IValue o v :: rest)
| sa_equals o v args rest :
    says args rest -> says ((L "--" ++ long_name o ++ 61 (* = *) :: v) :: args) (IValue o v :: rest)
| sa_job s args rest : plain s -> says args rest -> says (s :: args) (IJob s :: rest).

(** All words: after `--` everything is a job. *)
Definition command (args : list str) (items : list item) : Prop :=
  says args items \/
  exists before jobs is, args = before ++ L "--" :: jobs /\ says before is /\ items = is ++ map IJob jobs.

(** The values given for an option, how often [-q] was given, the jobs. *)
Definition values (o : cli_option) (items : list item) : list str :=
  flat_map (fun i => match i, o with
                     | IValue OLog v, OLog | IValue OConfig v, OConfig | IValue OBase v, OBase => [v]
                     | _, _ => [] end) items.
Definition quiets (items : list item) : nat :=
  length (filter (fun i => match i with IQuiet => true | _ => false end) items).
Definition jobs_of (items : list item) : list str :=
  flat_map (fun i => match i with IJob s => [s] | _ => [] end) items.

(** Every option at most once, file names not empty. *)
Definition allowed (items : list item) : Prop :=
  (quiets items <= 1)%nat /\ (forall o, (length (values o items) <= 1)%nat) /\
  ~ In [] (values OConfig items) /\ ~ In [] (values OBase items).

Definition meaning (items : list item) : arguments :=
  mkArguments (hd (L "requirements.toml") (values OConfig items)) (hd (L ".") (values OBase items)) (jobs_of items).

(** The command line asks for help or the version before anything is wrong with it. *)
Definition asks (s : stop) (args : list str) : Prop :=
  exists before is n w after,
    args = before ++ w :: after /\ says before is /\ allowed (is ++ repeat IQuiet n) /\
    match s with
    | Help => (n = 0%nat /\ w = L "--help") \/ exists w', w = DASH :: repeat 113 n ++ 104 :: w'
    | Version => (n = 0%nat /\ w = L "--version") \/ exists w', w = DASH :: repeat 113 n ++ 86 :: w'
    | Usage => False
    end.
