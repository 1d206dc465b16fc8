(** The command line: main.rs:17-35 (derive(clap::Parser) on `Arguments`), 112-138.

    Model of the parser of clap 4.5 (clap_builder 4.5.2, Parser::get_matches_with, parse_long_arg,
    parse_short_arg, parse_opt_value, resolve_pending, react) for this set of arguments: a flag
    `-q`/`--quiet`, options with one value `-l`/`--log-level`, `-c`/`--config`, `-b`/`--base`, the
    automatic `-h`/`--help` and `-V`/`--version`, and any number of positional arguments.
    Simplifications: arguments are Unicode text; the texts of help and of usage errors are
    external ([CliText]); the value of a positional argument is stored at once (clap stores it
    when the next option is seen, which cannot fail). *)
From Verif Require Import Base OMap Models Unicode Utf8 Paths MdParser MonoParser RustParser Tracer
  Show Sort Serialize MdFmt Formatters Controller Config.
Open Scope N_scope.

Definition DASH : chr := 45.
Definition EQUALS : chr := 61.

(** Options with a value: main.rs:24-31 *)
Inductive cli_option := OLog | OConfig | OBase.
Definition option_long (c : str) : option cli_option :=
  if str_eqb c (L "log-level") then Some OLog
  else if str_eqb c (L "config") then Some OConfig
  else if str_eqb c (L "base") then Some OBase else None.
Definition option_short (c : chr) : option cli_option :=
  if c =? 108 then Some OLog else if c =? 99 then Some OConfig else if c =? 98 then Some OBase else None.
(** Values of type PathBuf must not be empty (clap_builder, PathBufValueParser). *)
Definition is_path_option (o : cli_option) : bool := match o with OLog => false | _ => true end.

(** What has been given so far (clap_builder, ArgMatcher). *)
Record matches := mkMatches {
  ma_quiet : bool;
  ma_log : option str;
  ma_config : option str;
  ma_base : option str;
  ma_jobs : list str
}.
Definition no_matches : matches := mkMatches false None None None [].
Definition ma_get (o : cli_option) (m : matches) : option str :=
  match o with OLog => ma_log m | OConfig => ma_config m | OBase => ma_base m end.

(** Why parsing ends early. *)
Inductive stop := Help | Version | Usage.

(** [Parser::react] for ArgAction::Set: the option must not have been given before. *)
Definition set_value (o : cli_option) (v : str) (m : matches) : matches + stop :=
  match ma_get o m with
  | Some _ => inr Usage
  | None =>
      if is_path_option o && is_nil v then inr Usage
      else inl match o with
               | OLog => mkMatches (ma_quiet m) (Some v) (ma_config m) (ma_base m) (ma_jobs m)
               | OConfig => mkMatches (ma_quiet m) (ma_log m) (Some v) (ma_base m) (ma_jobs m)
               | OBase => mkMatches (ma_quiet m) (ma_log m) (ma_config m) (Some v) (ma_jobs m)
               end
  end.
(** ArgAction::SetTrue *)
Definition set_quiet (m : matches) : matches + stop :=
  if ma_quiet m then inr Usage else inl (mkMatches true (ma_log m) (ma_config m) (ma_base m) (ma_jobs m)).
(** ArgAction::Append *)
Definition add_job (s : str) (m : matches) : matches :=
  mkMatches (ma_quiet m) (ma_log m) (ma_config m) (ma_base m) (ma_jobs m ++ [s]).

(** [Parser::resolve_pending]: an option whose value has been collected, or is still missing. *)
Definition pending_option : Type := option (cli_option * option str).
Definition resolve (p : pending_option) (m : matches) : matches + stop :=
  match p with
  | None => inl m
  | Some (_, None) => inr Usage
  | Some (o, Some v) => set_value o v m
  end.

(** [Parser::parse_opt_value] *)
Definition opt_value (o : cli_option) (attached : option str) (p : pending_option) (m : matches)
  : (matches * pending_option) + stop :=
  match resolve p m with
  | inr s => inr s
  | inl m' =>
      match attached with
      | Some v => match set_value o v m' with inl m2 => inl (m2, None) | inr s => inr s end
      | None => inl (m', Some (o, None))
      end
  end.
(** a flag *)
Definition flag (f : matches -> matches + stop) (p : pending_option) (m : matches) : (matches * pending_option) + stop :=
  match resolve p m with
  | inr s => inr s
  | inl m' => match f m' with inl m2 => inl (m2, None) | inr s => inr s end
  end.
Definition stop_with (s : stop) (m : matches) : matches + stop := inr s.

(** [Parser::parse_short_arg]: the letters after the dash *)
Fixpoint short_args (w : str) (p : pending_option) (m : matches) : (matches * pending_option) + stop :=
  match w with
  | [] => inl (m, p)
  | c :: w' =>
      if c =? 113 then
        match flag set_quiet p m with
        | inl (m', p') => short_args w' p' m'
        | inr s => inr s
        end
      else if c =? 104 then flag (stop_with Help) p m
      else if c =? 86 then flag (stop_with Version) p m
      else match option_short c with
           | Some o =>
               opt_value o (match w' with
                            | [] => None
                            | e :: v => if e =? EQUALS then Some v else Some w'
                            end) p m
           | None => inr Usage
           end
  end.

(** clap_lex, ParsedArg::to_long: name and value *)
Fixpoint split_equals (w : str) : str * option str :=
  match w with
  | [] => ([], None)
  | c :: w' => if c =? EQUALS then ([], Some w') else let '(n, v) := split_equals w' in (c :: n, v)
  end.
(** [Parser::parse_long_arg] *)
Definition long_arg (w : str) (p : pending_option) (m : matches) : (matches * pending_option) + stop :=
  let '(name, value) := split_equals w in
  match option_long name with
  | Some o => opt_value o value p m
  | None =>
      let f := if str_eqb name (L "quiet") then Some set_quiet
               else if str_eqb name (L "help") then Some (stop_with Help)
               else if str_eqb name (L "version") then Some (stop_with Version)
               else None in
      match f, value with
      | Some f, None => flag f p m
      | _, _ => inr Usage
      end
  end.

(** A positional argument. *)
Definition positional (s : str) (p : pending_option) (m : matches) : (matches * pending_option) + stop :=
  match resolve p m with inl m' => inl (add_job s m', None) | inr e => inr e end.

(** [Parser::get_matches_with] *)
Fixpoint parse_from (args : list str) (trailing : bool) (p : pending_option) (m : matches) : matches + stop :=
  match args with
  | [] => resolve p m
  | a :: args' =>
      let continue (x : (matches * pending_option) + stop) :=
        match x with inl (m', p') => parse_from args' trailing p' m' | inr s => inr s end in
      let value_or_positional :=
        match p with
        | Some (o, None) => parse_from args' trailing (Some (o, Some a)) m
        | _ => continue (positional a p m)
        end in
      if trailing then continue (positional a p m)
      else match a with
           | d :: w =>
               if d =? DASH then
                 match w with
                 | [] => value_or_positional
                 | d2 :: w2 =>
                     if d2 =? DASH then
                       match w2 with
                       | [] => parse_from args' true p m
                       | _ => continue (long_arg w2 p m)
                       end
                     else continue (short_args w p m)
                 end
               else value_or_positional
           | [] => value_or_positional
           end
  end.

(** main.rs:20-35, with the default values; the arguments after the name of the program *)
Definition parse_args (args : list str) : arguments + stop :=
  match parse_from args false None no_matches with
  | inr s => inr s
  | inl m => inl (mkArguments (opt_default (ma_config m) (L "requirements.toml")) (opt_default (ma_base m) (L "."))
                              (ma_jobs m))
  end.

Class CliText := {
  cli_help : str;                     (* also for --version *)
  cli_version : str;
  cli_usage : list str -> str         (* the message for a wrong command line *)
}.

(** What a run does: effects of jobs, what clap prints on stdout, the message on stderr, the status. *)
Record run_result := mkRun { run_effects : history; run_stdout : str; run_stderr : str; run_exit : exit }.

Section Process.
  Context {U : UnicodeTables} {D : Debug} {US : UnstableSort} {CT : CaseTables} {J : JsonText}
    {I : Inputs} {O : Outputs} {T : TomlFile} {C : CliText}.

  (** main.rs:112-138; [Arguments::parse] ends the process on help, version and usage errors
      (clap: Error::exit) *)
  Definition process (args : list str) : run_result :=
    match parse_args args with
    | inr Help => mkRun [] cli_help [] (Exit 0)
    | inr Version => mkRun [] cli_version [] (Exit 0)
    | inr Usage => mkRun [] [] (cli_usage args) (Exit 2)
    | inl a => let '(h, msg, e) := main a in mkRun h [] msg e
    end.
End Process.
