(** Model of the configuration file: /repo/src/models.rs:56-111 with the decoder made by
    `#[derive(Deserialize)]`, and of /repo/src/main.rs with its messages.

    The text of the file is turned into a value by the toml crate, which is left open.
    Simplifications: tables are maps (a key given twice is an error of the toml crate); whether a
    table is written inline, dotted or with a header is not kept; log output is left out, the
    command line has been parsed by clap. *)
From Coq Require Import ZArith.
From Verif Require Import Base OMap Models Unicode Location Utf8 Paths MdParser MonoParser RustParser Tracer
  Show Sort Serialize MdFmt Formatters Controller.
Open Scope N_scope.

(** Values of a TOML file; numbers are 64 bit integers, [TOther] is a float or a date. *)
Inductive toml :=
| TStr (s : str)
| TInt (z : Z)
| TBool (b : bool)
| TOther (text : str)
| TArr (l : list toml)
| TTable (m : omap str toml).

(** ** Decoding; [None] is an error *)
Definition tostr (v : toml) : option str := match v with TStr s => Some s | _ => None end.
Definition tobool (v : toml) : option bool := match v with TBool b => Some b | _ => None end.
(** u32 *)
Definition tou32 (v : toml) : option N :=
  match v with TInt z => if ((0 <=? z) && (z <? 4294967296))%Z then Some (Z.to_N z) else None | _ => None end.
Definition tolist {A} (f : toml -> option A) (v : toml) : option (list A) :=
  match v with TArr l => mapM f l | _ => None end.
Definition tomap {A} (f : toml -> option A) (v : toml) : option (omap str A) :=
  match v with
  | TTable m => mapM (fun e => option_map (pair (fst e)) (f (snd e))) m
  | _ => None
  end.
(** A field of a struct that must be there, and an [Option] field. *)
Definition must {A} (f : toml -> option A) (name : string) (m : omap str toml) : option A :=
  match oget (L name) m with Some v => f v | None => None end.
Definition may {A} (f : toml -> option A) (name : string) (m : omap str toml) : option (option A) :=
  match oget (L name) m with Some v => option_map Some (f v) | None => Some None end.

(** A variant without data: its name, or a table of its name and an empty table. *)
Definition unit_variant (v : toml) : option str :=
  match v with
  | TStr s => Some s
  | TTable [(k, TTable [])] => Some k
  | _ => None
  end.

(** models.rs:56-62 *)
Definition to_parser (v : toml) : option parser :=
  match unit_variant v with
  | Some k =>
      if eqb k (L "Markdown") then Some PMarkdown
      else if eqb k (L "Rust") then Some PRust
      else if eqb k (L "MonoRequirement") then Some PMonoRequirement
      else if eqb k (L "Json") then Some PJson
      else None
  | None => None
  end.
(** models.rs:86-93 *)
Definition to_query (v : toml) : option query :=
  match unit_variant v with
  | Some k => if eqb k (L "Parse") then Some QParse else if eqb k (L "Trace") then Some QTrace else None
  | None => None
  end.
(** models.rs:103-111 *)
Definition to_format (v : toml) : option format :=
  match v with
  | TTable [(k, TStr s)] =>
      if eqb k (L "TemplateFile") then Some (TemplateFile s)
      else if eqb k (L "TemplateString") then Some (TemplateString s)
      else None
  | _ =>
      match unit_variant v with
      | Some k =>
          if eqb k (L "GnuError") then Some GnuError
          else if eqb k (L "Json") then Some Json
          else if eqb k (L "Markdown") then Some Markdown
          else if eqb k (L "Tags") then Some Tags
          else None
      | None => None
      end
  end.

(** A struct is read from a table (unknown keys are ignored) or from an array with all fields in
    order.  models.rs:361-368 *)
Definition to_relation (v : toml) : option relation :=
  match v with
  | TTable m =>
      match must tostr "upper" m, must (tolist tostr) "lower" m with
      | Some u, Some l => Some (mkRelation u l)
      | _, _ => None
      end
  | TArr [a; b] =>
      match tostr a, tolist tostr b with
      | Some u, Some l => Some (mkRelation u l)
      | _, _ => None
      end
  | _ => None
  end.
(** models.rs:64-75 *)
Definition to_artefact (v : toml) : option artefact_config :=
  match v with
  | TTable m =>
      match must tostr "id" m, must (tolist tostr) "paths" m, must to_parser "parser" m,
            may tobool "ignore_derived_requirements" m, may tobool "reference_with_title" m with
      | Some i, Some p, Some x, Some d, Some t => Some (mkArtefactConfig i p x d t)
      | _, _, _, _, _ => None
      end
  | TArr [a1; a2; a3; a4; a5] =>
      match tostr a1, tolist tostr a2, to_parser a3, tobool a4, tobool a5 with
      | Some i, Some p, Some x, Some d, Some t => Some (mkArtefactConfig i p x (Some d) (Some t))
      | _, _, _, _, _ => None
      end
  | _ => None
  end.
(** models.rs:95-101 *)
Definition to_job (v : toml) : option job :=
  match v with
  | TTable m =>
      match must to_query "query" m, must to_format "format" m, must tostr "file" m, may tobool "set_return_code" m with
      | Some q, Some x, Some f, Some s => Some (mkJob q x f s)
      | _, _, _, _ => None
      end
  | TArr [a1; a2; a3; a4] =>
      match to_query a1, to_format a2, tostr a3, tobool a4 with
      | Some q, Some x, Some f, Some s => Some (mkJob q x f (Some s))
      | _, _, _, _ => None
      end
  | _ => None
  end.
(** models.rs:77-84; the document is a table *)
Definition to_config (m : omap str toml) : option config :=
  match may tou32 "version" m, must (tolist to_artefact) "artefacts" m, must (tolist to_relation) "relations" m,
        may (tomap to_job) "jobs" m, may (tolist tostr) "default_jobs" m with
  | Some v, Some a, Some r, Some j, Some d => Some (mkConfig v a r j d)
  | _, _, _, _, _ => None
  end.

(** ** main.rs *)
(** main.rs:20-35; clap has filled in the default values; log_level and quiet only concern the log *)
Record arguments := mkArguments {
  arg_config : path;
  arg_base : path;
  arg_jobs : list str
}.

(** An error of the toml crate: line and column counted from 0 if known, and its text. *)
Record toml_error := mkTomlError { te_line_col : option (N * N); te_text : str }.

Class TomlFile := {
  tf_read : path -> str + str;                          (* fs::read: the bytes, or the error text *)
  tf_parse : str -> omap str toml + toml_error;         (* the document *)
  tf_decode_error : omap str toml -> toml_error         (* the error of a failed decoding *)
}.

Section Main.
  Context {U : UnicodeTables} {D : Debug} {US : UnstableSort} {CT : CaseTables} {J : JsonText}
    {I : Inputs} {O : Outputs} {T : TomlFile}.

  (** main.rs:68-80 *)
  Definition toml_message (file : path) (e : toml_error) : str :=
    match te_line_col e with
    | Some (line, col) => file ++ L ":" ++ show_N (line + 1) ++ L ":" ++ show_N col ++ L ": TOML Error " ++ te_text e
    | None => file ++ L ":  TOML Error " ++ te_text e
    end.

  (** main.rs:60-95 *)
  Definition load_config (file : path) : config + str :=
    match tf_read file with
    | inr m => inr (file ++ L ": " ++ m)
    | inl bytes =>
        match tf_parse bytes with
        | inr e => inr (toml_message file e)
        | inl doc =>
            match to_config doc with
            | None => inr (toml_message file (tf_decode_error doc))
            | Some c =>
                match cf_version c with
                | Some v => if CONFIG_VERSION <? v then inr (file ++ L " has unknown version " ++ show_N v) else inl c
                | None => inl c
                end
            end
        end
    end.

  (** controller.rs:17-26 *)
  Definition show_controller_error (e : controller_error) : str :=
    match e with
    | CConfig m => L "Config Error: " ++ m
    | CUnknownJob n => L "Unknown Job " ++ n
    | CIo p m => L "IO Error: " ++ m ++ L " in " ++ p
    end.

  (** main.rs:112-138: what has been done, the message on stderr, the exit status *)
  Definition main (a : arguments) : history * str * exit :=
    match load_config (arg_config a) with
    | inr m => ([], m ++ [NL], Exit 2)
    | inl c =>
        match controller_new c (arg_base a) with
        | Panic => ([], [], Panicked)
        | Done ctl =>
            match run_cli_jobs ctl (arg_jobs a) [] with
            | (h, ROkay Success) => (h, [], Exit 0)
            | (h, ROkay ErrorsDetected) => (h, [], Exit 1)
            | (h, RFail e) => (h, show_controller_error e ++ [NL], Exit 2)
            | (h, RPanic) => (h, [], Panicked)
            end
        end
    end.
End Main.
