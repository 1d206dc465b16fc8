(** What a configuration file says, and how to write one. *)
From Coq Require Import ZArith.
From Verif Require Import Base OMap Models Location Formatters Controller Config.
Open Scope N_scope.

Definition texts (v : toml) (l : list str) : Prop := v = TArr (map TStr l).
(** An optional entry. *)
Definition entry_is {A} (m : omap str toml) (name : string) (ok : toml -> A -> Prop) (o : option A) : Prop :=
  match o with
  | Some a => exists v, oget (L name) m = Some v /\ ok v a
  | None => oget (L name) m = None
  end.
Definition is_bool (v : toml) (b : bool) : Prop := v = TBool b.

Definition names_of_parser (p : parser) : string :=
  match p with PMarkdown => "Markdown" | PRust => "Rust" | PMonoRequirement => "MonoRequirement" | PJson => "Json" end.
Definition names_of_query (q : query) : string := match q with QParse => "Parse" | QTrace => "Trace" end.
Definition variant (v : toml) (name : string) : Prop := v = TStr (L name) \/ v = TTable [(L name, TTable [])].
Definition says_format (v : toml) (f : format) : Prop :=
  match f with
  | GnuError => variant v "GnuError"
  | Json => variant v "Json"
  | Markdown => variant v "Markdown"
  | Tags => variant v "Tags"
  | TemplateFile p => v = TTable [(L "TemplateFile", TStr p)]
  | TemplateString s => v = TTable [(L "TemplateString", TStr s)]
  end.

(** Entries of a table, or an array of all fields. *)
Definition says_relation (v : toml) (r : relation) : Prop :=
  (exists m, v = TTable m /\ oget (L "upper") m = Some (TStr (rel_upper r)) /\
     exists l, oget (L "lower") m = Some l /\ texts l (rel_lower r)) \/
  (exists l, v = TArr [TStr (rel_upper r); l] /\ texts l (rel_lower r)).
Definition says_artefact (v : toml) (a : artefact_config) : Prop :=
  (exists m ps p, v = TTable m /\ oget (L "id") m = Some (TStr (ac_id a)) /\
     oget (L "paths") m = Some ps /\ texts ps (ac_paths a) /\
     oget (L "parser") m = Some p /\ variant p (names_of_parser (ac_parser a)) /\
     entry_is m "ignore_derived_requirements" is_bool (ac_ignore_derived a) /\
     entry_is m "reference_with_title" is_bool (ac_reference_with_title a)) \/
  (exists ps p d t, v = TArr [TStr (ac_id a); ps; p; TBool d; TBool t] /\ texts ps (ac_paths a) /\
     variant p (names_of_parser (ac_parser a)) /\ ac_ignore_derived a = Some d /\ ac_reference_with_title a = Some t).
Definition says_job (v : toml) (j : job) : Prop :=
  (exists m q f, v = TTable m /\ oget (L "query") m = Some q /\ variant q (names_of_query (job_query j)) /\
     oget (L "format") m = Some f /\ says_format f (job_format j) /\
     oget (L "file") m = Some (TStr (job_file j)) /\
     entry_is m "set_return_code" is_bool (job_set_return_code j)) \/
  (exists q f s, v = TArr [q; f; TStr (job_file j); TBool s] /\ variant q (names_of_query (job_query j)) /\
     says_format f (job_format j) /\ job_set_return_code j = Some s).
Definition is_version (v : toml) (n : N) : Prop := v = TInt (Z.of_N n) /\ n < 4294967296.

Definition says_config (m : omap str toml) (c : config) : Prop :=
  entry_is m "version" is_version (cf_version c) /\
  (exists l, oget (L "artefacts") m = Some (TArr l) /\ Forall2 says_artefact l (cf_artefacts c)) /\
  (exists l, oget (L "relations") m = Some (TArr l) /\ Forall2 says_relation l (cf_relations c)) /\
  entry_is m "jobs" (fun v js => exists t, v = TTable t /\ Forall2 (fun e j => fst e = fst j /\ says_job (snd e) (snd j)) t js)
    (cf_jobs c) /\
  entry_is m "default_jobs" texts (cf_default_jobs c).

(** The keys with a meaning. *)
Definition config_keys : list str :=
  map L ["version"; "artefacts"; "relations"; "jobs"; "default_jobs"]%string.
Definition artefact_keys : list str :=
  map L ["id"; "paths"; "parser"; "ignore_derived_requirements"; "reference_with_title"]%string.

(** A file that says [c]. *)
Definition opt_entry {A} (name : string) (f : A -> toml) (o : option A) (m : omap str toml) : omap str toml :=
  match o with Some a => oins (L name) (f a) m | None => m end.
Definition write_texts (l : list str) : toml := TArr (map TStr l).
Definition write_format (f : format) : toml :=
  match f with
  | GnuError => TStr (L "GnuError")
  | Json => TStr (L "Json")
  | Markdown => TStr (L "Markdown")
  | Tags => TStr (L "Tags")
  | TemplateFile p => TTable [(L "TemplateFile", TStr p)]
  | TemplateString s => TTable [(L "TemplateString", TStr s)]
  end.
Definition write_relation (r : relation) : toml :=
  TTable (oins (L "upper") (TStr (rel_upper r)) (oins (L "lower") (write_texts (rel_lower r)) [])).
Definition write_artefact (a : artefact_config) : toml :=
  TTable (oins (L "id") (TStr (ac_id a)) (oins (L "paths") (write_texts (ac_paths a))
    (oins (L "parser") (TStr (L (names_of_parser (ac_parser a))))
      (opt_entry "ignore_derived_requirements" TBool (ac_ignore_derived a)
        (opt_entry "reference_with_title" TBool (ac_reference_with_title a) []))))).
Definition write_job (j : job) : toml :=
  TTable (oins (L "query") (TStr (L (names_of_query (job_query j)))) (oins (L "format") (write_format (job_format j))
    (oins (L "file") (TStr (job_file j)) (opt_entry "set_return_code" TBool (job_set_return_code j) [])))).
Definition write_config (c : config) : omap str toml :=
  opt_entry "version" (fun n => TInt (Z.of_N n)) (cf_version c)
    (oins (L "artefacts") (TArr (map write_artefact (cf_artefacts c)))
      (oins (L "relations") (TArr (map write_relation (cf_relations c)))
        (opt_entry "jobs" (fun js => TTable (map (fun e => (fst e, write_job (snd e))) js)) (cf_jobs c)
          (opt_entry "default_jobs" write_texts (cf_default_jobs c) [])))).
Definition fits_u32 (c : config) : Prop := match cf_version c with Some n => n < 4294967296 | None => True end.

(** ** The process *)
Section MessageSpec.
  Context {T : TomlFile}.

  (** The file holds the configuration [c], of a known version. *)
  Definition holds (file : path) (c : config) : Prop :=
    exists bytes doc, tf_read file = inl bytes /\ tf_parse bytes = inl doc /\ says_config doc c /\
      (cf_version c = None \/ cf_version c = Some 0).

  (** Where the toml crate found the error, as printed. *)
  Definition place (e : toml_error) (text : str) : Prop :=
    match te_line_col e with
    | Some (line, col) => text = L ":" ++ show_N (line + 1) ++ L ":" ++ show_N col ++ L ": "
    | None => text = L ":  "
    end.
  (** What is wrong with the file. *)
  Inductive complaint (file : path) : str -> Prop :=
  | co_unreadable m : tf_read file = inr m -> complaint file (file ++ L ": " ++ m)
  | co_syntax bytes e at_ :
      tf_read file = inl bytes -> tf_parse bytes = inr e -> place e at_ ->
      complaint file (file ++ at_ ++ L "TOML Error " ++ te_text e)
  | co_content bytes doc at_ :
      tf_read file = inl bytes -> tf_parse bytes = inl doc -> (forall c, ~ says_config doc c) ->
      place (tf_decode_error doc) at_ ->
      complaint file (file ++ at_ ++ L "TOML Error " ++ te_text (tf_decode_error doc))
  | co_version bytes doc c v :
      tf_read file = inl bytes -> tf_parse bytes = inl doc -> says_config doc c -> cf_version c = Some v -> 0 < v ->
      complaint file (file ++ L " has unknown version " ++ show_N v).
End MessageSpec.
