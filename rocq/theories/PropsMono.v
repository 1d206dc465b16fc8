(** Property C26: the MonoRequirement parser.
    Vocabulary: Utf8.v (files), PathFacts.v (stem), MonoSpec.v; model: MonoParser.v. *)
From Verif Require Import Base OMap Models Unicode Utf8 MdSyntax Paths PathFacts MonoParser MonoSpec MonoFacts.
Open Scope N_scope.

(** C26: a file that can be read gives one requirement. *)
Theorem C26_exact : forall {U : UnicodeTables} p bs text,
  decode bs = Some text ->
  mono_parse p (mkReader bs None) =
  Done ([mono_requirement p text],
        match file_stem p with
        | Some _ => []
        | None => [EConfig (L "file for 'MonoReq' parser `" ++ p ++ L " has no stem")]
        end).
Proof. intros U p. exact (mono_exact p). Qed.
Print Assumptions C26_exact.

(** Every other file panics. *)
Theorem C26_panics : forall {U : UnicodeTables} p r,
  mono_parse p r = Panic <-> rd_fail r <> None \/ decode (rd_bytes r) = None.
Proof. intros U p. exact (mono_panics p). Qed.
Print Assumptions C26_panics.

(** What counts as a reference: an arrow, an id and optionally a title that reach to the end. *)
Theorem C26_no_arrow : forall {U : UnicodeTables} w,
  (forall a b, w <> a ++ arrow ++ b) -> scan_arrow w = None.
Proof. intros U. exact scan_arrow_none. Qed.
Print Assumptions C26_no_arrow.

Theorem C26_plain : forall {U : UnicodeTables} a ws id ws',
  (forall x y, a <> x ++ arrow ++ y) -> forallb is_ws ws = true -> is_id id -> forallb is_ws ws' = true ->
  scan_arrow (a ++ arrow ++ ws ++ id ++ ws') = Some (id, None).
Proof. intros U. exact scan_arrow_plain. Qed.
Print Assumptions C26_plain.

Theorem C26_titled : forall {U : UnicodeTables} a ws id ws' t ws'',
  (forall x y, a <> x ++ arrow ++ y) -> forallb is_ws ws = true -> is_id id ->
  forallb is_ws ws' = true -> t <> [] -> trimmed t -> forallb is_ws ws'' = true ->
  ~ In NL (ws' ++ t ++ ws'') ->
  scan_arrow (a ++ arrow ++ ws ++ id ++ COLON :: ws' ++ t ++ ws'') = Some (id, Some t).
Proof. intros U. exact scan_arrow_titled. Qed.
Print Assumptions C26_titled.

(** The id: what the stem of any path is, and when there is none. *)
Theorem C26_id : forall {U : UnicodeTables} p bs text,
  decode bs = Some text ->
  exists r errs, mono_parse p (mkReader bs None) = Done ([r], errs) /\
    (forall s, stem p s -> req_id r = s /\ errs = []) /\
    ((~ exists s, stem p s) ->
     req_id r = L "README" /\ errs = [EConfig (L "file for 'MonoReq' parser `" ++ p ++ L " has no stem")]).
Proof. intros U p. exact (mono_id p). Qed.
Print Assumptions C26_id.

(** The id for a usual path. *)
Theorem C26_stem : forall dir stem ext : str,
  stem <> [] -> stem <> [DOT] -> ~ In SLASH stem -> ~ In SLASH ext -> ~ In DOT ext ->
  file_stem (dir ++ SLASH :: stem ++ DOT :: ext) = Some stem /\
  file_stem (stem ++ DOT :: ext) = Some stem.
Proof. exact file_stem_ext. Qed.
Print Assumptions C26_stem.

(** The test of monoreq.rs. *)
Definition mono_sample : string := "First Line
            second line
            some text => REQ_1
            some more text
            another requirement =>REQ_2: title
            ".
Example C26_example :
  mono_parse (L "path/to/Read_Me.md") (mkReader (L mono_sample) None) =
  Done ([mkRequirement (L "Read_Me") (Some (L "First Line")) (new_with_no_pos (L "path/to/Read_Me.md")) []
           [mkReference (L "REQ_1") None (new_with_line_no (L "path/to/Read_Me.md") 3);
            mkReference (L "REQ_2") (Some (L "title")) (new_with_line_no (L "path/to/Read_Me.md") 5)]
           [] []], []).
Proof. vm_compute. reflexivity. Qed.
Example C26_example_panic : mono_parse (L "a.md") (mkReader [255] None) = Panic.
Proof. vm_compute. reflexivity. Qed.
Example C26_example_stem :
  file_stem (L "a/..") = None /\ file_stem (L "/") = None /\ file_stem (L ".git") = Some (L ".git") /\
  file_stem (L "a/b.tar.gz/.") = Some (L "b.tar").
Proof. vm_compute. auto. Qed.
Example C26_example_stems : stem (L "a/b.tar.gz/.") (L "b.tar") /\ ~ exists s, stem (L "a/..") s.
Proof. split; [apply file_stem_exact|apply no_stem]; vm_compute; reflexivity. Qed.
Example C26_example_id : is_id (L "REQ_1").
Proof. exists 82, (L "EQ_1"). repeat split; try discriminate. Qed.
