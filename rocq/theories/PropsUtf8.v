(** Property C104: which bytes are text, and that the parsers read this text.
    Vocabulary: Utf8Spec.v (UTF-8), LineSpec.v and LineFiles.v (lines), MonoSpec.v, JsonGrammar.v, JsonValues.v;
    models: MdParser.v, MonoParser.v, RustParser.v, Controller.v. *)
From Verif Require Import Base OMap Models Unicode Utf8 Utf8Spec MdSyntax MdParser MdSpec MdFacts MdCor MdCor2 MonoParser MonoSpec
  RustParser Serialize SerdeJson JsonGrammar JsonValues Controller LineSpec LineFiles Utf8Facts.
Open Scope N_scope.

(** C104: a Rust file is given to syn as the text its bytes are; if they are no text, there is one error. *)
Theorem C104_rust : forall syn dbg p,
  (forall bs t, utf8 bs t -> rust_parse syn dbg p (mkReader bs None) = rust_parse (fun _ => syn t) dbg p (mkReader [] None)) /\
  (forall bs, ~ (exists t, utf8 bs t) ->
     rust_parse syn dbg p (mkReader bs None) = Done ([], [EIo p (L "stream did not contain valid UTF-8")])).
Proof. exact rust_text. Qed.
Print Assumptions C104_rust.

(** A mono file is read as this text, and panics if there is none. *)
Theorem C104_mono : forall {U : UnicodeTables} p,
  (forall bs t, utf8 bs t -> exists errs, mono_parse p (mkReader bs None) = Done ([mono_requirement p t], errs)) /\
  (forall bs, mono_parse p (mkReader bs None) = Panic <-> ~ exists t, utf8 bs t).
Proof. intros U. exact mono_text. Qed.
Print Assumptions C104_mono.

(** A Markdown file is read without Io error exactly if it is text, and its headings are those of this text. *)
Theorem C104_markdown : forall {U : UnicodeTables} p bs reqs errs,
  md_parse p (mkReader bs None) = Done (reqs, errs) ->
  ((exists t, utf8 bs t) <-> forall m, ~ In (EIo p m) errs).
Proof. intros U. exact md_text. Qed.
Print Assumptions C104_markdown.

Theorem C104_headings : forall {U : UnicodeTables} p bs t reqs errs,
  utf8 bs t -> md_parse p (mkReader bs None) = Done (reqs, errs) -> ~ loses_last p (mkReader bs None) errs ->
  forall id ti loc, (exists q, In q reqs /\ req_id q = id /\ req_title q = ti /\ req_location q = loc) <->
    exists n l t', line_at t n l /\ heading_line l id t' /\ ti = Some t' /\ loc = at_line p n.
Proof. intros U. exact md_headings. Qed.
Print Assumptions C104_headings.

(** A JSON file is read without error exactly if it is text that is a list of requirements. *)
Theorem C104_json : forall {I : Inputs} (serde : forall r, in_json r = from_reader r) p bs reqs,
  json_parse p (mkReader bs None) = (reqs, []) <->
  exists t v, utf8 bs t /\ json_document t v /\ requirements_value v reqs.
Proof. intros I. exact json_text. Qed.
Print Assumptions C104_json.

(** Bytes are at most one text, different bytes are different texts, and every sequence of characters but
    surrogates is the text of some bytes. *)
Theorem C104_one_text : forall bs t bs' t', utf8 bs t -> utf8 bs' t' -> (bs = bs' <-> t = t').
Proof. exact utf8_unique. Qed.
Print Assumptions C104_one_text.

Theorem C104_every_text : forall t,
  (exists bs, utf8 bs t) <-> Forall (fun c => c < 0xD800 \/ 0xDFFF < c <= 0x10FFFF) t.
Proof. exact every_text. Qed.
Print Assumptions C104_every_text.

(** An umlaut, the euro sign and a character beyond 16 bits are text; the overlong zero, a surrogate, a
    character after the last one and a lonely continuation byte are not. *)
Example C104_example :
  utf8 [0xC3; 0xA4; 0xE2; 0x82; 0xAC; 0xF0; 0x9F; 0x98; 0x80; 0x41] [228; 8364; 128512; 65] /\
  (forall bs, In bs [[0xC0; 0x80]; [0xED; 0xA0; 0x80]; [0xF4; 0x90; 0x80; 0x80]; [0x80]] -> ~ exists t, utf8 bs t) /\
  mono_parse (U := ascii_tables) (L "a.txt") (mkReader [0xED; 0xA0; 0x80] None) = Panic /\
  mono_parse (U := ascii_tables) (L "a.txt") (mkReader [0xC3; 0xA4] None) =
    Done ([mkRequirement (L "a") (Some [228]) (new_with_no_pos (L "a.txt")) [] [] [] []], []).
Proof.
  split; [|split; [|split]].
  - apply decode_utf8. vm_compute. reflexivity.
  - intros bs H. apply decode_none. cbn [In] in H.
    destruct H as [<-|[<-|[<-|[<-|[]]]]]; vm_compute; reflexivity.
  - vm_compute. reflexivity.
  - vm_compute. reflexivity.
Qed.

Example C104_example_markdown : exists reqs,
  md_parse (U := ascii_tables) (L "a.md") (mkReader (L "# REQ_A: " ++ [0xC3; 0xA4; 10]) None) = Done (reqs, []) /\
  map req_title reqs = [Some [228]].
Proof. eexists. split; vm_compute; reflexivity. Qed.
