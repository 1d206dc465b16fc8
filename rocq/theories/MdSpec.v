(** Specification of the Markdown artefact format as a block grammar, independent of the
    parser's state machine.

    A document is a sequence of numbered lines.  Requirement headings cut it into a preamble,
    which is ignored, and sections.  A section is a sequence of blocks: an optional description,
    then attributes.  The grammar describes what the parser accepts, including its defects. *)
From Verif Require Import Base OMap Models Unicode Utf8 MdSyntax.
Open Scope N_scope.

Definition nline := (N * str)%type.

Fixpoint number (n : N) (ls : list str) : list nline :=
  match ls with [] => [] | l :: ls' => (n + 1, l) :: number (n + 1) ls' end.

(** The lines read before the end or the first error, and the error. *)
Fixpoint ok_lines (rs : list read) : list str :=
  match rs with ROk l :: rs' => l :: ok_lines rs' | _ => [] end.
Fixpoint read_error (rs : list read) : option str :=
  match rs with ROk _ :: rs' => read_error rs' | RErr m :: _ => Some m | [] => None end.

Section Spec.
  Context {U : UnicodeTables} (p : path).

  (** ** Lines *)
  (** `## ID: title` *)
  Definition heading_of (l : str) : option (str * str) :=
    match scan_requirement l with Some (_, id, t) => Some (id, trim t) | None => None end.
  (** any other line starting with `#` *)
  Definition plain_heading (l : str) : Prop := heading_of l = None /\ starts_with_c HASH l = true.
  Definition blank (l : str) : Prop := l = [NL].
  (** neither heading nor blank *)
  Definition content (l : str) : Prop := starts_with_c HASH l = false /\ l <> [NL].
  Definition is_attr (l : str) : Prop := content l /\ scan_attribute l <> None.
  Definition no_attr (l : str) : Prop := content l /\ scan_attribute l = None.
  Definition is_ref (l : str) : Prop := content l /\ scan_ref l <> None.
  Definition no_ref (l : str) : Prop := content l /\ scan_ref l = None.

  (** The requirement headings of a document: line number, id, title. *)
  Definition headings (ls : list nline) : list (N * str * str) :=
    flat_map (fun nl => match heading_of (snd nl) with
                        | Some (id, t) => [(fst nl, id, t)] | None => [] end) ls.

  (** Preamble, and sections with their headings. *)
  Definition section := (N * str * str * list nline)%type.
  Fixpoint sections (ls : list nline) : list nline * list section :=
    match ls with
    | [] => ([], [])
    | (n, l) :: ls' =>
        let '(pre, ss) := sections ls' in
        match heading_of l with
        | Some (id, t) => ([], (n, id, t, pre) :: ss)
        | None => ((n, l) :: pre, ss)
        end
    end.

  (** ** Blocks of a section *)
  Inductive block :=
  | BDesc (ls : list str)
  | BText (n : N) (name first : str) (ls : list str)
  | BLinks (n : N) (cov : bool) (first : str) (refs : list nline).

  (** How a section ends: [Open] at its last line, [Closed] by a plain heading, [Broken] by a
      format error at a line.  What follows a closing or breaking line is ignored. *)
  Inductive ending :=
  | Open
  | Closed
  | Broken (n : N) (msg : str).

  Definition COVERS : str := L "Covers".
  Definition DEPENDS : str := L "Depends".
  Definition DESCRIPTION : str := L "Description".

  (** The lines of a description: from [ls], the previous line being blank or not, take
      everything up to a heading or an attribute line that follows a blank line.  The text
      lines that directly follow a blank line do not count (a defect). *)
  Inductive desc_block : bool -> list nline -> list str -> list nline -> Prop :=
  | db_end b : desc_block b [] [] []
  | db_heading b n l ls : plain_heading l -> desc_block b ((n, l) :: ls) [] ((n, l) :: ls)
  | db_attr n l ls : is_attr l -> desc_block true ((n, l) :: ls) [] ((n, l) :: ls)
  | db_blank b n l ls ts rest : blank l ->
      desc_block true ls ts rest -> desc_block b ((n, l) :: ls) (l :: ts) rest
  | db_text n l ls ts rest : content l ->
      desc_block false ls ts rest -> desc_block false ((n, l) :: ls) (l :: ts) rest
  | db_lost n l ls ts rest : no_attr l ->
      desc_block false ls ts rest -> desc_block true ((n, l) :: ls) ts rest.

  (** The further lines of a text attribute: up to a heading or an attribute line. *)
  Inductive text_block : list nline -> list str -> list nline -> Prop :=
  | tb_end : text_block [] [] []
  | tb_heading n l ls : plain_heading l -> text_block ((n, l) :: ls) [] ((n, l) :: ls)
  | tb_attr n l ls : is_attr l -> text_block ((n, l) :: ls) [] ((n, l) :: ls)
  | tb_line n l ls ts rest : blank l \/ no_attr l ->
      text_block ls ts rest -> text_block ((n, l) :: ls) (l :: ts) rest.

  (** The bullet lines of Covers / Depends: as long as lines end in a reference. *)
  Inductive ref_block : list nline -> list nline -> list nline -> Prop :=
  | rb_end : ref_block [] [] []
  | rb_stop n l ls : ~ is_ref l -> ref_block ((n, l) :: ls) [] ((n, l) :: ls)
  | rb_ref n l ls rs rest : is_ref l ->
      ref_block ls rs rest -> ref_block ((n, l) :: ls) ((n, l) :: rs) rest.

  Definition all_blank (ls : list nline) : Prop := forall x, In x ls -> blank (snd x).

  Definition msg_no_attr : str := L "Expected an Attribute line like `Comment:`".
  Definition msg_no_ref : str := L "Expected a Reference like `* REQ_ID: Title`".

  (** [attrs ls bs e]: attribute blocks at the beginning of [ls], which is at its end, at a
      heading, or at an attribute line. *)
  Inductive attrs : list nline -> list block -> ending -> Prop :=
  | at_end : attrs [] [] Open
  | at_heading n l ls : plain_heading l -> attrs ((n, l) :: ls) [] Closed
  | at_text n l ls name first ts rest bs e :
      content l -> scan_attribute l = Some (name, first) -> name <> COVERS -> name <> DEPENDS ->
      text_block ls ts rest -> attrs rest bs e ->
      attrs ((n, l) :: ls) (BText n name first ts :: bs) e
  | at_links n l ls (cov : bool) first refs rest bs e :
      content l -> scan_attribute l = Some (if cov then COVERS else DEPENDS, first) ->
      ref_block ls refs rest -> after_links rest bs e ->
      attrs ((n, l) :: ls) (BLinks n cov first refs :: bs) e
  (** what may follow the bullets *)
  with after_links : list nline -> list block -> ending -> Prop :=
  | al_end : after_links [] [] Open
  | al_heading n l ls : plain_heading l -> after_links ((n, l) :: ls) [] Closed
  | al_broken n l ls : no_ref l -> trim l <> [] ->
      after_links ((n, l) :: ls) [] (Broken n msg_no_ref)
  | al_blank n l ls blanks rest bs e :
      blank l \/ (no_ref l /\ trim l = []) -> ls = blanks ++ rest -> all_blank blanks ->
      next_attr rest bs e -> after_links ((n, l) :: ls) bs e
  (** an attribute must follow *)
  with next_attr : list nline -> list block -> ending -> Prop :=
  | na_broken n l ls : no_attr l -> next_attr ((n, l) :: ls) [] (Broken n msg_no_attr)
  | na_attrs ls bs e : attrs ls bs e -> next_attr ls bs e.

  (** The body of a section. *)
  Inductive body : list nline -> list block -> ending -> Prop :=
  | bo_attrs blanks rest bs e :
      all_blank blanks -> attrs rest bs e -> body (blanks ++ rest) bs e
  | bo_desc blanks n l ls ts rest bs e :
      all_blank blanks -> no_attr l -> desc_block false ls ts rest -> attrs rest bs e ->
      body (blanks ++ (n, l) :: ls) (BDesc (l :: ts) :: bs) e.

  (** ** Meaning *)
  Definition at_line (n : N) : location := new_with_line_no p n.

  (** References of the text after `Covers:`: the nonempty trimmed parts between commas. *)
  Definition inline_refs (n : N) (first : str) : list reference :=
    flat_map (fun part => match trim part with
                          | [] => [] | id => [mkReference id None (at_line n)] end)
             (split_on COMMA (trim first)).
  Definition bullet_refs (ls : list nline) : list reference :=
    flat_map (fun nl => match scan_ref (snd nl) with
                        | Some (id, t) => [mkReference id t (at_line (fst nl))] | None => [] end) ls.

  Definition block_refs (n : N) (first : str) (refs : list nline) : list reference :=
    inline_refs n first ++ bullet_refs refs.

  (** Effect of a block on the requirement. *)
  Definition block_req (r : requirement) (b : block) : requirement :=
    match b with
    | BDesc ls =>
        mkRequirement (req_id r) (req_title r) (req_location r) (req_covers r) (req_depends r)
          (req_tags r) (oins DESCRIPTION (concat ls) (req_attributes r))
    | BText _ name first ls =>
        mkRequirement (req_id r) (req_title r) (req_location r) (req_covers r) (req_depends r)
          (req_tags r) (oins name (first ++ concat ls) (req_attributes r))
    | BLinks n true first refs =>
        mkRequirement (req_id r) (req_title r) (req_location r) (block_refs n first refs) (req_depends r)
          (req_tags r) (req_attributes r)
    | BLinks n false first refs =>
        mkRequirement (req_id r) (req_title r) (req_location r) (req_covers r) (block_refs n first refs)
          (req_tags r) (req_attributes r)
    end.

  (** Error of a block: a repeated attribute. *)
  Definition block_err (r : requirement) (b : block) : list error :=
    match b with
    | BDesc _ => []
    | BText n name _ _ =>
        match oget name (req_attributes r) with
        | Some _ => [EDuplicateAttribute (at_line n) name (req_id r)]
        | None => []
        end
    | BLinks n true _ _ =>
        match req_covers r with [] => [] | _ => [EDuplicateAttribute (at_line n) COVERS (req_id r)] end
    | BLinks n false _ _ =>
        match req_depends r with [] => [] | _ => [EDuplicateAttribute (at_line n) DEPENDS (req_id r)] end
    end.

  Fixpoint blocks_err (r : requirement) (bs : list block) : list error :=
    match bs with [] => [] | b :: bs' => block_err r b ++ blocks_err (block_req r b) bs' end.

  Definition blocks_req (r : requirement) (bs : list block) : requirement := fold_left block_req bs r.

  Definition ending_err (e : ending) : list error :=
    match e with Broken n m => [EFormat (at_line n) m] | _ => [] end.

  (** A requirement as its heading creates it. *)
  Definition blank_req (n : N) (id t : str) : requirement :=
    mkRequirement id (Some t) (at_line n) [] [] [] [].

  Definition section_req (s : section) (bs : list block) : requirement :=
    let '(n, id, t, _) := s in blocks_req (blank_req n id t) bs.
  Definition section_err (s : section) (be : list block * ending) : list error :=
    let '(n, id, t, _) := s in blocks_err (blank_req n id t) (fst be) ++ ending_err (snd be).
  Definition section_ok (s : section) (be : list block * ending) : Prop := body (snd s) (fst be) (snd be).

  Definition is_open (e : ending) : bool := match e with Open => true | _ => false end.
End Spec.
