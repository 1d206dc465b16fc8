(** Model of /repo/src/parsers/markdown.rs, function by function.

    The reader is the list of results of its [read_line] calls (Utf8.v).  Simplifications: log
    output is left out; [Context::path] is an argument of the functions; [line_number] is an
    unbounded [N]. *)
From Verif Require Import Base OMap Models Unicode Regex Utf8 MdLex.
Open Scope N_scope.

Section MdParser.
  Context {U : UnicodeTables} (p : path).

  (** markdown.rs:25-27 *)
  Definition ATTR_COVERS : str := L "Covers".
  Definition ATTR_DEPENDS : str := L "Depends".
  Definition ATTR_DESCRIPTION : str := L "Description".

  (** markdown.rs:29-37 *)
  Record context := mkContext {
    c_errors : list error;
    c_requirements : list requirement;
    c_ruc : option requirement; (* req_under_construction *)
    c_line : N;                 (* line_number *)
    c_level : N
  }.
  (** markdown.rs:39-43 *)
  Definition ctx_location (c : context) : location := new_with_line_no p (c_line c).

  Definition push_error (c : context) (e : error) : context :=
    mkContext (c_errors c ++ [e]) (c_requirements c) (c_ruc c) (c_line c) (c_level c).
  Definition set_ruc (c : context) (r : option requirement) : context :=
    mkContext (c_errors c) (c_requirements c) r (c_line c) (c_level c).
  Definition next_line (c : context) : context :=
    mkContext (c_errors c) (c_requirements c) (c_ruc c) (c_line c + 1) (c_level c).

  (** markdown.rs:45-52 *)
  Inductive event :=
  | EvEof
  | EvReq (caps : list (nat * str))
  | EvHeading
  | EvLine (line : str)
  | EvEmpty.

  (** markdown.rs:54-63 *)
  Inductive state :=
  | LookForReq
  | LookForDesc
  | CollectDesc (desc : str)
  | CollectDescNl (desc : str)
  | LookForAttr
  | CollectTextAttr (attr val : str)
  | CollectRefLink (attr : str) (refs : list reference).

  Definition set_covers (r : requirement) (v : list reference) : requirement :=
    mkRequirement (req_id r) (req_title r) (req_location r) v (req_depends r) (req_tags r) (req_attributes r).
  Definition set_depends (r : requirement) (v : list reference) : requirement :=
    mkRequirement (req_id r) (req_title r) (req_location r) (req_covers r) v (req_tags r) (req_attributes r).
  Definition set_attributes (r : requirement) (v : omap str str) : requirement :=
    mkRequirement (req_id r) (req_title r) (req_location r) (req_covers r) (req_depends r) (req_tags r) v.

  (** markdown.rs:298-305 *)
  Definition commit_attr (c : context) (attr val : str) : outcome context :=
    let* r := unwrap (c_ruc c) in
    Done (set_ruc c (Some (set_attributes r (oins attr val (req_attributes r))))).

  (** markdown.rs:307-315 *)
  Definition commit_link_attr (c : context) (attr : str) (v : list reference) : outcome context :=
    if eqb attr ATTR_COVERS then
      let* r := unwrap (c_ruc c) in Done (set_ruc c (Some (set_covers r v)))
    else if eqb attr ATTR_DEPENDS then
      let* r := unwrap (c_ruc c) in Done (set_ruc c (Some (set_depends r v)))
    else Panic.

  (** markdown.rs:317-321 *)
  Definition maybe_commit_req (c : context) : context :=
    match c_ruc c with
    | Some r => mkContext (c_errors c) (c_requirements c ++ [r]) None (c_line c) (c_level c)
    | None => c
    end.

  (** markdown.rs:323-341 *)
  Definition add_req (c : context) (caps : list (nat * str)) : outcome (context * state) :=
    let c := maybe_commit_req c in
    let* g1 := unwrap (group 1 caps) in
    let* g2 := unwrap (group 2 caps) in
    let* g3 := unwrap (group 3 caps) in
    let r := mkRequirement g2 (Some (trim g3)) (ctx_location c) [] [] [] [] in
    Done (mkContext (c_errors c) (c_requirements c) (Some r) (c_line c) (byte_len g1), LookForDesc).

  (** markdown.rs:405-420 *)
  Definition parse_link_attr (c : context) (attr short_list : str) : state :=
    CollectRefLink attr
      (flat_map (fun id =>
         let id := trim id in
         match id with [] => [] | _ => [mkReference id None (ctx_location c)] end)
         (split_on COMMA (trim short_list))).

  (** markdown.rs:343-403 *)
  Definition start_attribute (c : context) (caps : list (nat * str)) : outcome (context * state) :=
    let* attr := unwrap (group 1 caps) in
    let* first_line := unwrap (group 2 caps) in
    let* r := unwrap (c_ruc c) in
    let dup := push_error c (EDuplicateAttribute (ctx_location c) attr (req_id r)) in
    if eqb attr ATTR_COVERS then
      let c := match req_covers r with [] => c | _ => dup end in
      Done (c, parse_link_attr c attr first_line)
    else if eqb attr ATTR_DEPENDS then
      let c := match req_depends r with [] => c | _ => dup end in
      Done (c, parse_link_attr c attr first_line)
    else
      let c := match oget attr (req_attributes r) with None => c | Some _ => dup end in
      Done (c, CollectTextAttr attr first_line).

  (** markdown.rs:129-151 *)
  Definition parse_state_empty (st : state) (c : context) : outcome (context * state) :=
    match st with
    | LookForReq => Done (c, st)
    | LookForDesc => Done (c, st)
    | CollectDesc desc => Done (c, CollectDescNl (desc ++ [NL]))
    | CollectDescNl desc => Done (c, CollectDescNl (desc ++ [NL]))
    | LookForAttr => Done (c, st)
    | CollectTextAttr attr val => Done (c, CollectTextAttr attr (val ++ [NL]))
    | CollectRefLink attr v =>
        let* c := commit_link_attr c attr v in Done (c, LookForAttr)
    end.

  (** markdown.rs:153-224 *)
  Definition parse_state_line (st : state) (line : str) (c : context) : outcome (context * state) :=
    match st with
    | LookForReq => Done (c, st)
    | LookForDesc =>
        match captures ATTRIBUTE_LINE line with
        | Some caps => start_attribute c caps
        | None => Done (c, CollectDesc line)
        end
    | CollectDesc desc => Done (c, CollectDesc (desc ++ line))
    | CollectDescNl desc =>
        match captures ATTRIBUTE_LINE line with
        | Some caps =>
            let* c := commit_attr c ATTR_DESCRIPTION desc in
            start_attribute c caps
        | None => Done (c, CollectDesc desc)
        end
    | LookForAttr =>
        match captures ATTRIBUTE_LINE line with
        | Some caps => start_attribute c caps
        | None =>
            Done (push_error c (EFormat (ctx_location c) (L "Expected an Attribute line like `Comment:`")),
                  LookForReq)
        end
    | CollectTextAttr attr val =>
        match captures ATTRIBUTE_LINE line with
        | Some caps =>
            let* c := commit_attr c attr val in
            start_attribute c caps
        | None => Done (c, CollectTextAttr attr (val ++ line))
        end
    | CollectRefLink attr v =>
        match captures REF_LINK_LINE line with
        | Some caps =>
            let* id := unwrap (group 1 caps) in
            Done (c, CollectRefLink attr (v ++ [mkReference id (group 2 caps) (ctx_location c)]))
        | None =>
            match trim line with
            | [] => let* c := commit_link_attr c attr v in Done (c, LookForAttr)
            | _ =>
                let* c := commit_link_attr c attr v in
                Done (push_error c (EFormat (ctx_location c) (L "Expected a Reference like `* REQ_ID: Title`")),
                      LookForReq)
            end
        end
    end.

  (** markdown.rs:226-253 *)
  Definition parse_state_eof (st : state) (c : context) : outcome (context * state) :=
    match st with
    | LookForReq => Done (c, LookForReq)
    | LookForDesc => Done (maybe_commit_req c, LookForReq)
    | CollectDesc desc | CollectDescNl desc =>
        let* c := commit_attr c ATTR_DESCRIPTION desc in Done (maybe_commit_req c, LookForReq)
    | LookForAttr => Done (maybe_commit_req c, LookForReq)
    | CollectTextAttr attr val =>
        let* c := commit_attr c attr val in Done (maybe_commit_req c, LookForReq)
    | CollectRefLink attr v =>
        let* c := commit_link_attr c attr v in Done (maybe_commit_req c, LookForReq)
    end.

  (** markdown.rs:255-277 *)
  Definition parse_state_heading (st : state) (c : context) : outcome (context * state) :=
    match st with
    | LookForReq | LookForDesc | LookForAttr => Done (c, LookForReq)
    | CollectDesc desc | CollectDescNl desc =>
        let* c := commit_attr c ATTR_DESCRIPTION desc in Done (c, LookForReq)
    | CollectTextAttr attr val => let* c := commit_attr c attr val in Done (c, LookForReq)
    | CollectRefLink attr v => let* c := commit_link_attr c attr v in Done (c, LookForReq)
    end.

  (** markdown.rs:279-296 *)
  Definition parse_state_req (st : state) (c : context) (caps : list (nat * str)) : outcome (context * state) :=
    let* c :=
      match st with
      | CollectDesc desc | CollectDescNl desc => commit_attr c ATTR_DESCRIPTION desc
      | CollectTextAttr attr val => commit_attr c attr val
      | CollectRefLink attr v => commit_link_attr c attr v
      | _ => Done c
      end in
    add_req c caps.

  (** markdown.rs:119-127 *)
  Definition parse_states (st : state) (c : context) (ev : event) : outcome (context * state) :=
    match ev with
    | EvReq caps => parse_state_req st c caps
    | EvHeading => parse_state_heading st c
    | EvEof => parse_state_eof st c
    | EvLine line => parse_state_line st line c
    | EvEmpty => parse_state_empty st c
    end.

  (** markdown.rs:93-106: the event of a line that was read; the assertion of line 94 is the
      panic. *)
  Definition line_event (line : str) : outcome event :=
    if byte_len line =? 1 then
      if starts_with_c NL line then Done EvEmpty else Panic
    else
      match captures REQUIREMENT_LINE line with
      | Some caps => Done (EvReq caps)
      | None => if is_match HEADING_LINE line then Done EvHeading else Done (EvLine line)
      end.

  (** markdown.rs:77-114 *)
  Fixpoint parse_loop (rs : list read) (st : state) (c : context) : outcome context :=
    let c := next_line c in
    match rs with
    | RErr m :: _ => Done (push_error c (EIo p m))
    | [] => let* cs := parse_states st c EvEof in Done (fst cs)
    | ROk line :: rs' =>
        let* ev := line_event line in
        let* cs := parse_states st c ev in
        parse_loop rs' (snd cs) (fst cs)
    end.

  (** markdown.rs:65-117 *)
  Definition md_parse (r : reader) : outcome (list requirement * list error) :=
    let* c := parse_loop (read_lines r) LookForReq (mkContext [] [] None 0 0) in
    Done (c_requirements c, c_errors c).
End MdParser.
