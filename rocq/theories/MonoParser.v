(** Model of /repo/src/parsers/monoreq.rs. *)
From Verif Require Import Base OMap Models Unicode Regex Utf8 MdLex Paths.
Open Scope N_scope.

Section MonoParser.
  Context {U : UnicodeTables} (p : path).

  (** monoreq.rs:15-16 `=>\s*(\p{XID_Start}\p{XID_Continue}+)(?::\s*(.+?))?\s*$` *)
  Definition MONO_REF_LINK : re :=
    Seq (Chr 61) (Seq (Chr 62) (Seq re_ws (Seq (Grp 1 re_id)
      (Seq (Opt (Seq (Chr COLON) (Seq re_ws (Grp 2 (Plus false (Cls dot)))))) (Seq re_ws Eol))))).

  (** [BufRead::lines]: a line feed at the end is removed, and then a carriage return *)
  Definition strip_line (w : str) : str :=
    match rev w with
    | c :: r =>
        if c =? NL then
          match r with
          | d :: r' => if d =? 13 then rev r' else rev r
          | [] => []
          end
        else w
    | [] => []
    end.

  (** monoreq.rs:19-47: the loop over the lines; [no] counts from 0 *)
  Fixpoint mono_loop (no : N) (title : option str) (depends : list reference) (l : list read)
    : outcome (option str * list reference) :=
    match l with
    | [] => Done (title, depends)
    | RErr _ :: _ => Panic (* todo!() *)
    | ROk w :: l' =>
        let line := strip_line w in
        match title with
        | None => mono_loop (no + 1) (Some line) depends l'
        | Some _ =>
            match captures MONO_REF_LINK line with
            | Some caps =>
                let* id := unwrap (group 1 caps) in
                let x := mkReference id (group 2 caps) (new_with_line_no p (no + 1)) in
                mono_loop (no + 1) title (depends ++ [x]) l'
            | None => mono_loop (no + 1) title depends l'
            end
        end
    end.

  (** monoreq.rs:19-76 *)
  Definition mono_parse (r : reader) : outcome (list requirement * list error) :=
    let* res := mono_loop 0 None [] (read_lines r) in
    let '(title, depends) := res in
    let '(id, errors) :=
      match file_stem p with
      | Some s => (s, [])
      | None => (L "README", [EConfig (L "file for 'MonoReq' parser `" ++ p ++ L " has no stem")])
      end in
    Done ([mkRequirement id title (new_with_no_pos p) [] depends [] []], errors).
End MonoParser.
