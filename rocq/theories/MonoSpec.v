(** Specification of MonoRequirement files: one requirement per file. *)
From Verif Require Import Base OMap Models Unicode MdSyntax Paths.
Open Scope N_scope.

(** The lines of a text without their line ends (line feed or carriage return and line feed). *)
Definition strip_cr (w : str) : str :=
  match rev w with c :: r => if c =? 13 then rev r else w | [] => [] end.
Definition content_lines (text : str) : list str :=
  map strip_cr (removelast (split_on NL text)) ++
  match last (split_on NL text) [] with [] => [] | w => [w] end.

Section MonoSpec.
  Context {U : UnicodeTables}.

  (** An arrow at the beginning of the text: `=>`, id, optional colon and title up to the end. *)
  Definition scan_arrow_here (w : str) : option (str * option str) :=
    match w with
    | e :: g :: w' =>
        if (e =? 61) && (g =? 62) then
          match scan_id (trim_start w') with
          | Some (id, []) => Some (id, None)
          | Some (id, c :: r) =>
              if c =? COLON then option_map (fun t => (id, Some t)) (scan_title r)
              else if forallb is_ws (c :: r) then Some (id, None) else None
          | None => None
          end
        else None
    | _ => None
    end.
  (** The first position where one starts. *)
  Fixpoint scan_arrow (w : str) : option (str * option str) :=
    match scan_arrow_here w with
    | Some x => Some x
    | None => match w with [] => None | _ :: w' => scan_arrow w' end
    end.

  (** The references of numbered lines. *)
  Fixpoint arrows (p : path) (no : N) (ls : list str) : list reference :=
    match ls with
    | [] => []
    | w :: ls' =>
        match scan_arrow w with
        | Some (id, t) => [mkReference id t (new_with_line_no p no)]
        | None => []
        end ++ arrows p (no + 1) ls'
    end.

  (** The requirement of a file with the given text. *)
  Definition mono_requirement (p : path) (text : str) : requirement :=
    mkRequirement
      (match file_stem p with Some s => s | None => L "README" end)
      (hd_error (content_lines text))
      (new_with_no_pos p) [] (arrows p 2 (tl (content_lines text))) [] [].
End MonoSpec.
