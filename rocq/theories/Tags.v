(** Model of /repo/src/formatters/tags.rs. *)
From Verif Require Import Base OMap Models Unicode Location Sort.
Open Scope N_scope.

Definition TAB : chr := 9.
(** tags.rs:7-13 *)
Definition TAGS_HEADER : str :=
  L "!_TAG_FILE_SORTED" ++ [TAB] ++ L "1" ++ [TAB] ++ L "/0=unsorted, 1=sorted, 2=foldcase/" ++ [NL] ++
  L "!_TAG_PROGRAM_NAME" ++ [TAB] ++ L "reqtrace/" ++ [NL] ++
  L "!_TAG_PROGRAM_URL" ++ [TAB] ++ L "https://github.com/wonkodv/reqtrace/" ++ [NL] ++
  L "!_TAG_PROGRAM_VERSION" ++ [TAB] ++ L "0" ++ [TAB] ++ L "//" ++ [NL].

(** tags.rs:21-31 *)
Definition tag_line (r : requirement) : list str :=
  match loc_in_file (req_location r) with
  | Some (Line n) | Some (LineAndColumn n _) =>
      [req_id r ++ [TAB] ++ loc_file (req_location r) ++ [TAB] ++ show_N n ++ [59; 34; TAB; 114; NL]]
  | Some (LocString _) | None => []
  end.

(** tags.rs:6-39; strings are compared by code point, which is the byte order of UTF-8 *)
Definition tags_requirements (g : graph) : str :=
  TAGS_HEADER ++
  concat (sort_by (fun l => l)
            (flat_map tag_line (flat_map (fun a => ovalues (art_requirements a)) (ovalues (g_artefacts g))))).
