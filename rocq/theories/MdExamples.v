(** Sample Markdown documents for the examples and refutations of PropsMd.v. *)
From Verif Require Import Base OMap Models Unicode Utf8 MdSyntax MdParser MdSpec MdFacts.
Open Scope N_scope.

Definition sample_path : path := L "req.md".
Definition file (s : string) : reader := mkReader (L s) None.
Definition md (s : string) : outcome (list requirement * list error) := md_parse sample_path (file s).

(** What the examples show of a result: id, title, line, covers, depends, attributes. *)
Definition show_ref (x : reference) := (ref_id x, ref_title x, loc_in_file (ref_location x)).
Definition show (r : requirement) :=
  (req_id r, req_title r, loc_in_file (req_location r),
   map show_ref (req_covers r), map show_ref (req_depends r), req_attributes r).
Definition result (s : string) :=
  match md s with Done (rs, es) => Some (map show rs, es) | Panic => None end.

Definition sample : string :=
"# Requirements

Some text.

## REQ_A: First requirement

It shall work.
And work well.

Comment: see
  below

Covers: REQ_X, REQ_Y
* REQ_Z: Zett

## REQ_B: Second requirement

Depends: REQ_A
Depends:
* REQ_C

Comment: one
Comment: two
".

Example sample_result :
  result sample =
  Some ([ (L "REQ_A", Some (L "First requirement"), Some (Line 5),
           [ (L "REQ_X", None, Some (Line 13)); (L "REQ_Y", None, Some (Line 13));
             (L "REQ_Z", Some (L "Zett"), Some (Line 14)) ],
           [],
           [ (L "Comment", L "see  below" ++ [NL; NL]);
             (L "Description", L "It shall work." ++ [NL] ++ L "And work well." ++ [NL; NL]) ]) ],
        [ EFormat (new_with_line_no sample_path 19) (L "Expected a Reference like `* REQ_ID: Title`") ]).
Proof. vm_compute. reflexivity. Qed.
