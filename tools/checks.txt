From Verif Require Import Base OMap Models Unicode Utf8 Paths Location Regex MdLex MdParser MonoParser RustParser Tracer TraceSpec
  Show Sort Serialize Tags GnuErr MdFmt Aggregator Formatters SerdeJson Controller Config Cli CtlExamples AggSpec FmtSpec EntrySpec GnuReadSpec OutlineSpec JsonSpec AgreeSpec Api.
Open Scope N_scope.
Set Printing Width 100000. Set Printing Depth 100000.
#[local] Existing Instance ascii_tables. #[local] Existing Instance ascii_case. #[local] Existing Instance sample_debug.
#[local] Existing Instance stable_is_unstable. #[local] Existing Instance serde_json.
Definition bs (s : string) : reader := mkReader (L s) None.
Definition md (s : string) := md_parse (L "f.md") (bs s).
Fixpoint prefixb (x s : str) : bool := match x, s with [], _ => true | a :: x', b :: s' => (a =? b) && prefixb x' s' | _, _ => false end.
Fixpoint infixb (x s : str) : bool := prefixb x s || match s with [] => false | _ :: s' => infixb x s' end.
Fixpoint alleq (x y : list str) : bool := match x, y with [], [] => true | a :: x', b :: y' => eqb a b && alleq x' y' | _, _ => false end.

(* ---- Markdown *)
Definition lookfor : string := "# AA: title

Description text

Covers: X1, X2
* Y1: yy
* Y2

Comment: text
more

Depends:
* D1
* D2: dd

Covers: Z1
# BB: second

text of BB
# CC: third

Depends: E1
Depends: E2

Comment: one
Comment: two
# plain heading
more text
# DD: fourth

Comment: last
# plain two
# EE: fifth

Depends: F1
# FF: sixth

Covers: G1
# plain three
# GG: seventh

A: not an attribute

Covers:
* ok
not a reference!!
more
# HH: eighth

desc

no attribute here
Comment: x
# H: one letter
# 1X: digit
# II: ninth

Note: at the end of the file
".
Eval vm_compute in ("V C52"%string, md lookfor).
Eval vm_compute in ("V C52"%string, md "# AA: t

A: one letter
").
Eval vm_compute in ("V C52"%string, md "# AA: t
Covers: X1
Depends: X2

Depends: X3
").
Eval vm_compute in ("V C52"%string, (md "# AA: t

Covers: X1

no attribute
Depends: Z1
# BB: u
", md "# AA: t

Covers: X1
# plain
* Y1
# BB: u
")).
Eval vm_compute in ("V C51"%string, md "# AA: t

Covers: B1
# plain
# CC: u
").
Eval vm_compute in ("V C82"%string, md "# AA: t

Comment: one
two
# plain
# CC: u
").
Definition heads (o : outcome (list requirement * list error)) := match o with Done (rs, es) => Some (map (fun r => (req_id r, req_title r, req_location r)) rs) | Panic => None end.
Eval vm_compute in ("V C18"%string, heads (md_parse (L "f.md") (mkReader (L "# AA: t
# BB: u
") (Some (L "fault"))))).
(* C20: a document that loses nothing, followed by one that begins with a requirement *)
Definition shift (n : N) (l : location) := match loc_in_file l with Some (Line m) => mkLocation (loc_file l) (Some (Line (m + n))) | _ => l end.
Definition rtext (n : N) (r : requirement) : list str := [req_id r; opt_default (req_title r) []; show_location (shift n (req_location r))] ++
  flat_map (fun x => [ref_id x; show_location (shift n (ref_location x))]) (req_covers r ++ req_depends r) ++ flat_map (fun e => [fst e; snd e]) (req_attributes r).
Definition joined (a b : string) (n : N) : bool :=
  match md a, md b, md (a ++ b) with
  | Done (r1, []), Done (r2, []), Done (r, []) => alleq (flat_map (rtext 0) r1 ++ flat_map (rtext n) r2) (flat_map (rtext 0) r)
  | _, _, _ => false end.
Eval vm_compute in ("T C20"%string, joined "# AA: t
text
" "# BB: u

Covers: A1
" 2 && joined "# AA: t

Depends: A1
" "# BB: u
x
" 3 && joined "# AA: t

Note: A1
" "# BB: u
x
" 3).
Definition idok (s : str) : bool := match s with a :: b :: r => xid_start a && forallb xid_continue (b :: r) | _ => false end.
Definition ids_ok (s : string) : bool := match md s with Done (rs, _) => forallb (fun r => idok (req_id r)) rs | Panic => true end.
Eval vm_compute in ("T C21"%string, ids_ok lookfor).
Eval vm_compute in ("T C84"%string, ids_ok lookfor).
Definition refs_ok (s : string) : bool := match md s with Done (rs, _) => forallb (fun x => negb (is_nil (ref_id x)) && eqb (trim (ref_id x)) (ref_id x)) (flat_map (fun r => req_covers r ++ req_depends r) rs) | Panic => true end.
Eval vm_compute in ("T C21"%string, refs_ok lookfor && refs_ok "# AA: t

Covers: X1, X2
").
Eval vm_compute in ("T C19"%string, match md "some text
# a heading

# AA: t
", md "# AA: t
" with Done (r1, e1), Done (r2, e2) => alleq (map req_id r1) (map req_id r2) && (Nat.eqb (length e1) (length e2)) | _, _ => false end).
Definition faulty : reader := mkReader (L "# AA: t
" ++ [255; 10] ++ L "# BB: u

Covers:
!!
" ++ [255; 10]) None.
(* no error lies behind the line that cannot be read *)
Eval vm_compute in ("T C22"%string, match md_parse (L "f.md") faulty with
  | Done (_, es) => forallb (fun e => match e with EFormat l _ => match loc_in_file l with Some (Line n) => n <=? 2 | _ => false end | _ => true end) es
  | Panic => true end).
Definition dups (o : outcome (list requirement * list error)) := match o with
  | Done (_, es) => flat_map (fun e => match e with EDuplicateAttribute l a i => [(l, a, i)] | _ => [] end) es | Panic => [] end.
Eval vm_compute in ("V C24"%string, (dups (md lookfor), dups (md "# AA: t

Covers: X1

Depends: X2

Depends: X3
"))).
Eval vm_compute in ("T C72"%string, match md lookfor with Done (rs, _) => forallb (fun r => is_nil (req_tags r)) rs | Panic => true end).
Definition refs_of (r : requirement) := flat_map (fun x => [ref_id x; opt_default (ref_title x) (L "-")]) (req_covers r) ++ [[]] ++ flat_map (fun x => [ref_id x; opt_default (ref_title x) (L "-")]) (req_depends r).
Definition rq (id : string) (t : option string) (n : N) (c d : list reference) : requirement :=
  mkRequirement (L id) (option_map L t) (new_with_line_and_column (L "src/x.md") n 3) c d [] [].
Definition rf (id : string) (t : option string) (n : N) : reference := mkReference (L id) (option_map L t) (new_with_line_no (L "src/x.md") n).
Definition some_reqs := [rq "AA" (Some "one"%string) 1 [rf "XX" (Some "xx"%string) 2; rf "YY" None 3] [rf "ZZ" (Some "zz"%string) 5]; rq "BB" (Some "two"%string) 9 [] []].
Eval vm_compute in ("T C48"%string, match md_parse (L "f.md") (mkReader (flat_map md_requirement some_reqs) None) with
  | Done (rs, []) => alleq (flat_map refs_of some_reqs) (flat_map refs_of rs) && alleq (map req_id some_reqs) (map req_id rs)
  | _ => false end).
(* lists have one line for each reference: C91_markdown *)
Definition oneline (s : str) : bool := forallb (fun c => negb (c =? NL)) s.
Eval vm_compute in ("T C91"%string, match md lookfor with Done (rs, _) => forallb (fun r => forallb (fun x => oneline (ref_id x)) (req_covers r ++ req_depends r)) rs | Panic => false end).

(* ---- lexical *)
Eval vm_compute in ("V C89"%string, map (captures REQUIREMENT_LINE) (map L ["# AA: t"; " # AA: t"; "##AA: t "; "# AA : t"; "# AA:"; "# AA: "; "#AA:x"; "# AA x"])%string).
Eval vm_compute in ("V C89"%string, map (captures ATTRIBUTE_LINE) [L "Name: value" ++ [NL]; L "Name:" ++ [NL]; L "Name: a b " ++ [NL]]).
Eval vm_compute in ("V C89"%string, map (captures ATTRIBUTE_LINE) (map L ["Name: value  "; "NAme: x"; "A: x"; "Name x"; "Name:"; "name: x"])%string).
Eval vm_compute in ("V C89"%string, map (captures REF_LINK_LINE) (map L ["* AA"; "*AA"; "* AA: title"; "* AA:"; "* AA : x"; " AA: x y "; "AA"])%string).
Eval vm_compute in ("V C89"%string, map (captures MONO_REF_LINK) (map L ["x => AA"; "x > AA"; "x = AA"; "=>AA"; "=> AA: t "; "=> AA "; "a => b => CC"])%string).
Eval vm_compute in ("V C26"%string, mono_parse (L "dir/stem.md") (bs "title => AA
x => BB
y => CC: cc  
z =>DD   
")).
(* ---- Rust *)
Definition id_tok (s : string) : token := TokIdent (L s) (0, 0).
Definition cov (line : N) (ts : list token) : node := NExprMacro [(L "requirement_covered", (line, 24))] ts.
Definition tree : node :=
  NOther [NScope KMod (L "m") (2, 16)
    [NImpl (L "S") (Some (false, L "T")) (3, 31) [NScope KImplMethod (L "foo") (4, 23) [cov 5 [id_tok "R1"]; cov 6 []; cov 7 [id_tok "R2"; TokOther ([34] ++ L "x" ++ [34]) (8, 2)];
       cov 8 [id_tok "R3"; TokOther (L ",") (8, 1); TokOther ([34] ++ L "Title" ++ [34]) (8, 2)]]];
     NImpl (L "S") (Some (true, L "T")) (9, 31) [NScope KImplMethod (L "bar") (10, 23) [cov 11 [id_tok "R4"]]]; NImpl (L "S") None (12, 1) [NScope KFn (L "f") (13, 1) [cov 14 [id_tok "R5"]]]]].
Eval vm_compute in ("V C27"%string, rust_parse (fun _ => inl tree) (fun _ => []) (L "f.rs") (bs "")).
Eval vm_compute in ("V C27"%string, rust_parse (fun _ => inr ((3, 4), L "syntax")) (fun _ => []) (L "f.rs") (bs "")).
(* ---- locations *)
Eval vm_compute in ("V C29"%string, map parse_location (map L ["f:18446744073709551615"; "f:18446744073709551616"; "f:1:18446744073709551616"; "f:1:2"; "f"])%string).
Definition places := [Line 1; Line 2; LineAndColumn 1 0; LineAndColumn 1 5; LineAndColumn 1 7; LineAndColumn 2 1; LocString (L "a"); LocString (L "b")].
Eval vm_compute in ("V C30"%string, map (fun x => map (cmp_in_file x) places) places).
Eval vm_compute in ("V C30"%string, map (fun x => map (cmp_requirement x) (rq "AA" None 1 [] [] :: rq "AA" (Some "z"%string) 1 [] [] :: some_reqs)) some_reqs).

(* ---- a graph *)
Definition ar (id : string) (ign rwt : bool) (rs : list requirement) (es : list error) : artefact :=
  mkArtefact (L id) [L "f1"; L "f2"] ign rwt (ocollect (map (fun r => (req_id r, r)) rs)) es.
Definition fe (n : N) (s : string) := EFormat (new_with_line_no (L "src/x.md") n) (L s).
Definition gr (arts : list artefact) (rels : list relation) : graph := mkGraph (ocollect (map (fun a => (art_id a, a)) arts)) rels.
Definition rel (u : string) (l : list string) := mkRelation (L u) (map L l).
Definition g1 := gr [
  ar "A" true true [rq "R1" (Some "one"%string) 1 [] [rf "S1" None 2; rf "S2" (Some "wrong"%string) 3]; rq "R2" (Some "two"%string) 4 [] []; rq "R3" (Some "three"%string) 6 [] []] [fe 8 "bad"; fe 7 "aaa"];
  ar "B" false false [rq "S1" (Some "ess"%string) 1 [rf "R1" (Some "onE"%string) 2; rf "GONE" None 3; rf "R2" (Some "two"%string) 11] [rf "T1" None 5]; rq "S2" None 4 [rf "R2" (Some "two"%string) 5; rf "R1" (Some "one"%string) 12] [rf "NOPE" None 6]; rq "S3" None 7 [] []] [fe 9 "worse"];
  ar "C" false false [rq "T1" None 1 [rf "R3" (Some "three"%string) 2; rf "R1" None 3; rf "R1" None 3; rf "R2" None 4; rf "R1" None 3] []; rq "Q9" None 5 [] []; rq "AAA" None 2 [] []] [] ]
  [rel "A" ["B"]; rel "A" ["C"]; rel "B" ["C"]]%string.
Definition g2 := gr [
  ar "A" true false [rq "R1" (Some "one"%string) 1 [] []; rq "R2" None 2 [] []] []; ar "B" false false [rq "S1" None 1 [rf "R1" None 2] []] []; ar "C" false false [rq "T1" None 3 [rf "R2" None 5; rf "S1" None 6] []] []]
  [rel "A" ["B"; "C"]; rel "B" ["C"]; rel "A" ["C"]]%string.
(* nothing to report *)
Definition g3 := gr [ar "A" true false [rq "R1" (Some "one"%string) 1 [] []] []; ar "B" false false [rq "S1" None 1 [rf "R1" None 2] []] []] [rel "A" ["B"]]%string.
(* covers along the second of two relations only *)
Definition g4 := gr [
  ar "A" true false [rq "R1" None 1 [] []] []; ar "B" true false [rq "S1" None 1 [] []] [];
  ar "C" false false [rq "T1" None 3 [rf "S1" None 5] []; rq "T2" None 4 [rf "R1" None 6] []; rq "T3" None 8 [] []] []; ar "D" false false [rq "U1" None 3 [] []] []]
  [rel "A" ["C"]; rel "B" ["C"]]%string.
(* a relation twice: errors A B A B; an artefact without requirements *)
Definition g5 := gr [ar "A" true true [rq "R1" (Some "one"%string) 1 [] []; rq "R2" (Some "two"%string) 2 [] []] []; ar "B" false false [rq "S1" None 1 [rf "R1" None 2; rf "R2" None 3] []] []; ar "C" false false [] []; ar "D" true false [rq "U1" None 3 [] []] []]
  [rel "A" ["B"]; rel "A" ["B"]]%string.
Definition gs := [g1; g2; g3; g4; g5].
Definition traced (g : graph) := match trace g with Done t => t | Panic => mkTracedGraph [] [] [] [] end.
Eval vm_compute in ("V C15"%string, map (fun g => match aggregate (traced g) with Done a => Some (ag_requirements a) | Panic => None end) gs).
Definition page (g : graph) := match fmt_tracing (traced g) Markdown with Done t => t | Panic => [] end.
Definition spec_page (g : graph) := match aggregate (traced g) with Done a => md_report g (traced g) a | Panic => L "panic" end.
Eval vm_compute in ("T C45"%string, forallb (fun g => eqb (page g) (spec_page g)) gs).
Definition errs (g : graph) := all_errors g ++ tg_errors (traced g).
Definition some_errors := errs g1 ++ errs g2 ++ errs g4 ++ [EDependWithWrongTitle (rq "U" (Some "tu"%string) 1 [] []) (rq "L" (Some "tl"%string) 2 [] []) (L "w") (new_with_line_no (L "f") 9);
  ECoveredWithWrongTitle (rq "U" (Some "tu"%string) 1 [] []) (rq "L" (Some "tl"%string) 2 [] []) (L "w") (new_with_line_no (L "f") 9);
  EDependOnUnknownRequirement (rq "U" None 1 [] []) (L "XYZ") (new_with_line_no (L "f") 9); ECoversUnknownRequirement (rq "U" None 1 [] []) (L "XYZ") (new_with_line_no (L "f") 9); EIo (L "pp") (L "mm")].
Eval vm_compute in ("T C45"%string, forallb (fun e => forallb (fun x => infixb x (md_error e)) (md_phrases e)) some_errors).
Eval vm_compute in ("V C45"%string, map location_link [new_with_line_no (L "d/f") 3; new_with_line_and_column (L "d/f") 3 4]).
Eval vm_compute in ("T C44"%string, forallb (fun e => forallb (fun x => infixb x (gnu_error e)) (gnu_phrases e ++ mentions e)) some_errors).
Eval vm_compute in ("T C44"%string, forallb (fun g => match fmt_tracing (traced g) GnuError with Done t => eqb t (gnu_report g (tg_errors (traced g))) | Panic => false end) gs).
Definition ekey (e : entry) : list str := match e with Head t => [[0]; t] | At p m => [[1]; p; m] end.
Eval vm_compute in ("T C91"%string, forallb (fun g => match fmt_tracing (traced g) GnuError with
  | Done t => alleq (flat_map (fun l => ekey (read_line l)) (removelast (page_lines t))) (flat_map ekey (report_entries g (tg_errors (traced g))))
  | Panic => false end) (gs ++ [gr [ar "A" true false [] [EIo (L "pp") (L "mm"); fe 3 "x"]] []])).
Definition okey (o : list (nat * str)) : list str := flat_map (fun h => [[N.of_nat (fst h)]; snd h]) o.
Eval vm_compute in ("T C93"%string, forallb (fun g => alleq (okey (outline (page g))) (okey (report_outline g (tg_errors (traced g))))) gs).
Definition export (g : graph) := match fmt_requirements g Markdown with Done t => t | Panic => [] end.
Eval vm_compute in ("T C93"%string, forallb (fun g => alleq (okey (outline (export g))) (okey (export_outline g (sort_by req_id (all_reqs g))))) gs).
(* C57: the export of C57 begins with the errors of the artefacts *)
Eval vm_compute in ("T C57"%string, forallb (fun g => forallb (fun e => infixb (md_error e) (export g)) (all_errors g)) gs).
Eval vm_compute in ("V C42 C83"%string, map (fun g => fmt_requirements g Tags) gs).
Eval vm_compute in ("V C43"%string, map (fun g => match fmt_requirements g Json with Done t => match read_json t with Some v => a_parse_report v | None => None end | Panic => None end) gs).
Eval vm_compute in ("V C76"%string, map (fun g => match fmt_tracing (traced g) Json with Done t => match read_json t with Some v => option_map (fun x => map (fun a => (art_id a, art_files a)) (ovalues (tg_artefacts (snd x)))) (a_trace_report v) | None => None end | Panic => None end) gs).
Definition odd := gr [ar "A" true false [mkRequirement (L "AA") (Some [8; 9; 34; 92; 10; 31]) (new_with_no_pos (L "f")) [] [] [] []] []] [].
Eval vm_compute in ("V C68"%string, match fmt_requirements odd Json with Done t => match read_json t with Some v => a_parse_report v | None => None end | Panic => None end).
Eval vm_compute in ("V C59"%string, map page [g2; g3; g4]).
(* C92 *)
Definition linkb (s text dest : str) (title : option str) : bool := eqb s (L "[" ++ text ++ L "](" ++ dest ++ match title with Some t => [32; 34] ++ t ++ [34] | None => [] end ++ L ")").
Definition plain := [rq "AA" (Some "Some Title"%string) 1 [] []; rq "BB" None 1 [] []].
Eval vm_compute in ("T C92"%string, forallb (fun r => linkb (requirement_link r) (req_id r) (HASH :: heading_anchor (EntrySpec.heading_of r)) (req_title r)) plain &&
  forallb (fun l => linkb (location_link l) (show_location l) (L "../" ++ loc_file l ++ match loc_in_file l with Some (Line n) | Some (LineAndColumn n _) => L "?plain=1#L" ++ show_N n | _ => [] end) None)
    [new_with_line_no (L "d/f") 3; new_with_line_and_column (L "d/f") 3 4; new_with_no_pos (L "d/f")]).
(* ---- JSON *)
Definition u (s : string) : str := [92; 117] ++ L s.
Definition str_of (s : str) : reader := mkReader ([34] ++ s ++ [34]) None.
Eval vm_compute in ("V C69"%string, map from_reader ([mkReader ([13; 32; 9; 10] ++ L "[1 ,2]" ++ [13]) None; str_of (u "00E9"); str_of (u "00e9"); str_of [92; 47]; str_of (u "dc00"); str_of (u "d83d" ++ u "de00");
  str_of [7]; bs "01"; bs "0"; bs "[1,]"; bs "[1, ]"; mkReader (L "{" ++ [34; 97; 34] ++ L " : 1}") None; mkReader (L "[1]") (Some (L "fault")); str_of (u "d83d")])).
(* ---- controller *)
Definition fs (p : path) : option reader :=
  if eqb p (L "/p/a.md") then Some (bs "# REQ_A: Top
# REQ_A2: Two
") else if eqb p (L "/p/b.md") then Some (bs "# REQ_B: Low

Covers: REQ_A, REQ_A2
") else if eqb p (L "/p/c.md") then Some (bs "# REQ_C: Low

Covers: REQ_A, REQ_A2
# REQ_D: derived
") else if eqb p (L "/p/bad.md") then Some (bs "# REQ_X: x

Covers:
!!
# REQ_X: again
# REQ_Y: y

Covers: NOWHERE
") else if eqb p (L "/p/top.md") then Some (bs "# REQ_T: top
") else if eqb p (L "/p/mid.md") then Some (bs "# REQ_A: a

Covers: REQ_T
# REQ_A2: a2

Covers: REQ_T
") else if eqb p (L "/p/a1.md") then Some (bs "
# REQ_A: Top
") else if eqb p (L "/p/a2.md") then Some (bs "

# REQ_A: Top
") else if eqb p (L "/p/untitled") then Some (bs "[bad") else if eqb p (L "/p/mono.md") then Some (bs "")
  else if eqb p (L "/p/one.rs") then Some (bs "1") else if eqb p (L "/p/two.rs") then Some (bs "2") else if eqb p (L "/p/err.rs") then Some (bs "e") else if eqb p (L "/p/none.rs") then Some (bs "0")
  else if eqb p (L "/abs.rs") then Some (bs "1") else if eqb p (L "/p//abs.rs") then Some (bs "2") else None.
Definition one (id : string) : node := NScope KFn (L id) (1, 2) [cov 3 [id_tok "REQ_A"]].
#[local] Instance ins : Inputs := {|
  in_open := fun p => match fs p with Some r => inl r | None => inr (L "No such file") end;
  in_glob := fun p => if eqb p (L "/p/*") then inl [inl (L "/p/one.rs"); inr (L "/p/secret", L "denied"); inl (L "/p/two.rs")]
    else if eqb p (L "/p/ok*") then inl [inl (L "/p/one.rs"); inl (L "/p/missing.rs"); inl (L "/p/err.rs"); inl (L "/p/two.rs")] else inl [inl p];
  in_syn := fun s => if eqb s (L "1") then inl (one "f1") else if eqb s (L "2") then inl (one "f2") else if eqb s (L "0") then inl (NOther []) else inr ((3, 4), L "syntax");
  in_debug_tokens := fun _ => []; in_json := from_reader; in_json_error := fun _ => L "no JSON" |}.
#[local] Instance outs : Outputs := {| out_parent := fun _ => None; out_make_dirs := fun _ _ => None; out_create := fun _ p => if eqb p (L "/p/locked") then Some (L "denied") else None;
  out_write := fun _ s _ => match s with ToFile p => if eqb p (L "/p/full") then Some (3%nat, L "no space") else None | Stdout => None end |}.
Definition ac (id : string) (paths : list string) (p : parser) (i t : option bool) := mkArtefactConfig (L id) (map L paths) p i t.
Definition B : path := L "/p".
Eval vm_compute in ("V C55"%string, map (fun a => parse_files a B) [ac "R" ["*"] PRust None None; ac "R" ["ok*"] PRust None None; ac "R" ["/abs.rs"] PRust None None;
  ac "M" ["a.md"; "b.md"] PMarkdown None None; ac "M" ["missing.md"] PMarkdown None None; ac "J" ["untitled"] PJson None None; ac "M" ["bad.md"] PMarkdown None None]%string).
Eval vm_compute in ("V C31"%string, map (fun a => parse_from_config a B) [ac "M" ["bad.md"] PMarkdown None None; ac "R" ["ok*"] PRust None None]%string).
Eval vm_compute in ("V C75"%string, parse_files (ac "M" ["missing.md"] PMarkdown None None)%string B).
Eval vm_compute in ("T C75"%string, match parse_files (ac "R" ["ok*"] PRust None None)%string B with Done (_, rs, _) => existsb (fun r => eqb (req_id r) (L "f1")) rs && existsb (fun r => eqb (req_id r) (L "f2")) rs | Panic => false end).
Definition jobs : omap str job := [(L "bad", mkJob QParse GnuError (L "-") None); (L "full", mkJob QTrace GnuError (L "full") None); (L "gnu", mkJob QTrace GnuError (L "-") None); (L "tags", mkJob QParse Tags (L "tags") None)].
Definition cfg (acs : list artefact_config) (rels : list relation) := mkConfig (Some 0) acs rels (Some jobs) None.
Definition A1 := ac "A" ["a.md"%string] PMarkdown None None. Definition B1 := ac "B" ["b.md"%string] PMarkdown None None. Definition C1 := ac "C" ["c.md"%string] PMarkdown None None.
Definition good := cfg [A1; B1] [rel "A" ["B"]]%string.
Definition rust_only := cfg [A1; ac "R" ["one.rs"]%string PRust None None] [rel "A" ["R"]]%string.
Definition derived := cfg [A1; C1] [rel "A" ["C"]]%string.
Definition many := cfg [A1; B1; C1; ac "D" ["missing.md"] PMarkdown (Some true) None; ac "E" ["mono.md"] PMonoRequirement (Some false) (Some true); ac "F" ["mono.md"] PMonoRequirement None None; ac "G" ["bad.md"] PMarkdown None (Some true);
  ac "N" ["none.rs"] PRust None None]%string [rel "A" ["B"; "C"]; rel "B" ["D"]]%string.
Definition graph_of (c : config) := match controller_new c B with Done x => Some (map (fun a => (art_id a, art_ignore_derived a, art_reference_with_title a)) (ovalues (g_artefacts (ctl_graph x)))) | Panic => None end.
Eval vm_compute in ("V C32"%string, map graph_of [good; many]).
Eval vm_compute in ("V C33"%string, map (fun c => match controller_new c B with Done x => Some (map (fun a => (art_id a, art_errors a)) (ovalues (g_artefacts (ctl_graph x)))) | Panic => None end) [good; many;
   cfg [ac "M" ["mono.md"; "a.md"] PMonoRequirement None (Some true); ac "R" ["ok*"] PRust None (Some true); ac "J" ["mono.md"] PMonoRequirement None (Some true)]%string []]).
Eval vm_compute in ("V C76"%string, match controller_new many B with Done x => Some (map (fun a => (art_id a, art_files a)) (ovalues (g_artefacts (ctl_graph x)))) | Panic => None end).
Definition panics (c : config) := match controller_new c B with Panic => true | _ => false end.
Eval vm_compute in ("V C34"%string, map panics [good; many; cfg [A1; B1] [rel "A" ["X"]]%string; cfg [A1; B1] [rel "X" ["A"]]%string; cfg [ac "E" ["mono.md"%string] PMarkdown None None] [rel "E" ["X"]]%string]).
Definition status (c : config) (js : list string) := snd (main_rc (Some c) B (map L js)).
Definition results (c : config) (js : list string) := match controller_new c B with Done x => Some (snd (run_jobs_by_name x (map L js) [])) | Panic => None end.
Eval vm_compute in ("V C37"%string, map (results derived) [["gnu"]; ["gnu"; "tags"]; ["tags"]; ["full"]; ["tags"; "nope"]; ["full"; "gnu"]]%string).
Definition unread := cfg [ac "A" ["missing.md"]%string PMarkdown None None] [].
Definition uncov := cfg [A1; ac "N" ["none.rs"]%string PRust None None] [rel "A" ["N"]]%string.
Eval vm_compute in ("V C38"%string, map (fun c => map (results c) [["gnu"]; ["tags"]]%string) [good; derived; rust_only; unread; uncov; many]).
Eval vm_compute in ("V C39"%string, map (fun c => map (status c) [[]; ["gnu"]; ["tags"]; ["x"]; ["full"]]%string) [good; derived; rust_only; unread]).
(* the projects are not sound: C40, C60, C85 *)
Definition N0 (c : config) : bool := match status c ["gnu"%string] with Exit 0 => false | _ => true end.
Eval vm_compute in ("T C40"%string, forallb N0 [derived; rust_only; unread; many; uncov]).
Eval vm_compute in ("T C60"%string, N0 rust_only && N0 uncov).
Definition last_open := cfg [ac "T" ["top.md"%string] PMarkdown None None; ac "M" ["mid.md"%string] PMarkdown None None; ac "R" ["one.rs"%string] PRust None None] [rel "T" ["M"]; rel "M" ["R"]]%string.
Eval vm_compute in ("T C85"%string, N0 last_open).
Eval vm_compute in ("V C56"%string, map (fun c => map (status c) [["bad"]; ["gnu"]]%string) [good; derived]).
(* C77: the order of the artefacts *)
Definition same (a b : config) : bool := match controller_new a B, controller_new b B with
  | Done x, Done y => forallb (fun p => Bool.eqb (art_ignore_derived (fst p)) (art_ignore_derived (snd p))) (combine (ovalues (g_artefacts (ctl_graph x))) (ovalues (g_artefacts (ctl_graph y)))) | _, _ => false end.
Eval vm_compute in ("T C77"%string, same (cfg [A1; B1; C1] [rel "A" ["B"; "C"]])%string (cfg [C1; B1; A1] [rel "A" ["B"; "C"]])%string).
(* C87: the recorded files agree in both worlds, the rest does not *)
Definition recorded (c : config) := match controller_new c B with Done x => flat_map art_files (ovalues (g_artefacts (ctl_graph x))) | Panic => [] end.
Definition world (known : list path) : Inputs := {| in_open := fun p => if existsb (eqb p) known then in_open p else inl (bs "# NEW_ONE: new
"); in_glob := in_glob; in_syn := in_syn; in_debug_tokens := in_debug_tokens; in_json := in_json; in_json_error := in_json_error |}.
Definition ids (i : Inputs) (c : config) := match @controller_new _ _ i c B with Done x => flat_map (fun a => map fst (art_requirements a)) (ovalues (g_artefacts (ctl_graph x))) | Panic => [] end.
Eval vm_compute in ("T C87"%string, forallb (fun c => alleq (ids ins c) (ids (world (recorded c)) c)) [good; derived; unread; many]).
(* ---- configuration *)
Definition tart (more : list (str * toml)) : toml := TTable (ocollect ([(L "id", TStr (L "A")); (L "paths", TArr [TStr (L "a.md")]); (L "parser", TStr (L "Markdown"))] ++ more)).
Definition tjob (f : toml) : toml := TTable [(L "j", TTable [(L "file", TStr (L "o")); (L "format", f); (L "query", TStr (L "Trace"))])].
Definition doc (a : toml) (more : list (str * toml)) : omap str toml := ocollect ([(L "artefacts", TArr [a]); (L "relations", TArr [])] ++ more).
Eval vm_compute in ("V C66"%string, map to_config [doc (tart []) []; doc (tart [(L "reference_with_title", TBool true)]) []; doc (tart [(L "with_title", TBool true)]) []; doc (tart [(L "paths", TArr [TStr (L "x"); TBool true])]) [];
  doc (tart []) [(L "jobs", tjob (TTable [(L "TemplateFile", TStr (L "t"))]))]; doc (tart []) [(L "jobs", tjob (TTable [(L "TemplateString", TStr (L "t"))]))]]).
#[local] Instance toml_file : TomlFile := {| tf_read := fun p => if eqb p (L "c") then inl (L "c") else inr (L "missing");
  tf_parse := fun s => inl (doc (tart [(L "ignore_derived_requirements", TBool false)]) [(L "jobs", TTable [(L "j", TTable [(L "file", TStr (L "full")); (L "format", TStr (L "GnuError")); (L "query", TStr (L "Trace"))]);
     (L "s", TTable [(L "file", TStr (L "-")); (L "format", TStr (L "GnuError")); (L "query", TStr (L "Trace"))])])]);
  tf_decode_error := fun _ => mkTomlError None (L "decode") |}.
Eval vm_compute in ("V C67"%string, map (fun x => main (mkArguments (L (fst x)) B (map L (snd x)))) [("c", ["s"]); ("c", ["j"]); ("c", ["s"; "j"]); ("c", ["no"]); ("c", []); ("d", [])]%string).
(* ---- command line *)
#[local] Instance cli_text : CliText := {| cli_help := L "help"; cli_version := L "version"; cli_usage := fun _ => L "usage" |}.
Eval vm_compute in ("V C78"%string, map (fun a => parse_args (map L a)) [["-c"; "x"; "-c"; "y"]; ["--config=a=b"]; ["--config"; "x"; "job"]; ["-qc"; "x"; "j"]; ["-V"]; ["-h"]; ["--base="; "x"]; ["--"; "-q"]]%string).
Eval vm_compute in ("V C78"%string, map (fun a => process (map L a)) [["-V"]; ["-h"]; ["--nope"]; ["--version"]]%string).
Definition out (a : list string) := let r := process (map L a) in (run_stderr r, run_stdout r).
Eval vm_compute in ("T C79"%string, eqb (fst (out ["-c"; "c"; "no"])) (fst (out ["-q"; "-c"; "c"; "no"])) && eqb (fst (out ["-c"; "d"])) (fst (out ["-q"; "-c"; "d"])))%string.
Eval vm_compute in ("T C72"%string, match mono_parse (L "dir/stem.md") (bs "title
") with Done (rs, _) => forallb (fun r => is_nil (req_tags r)) rs | Panic => true end).
Eval vm_compute in ("V C43"%string, match fmt_requirements (gr [ar "A" true false [] some_errors] []) Json with Done t => match read_json t with Some v => a_parse_report v | None => None end | Panic => None end).
Definition listed (ps : list string) : list str := match parse_files (mkArtefactConfig (L "R") (map L ps) PRust None None) B with Done (fs, rs, _) => sort_by (fun x => x) (fs ++ map req_id rs) | Panic => [] end.
Eval vm_compute in ("T C77"%string, alleq (listed ["one.rs"; "two.rs"]) (listed ["two.rs"; "one.rs"]))%string.
(* ---- C94: the same facts in other forms *)
Definition fkey (e : error) : list str := match e with
  | ECoversUnknownRequirement r id _ => [[0]; req_id r; id] | EDependOnUnknownRequirement r id _ => [[1]; req_id r; id]
  | ECoveredWithWrongTitle u l t _ => [[2]; req_id u; req_id l; t] | EDependWithWrongTitle u l t _ => [[3]; req_id u; req_id l; t]
  | EReferencedWithoutTitle r _ => [[4]; req_id r] | EDuplicateRequirement a b => [[5]; req_id a; req_id b] | EUnusedRelation _ => [[6]] | _ => [[7]] end.
Definition findings (g : graph) : list str := match trace g with Panic => [L "panic"]
  | Done t => flat_map fkey (tg_errors t) ++ flat_map (fun r => [8] :: flat_map (fun c => [cov_upper c; cov_lower c]) (tr_covered r) ++ [9] :: tr_uncovered r) (tg_relations t) ++
      flat_map (fun e => [10] :: fst e :: snd e) (tg_derived t) end.
Definition other_place (f : str) : location := new_with_no_pos f.
Definition other_ref (x : reference) := mkReference (ref_id x) (ref_title x) (other_place (L "elsewhere")).
Definition other_req (f : str) (r : requirement) := mkRequirement (req_id r) (req_title r) (other_place f) (map other_ref (req_covers r)) (map other_ref (req_depends r)) [L "tag"] [(L "Name", L "value")].
Definition other_art (a : artefact) := mkArtefact (art_id a) [] (art_ignore_derived a) (art_reference_with_title a) (map (fun e => (fst e, other_req (art_id a) (snd e))) (art_requirements a)) [].
Definition other_form (g : graph) := mkGraph (map (fun e => (fst e, other_art (snd e))) (g_artefacts g)) (g_relations g).
Definition twice := gr [ar "A" true false [rq "R1" None 1 [] []] []; ar "B" true false [rq "R1" None 2 [] []] []] [].
Eval vm_compute in ("T C94"%string, forallb (fun g => alleq (findings g) (findings (other_form g))) (twice :: gs)).
Definition exported (a : artefact) : bool := match md_parse (L "x.md") (mkReader (flat_map md_requirement (ovalues (art_requirements a))) None) with
  | Done (rs, []) => alleq (flat_map (fun r => req_id r :: refs_of r) (ovalues (art_requirements a))) (flat_map (fun r => req_id r :: refs_of r) rs) | _ => false end.
Eval vm_compute in ("T C94"%string, forallb exported (ovalues (g_artefacts (gr [ar "A" true false some_reqs []] [])))).
(* r.json says the same as one.rs *)
Definition as_json : json := match controller_new (cfg [ac "R" ["one.rs"%string] PRust None None] []) B with Done c => JArr (map json_requirement (all_reqs (ctl_graph c))) | Panic => JNull end.
Definition jins : Inputs := {| in_open := fun p => if eqb p (L "/p/r.json") then inl (bs "J") else in_open p; in_glob := in_glob; in_syn := in_syn; in_debug_tokens := in_debug_tokens;
  in_json := fun r => if eqb (rd_bytes r) (L "J") then Some as_json else in_json r; in_json_error := in_json_error |}.
Definition same_options (f : artefact_config) : bool := match @controller_new _ _ jins (cfg [A1; f] [rel "A" ["R"]]%string) B with
  | Done c => forallb (fun a => eqb (art_id a) (L "A") || Bool.eqb (art_ignore_derived a) (opt_default (ac_ignore_derived f) false) && Bool.eqb (art_reference_with_title a) (opt_default (ac_reference_with_title f) false) && negb (is_nil (art_requirements a))) (ovalues (g_artefacts (ctl_graph c)))
  | Panic => false end.
Eval vm_compute in ("T C94"%string, forallb same_options [ac "R" ["one.rs"] PRust None (Some true); ac "R" ["r.json"] PJson None (Some true); ac "R" ["r.json"] PJson (Some false) None; ac "R" ["one.rs"] PRust (Some false) None]%string).
(* ---- C80: one more reference, C81: other titles *)
Definition more := gr [ar "A" true false [rq "R1" (Some "one"%string) 1 [] []] []; ar "B" false false [rq "S1" None 1 [rf "R1" None 2] []] []] [rel "A" ["B"]]%string.
Definition more' := gr [ar "A" true false [rq "R1" (Some "one"%string) 1 [] [rf "S1" None 8]] []; ar "B" false false [rq "S1" None 1 [rf "R1" None 2] []] []] [rel "A" ["B"]]%string.
Eval vm_compute in ("T C80"%string, is_nil (flat_map tr_uncovered (tg_relations (traced more'))) && is_nil (flat_map tr_uncovered (tg_relations (traced more)))).
Definition labelled (t u : string) := gr [ar "A" true false [rq "R1" (Some "one"%string) 1 [] [rf "S1" (Some t) 8]] []; ar "B" false false [rq "S1" (Some u) 1 [] []] []] [rel "A" ["B"]]%string.
Eval vm_compute in ("T C81"%string, Nat.eqb (length (tg_errors (traced (labelled "ab" "cd")))) (length (tg_errors (traced (labelled "a" "cd"))))).
(* ---- C95 *)
Definition answer (c : controller) (q : query) (f : format) : option (bool * str) := match run c (mkJob q f (L "-") None) [] with
  | (h, ROkay s) => Some (match s with Success => true | ErrorsDetected => false end, flat_map (fun e => match e with EvWrite _ t _ => t | _ => [] end) h) | _ => None end.
Definition level1 (t : str) : list str := flat_map (fun h => match fst h with 1%nat => [snd h] | _ => [] end) (outline t).
Definition agrees (c : controller) (q : query) (f : format) : bool := match answer c q f with None => false
  | Some (b, t) => match q, f with
    | QTrace, GnuError => Bool.eqb b (forallb (fun l => match read_line l with At _ _ => false | _ => true end) (removelast (page_lines t)))
    | QTrace, Markdown => Bool.eqb b (alleq (level1 t) [L "Requirements"])
    | QParse, Markdown => Bool.eqb b (is_nil (level1 t))
    | QTrace, Json => match read_json t with Some v => match trace_value_silent v with Some x => Bool.eqb b x | None => false end | None => false end
    | QParse, Json => match read_json t with Some v => match export_value_silent v with Some x => Bool.eqb b x | None => false end | None => false end
    | _, _ => true end end.
Definition all_agree (c : controller) := agrees c QTrace GnuError && agrees c QTrace Markdown && agrees c QTrace Json && agrees c QParse Markdown && agrees c QParse Json.
Eval vm_compute in ("T C95"%string, forallb (fun cf => match controller_new cf B with Done c => all_agree c | Panic => false end) [good; derived; rust_only; unread; uncov; last_open;
  cfg [A1; C1; B1] [rel "A" ["C"]; rel "A" ["B"]]%string; cfg [ac "B" ["b.md"%string] PMarkdown None None] []; cfg [A1; B1] [rel "A" ["B"]; rel "B" ["A"]]%string]).
Eval vm_compute in ("T C57"%string, match controller_new derived B with Panic => false | Done c =>
  match answer c QTrace GnuError, fmt_tracing (ctl_traced c) GnuError, answer c QParse Tags, fmt_requirements (ctl_graph c) Tags, answer c QTrace Markdown, fmt_tracing (ctl_traced c) Markdown with
  | Some (_, t), Done t', Some (_, u), Done u', Some (_, v), Done v' => eqb t t' && eqb u u' && eqb v v' | _, _, _, _, _, _ => false end end).
(* ---- C98, C99 *)
Eval vm_compute in ("V C98"%string, builder (L "AA") [CallTag (L "t1"); CallTag (L "t2"); CallTitle (L "x"); CallTitle (L "y"); CallAttribute (L "k") (L "v"); CallAttribute (L "k") (L "w"); CallLocation (L "f:1:2"); CallCovers (L "C") None (L "f:3"); CallDepends (L "D") (Some (L "d")) (L "f:4")]).
Definition wrong (l t : string) := let u := rq "U" (Some l) 1 [] [] in map (fun e => (nth_error (page_lines (md_error e)) 4, nth_error (page_lines (md_error e)) 6))
  [ECoveredWithWrongTitle u u (L t) (new_with_line_no (L "f") 9); EDependWithWrongTitle u u (L t) (new_with_line_no (L "f") 9)].
Eval vm_compute in ("V C99"%string, (wrong "one" "two", wrong "a b" " c")).
(* C86: trace reports do not show how sort_unstable arranges errors *)
Definition other_sort : UnstableSort := {| sort_errors := fun l => sort_by show_error (rev l);
  sort_errors_perm := fun l => Permutation.perm_trans (Permutation.Permutation_rev l) (sort_by_perm show_error (rev l)); sort_errors_sorted := fun l => sort_by_sorted show_error (rev l) |}.
Definition thrice := mkConfig None [A1; ac "A2" ["a1.md"] PMarkdown None None; ac "A3" ["a2.md"] PMarkdown None None]%string [] (Some [(L "json", mkJob QTrace Json (L "-") None)]) None.
Definition jout (us : UnstableSort) := flat_map (fun e => match e with EvWrite _ t _ => t | _ => [] end) (fst (@main_rc _ _ us _ _ _ _ (Some thrice) B [L "json"])).
Eval vm_compute in ("T C86"%string, eqb (jout stable_is_unstable) (jout other_sort) && negb (is_nil (jout other_sort))).
(* ---- mutants of automut.py: C26, C55, C100, C101 *)
Eval vm_compute in ("V C26"%string, map (fun p => mono_parse (L p) (bs "title")) ["a/b.tar.gz/."; "a//"; ".git"; "a/.."; "x/.a.b"]%string).
Eval vm_compute in ("V C55"%string, map (fun a => parse_files a B) [ac "R" ["x"; "y"]%string PMarkdown None None; ac "R" ["x"; "y"; "z"]%string PJson None None; ac "R" [] PMonoRequirement None None]).
Definition place (n : N) := new_with_line_no (L "f.md") n.
Definition req_of (s : string) := rq s None 1 [] [].
Definition kinds : list error := [EDuplicateArtefact (L "m1"); EConfig (L "m1"); EDuplicateAttribute (place 3) (L "a1") (L "r1"); EDuplicateRequirement (req_of "R") (req_of "R"); EEmptyGraph; EIo (L "p1") (L "m1");
  EFormat (place 7) (L "m1"); EUnusedRelation (rel "A" ["B"%string; "C"%string]); ECoveredWithWrongTitle (req_of "A") (req_of "C") (L "t1") (place 8); ECoveredWithWrongTitle (req_of "B") (req_of "A") (L "t1") (place 8);
  EDependWithWrongTitle (req_of "A") (req_of "C") (L "t1") (place 8); EDependWithWrongTitle (req_of "B") (req_of "A") (L "t1") (place 8);
  ERequirementWithoutTitle (req_of "RA"); ECoversUnknownRequirement (req_of "RA-1") (L "u2") (place 9); EDependOnUnknownRequirement (req_of "RA-1") (L "u1") (place 9); ERequirementWithoutTitle (req_of "RA-1");
  EReferencedWithoutTitle (req_of "A") (place 9); EUnknownArtefact (L "m1")].
Definition ltext (x y : error) : bool := match cmp (show_error x) (show_error y) with Lt => true | _ => false end.
Fixpoint ascending (l : list error) : bool := match l with x :: ((y :: _) as l') => ltext x y && ascending l' | _ => true end.
Eval vm_compute in ("T C100"%string, ascending kinds).
Definition holds (e : error) (parts : list string) : bool := forallb (fun p => infixb (L p) (show_error e)) parts.
Eval vm_compute in ("T C100"%string, forallb (fun x => holds (fst x) (snd x)) (combine kinds [["m1"]; ["m1"]; ["f.md:3"; "a1"; "r1"]; ["R R"]; []; ["p1"; "m1"]; ["f.md:7"; "m1"]; ["A"; "B"; "C"]; ["A"; "C"; "t1"; "f.md:8"];
  ["B"; "A"; "t1"; "f.md:8"]; ["A"; "C"; "t1"; "f.md:8"]; ["B"; "A"; "t1"; "f.md:8"]; ["RA"]; ["RA-1"; "u2"; "f.md:9"]; ["RA-1"; "u1"; "f.md:9"]; ["RA-1"]; ["A"; "f.md:9"]; ["m1"]])%string).
Eval vm_compute in ("V C101"%string, map show_relation [rel "A" ["B"]; rel "A" ["B"; "C"]]%string).
(* ---- C69, C70, C89, C102, C103 *)
Eval vm_compute in ("V C70"%string, md_parse (L "f.md") (mkReader (L "# REQ_A: x" ++ [NL; 255; NL] ++ L "# REQ_B: y") None)).
Eval vm_compute in ("V C89"%string, map (fun c => trim [c; 65; c]) [9; 10; 11; 12; 13; 32; 28; 95]).
Definition links_to (id : string) (t : option string) := firstn 1 (targets (requirement_link (rq id t 1 [] []))) : list str.
Eval vm_compute in ("T C102"%string, negb (eqb (links_to "R_1" None) (links_to "R1" None)) && negb (eqb (links_to "AB" None) (links_to "A" (Some "b"%string))) && negb (eqb (links_to "A" None) (links_to "A" (Some ""%string)))).
Definition jloc (l : list (str * json)) := JObj ((L "file", JStr (L "f")) :: l).
Definition jref (l : list (str * json)) := unjson_requirements (JArr [JArr [JStr (L "R"); JNull; JArr [JStr (L "f"); JNull]; JArr [JObj l]; JArr []; JArr []; JObj [(L "k", JStr (L "1")); (L "k", JStr (L "2"))]]]).
Eval vm_compute in ("V C69"%string, map jref [[(L "location", jloc []); (L "id", JStr (L "A"))]; [(L "id", JStr (L "A")); (L "location", jloc []); (L "id", JStr (L "B"))];
  [(L "id", JStr (L "A")); (L "x", JNull); (L "location", jloc [(L "location_in_file", JObj [(L "Line", JNum (2 ^ 64))])])];
  [(L "id", JStr (L "A")); (L "title", JNull); (L "location", jloc [(L "location_in_file", JObj [(L "Line", JNum (2 ^ 64 - 1))])])]]).
Definition kinds2 := EDuplicateRequirement (rq "R" None 1 [] []) (rq "R" None 2 [] []) :: kinds.
Eval vm_compute in ("V C103"%string, (map show_error kinds2, map gnu_error kinds2, map md_error kinds2)).
(* ---- C104 *)
Eval vm_compute in ("T C104"%string, forallb (fun b => match mono_parse (L "a") (mkReader b None) with Panic => true | _ => false end) [[192; 128]; [224; 159; 191]; [237; 160; 128]; [240; 143; 191; 191]; [244; 144; 128; 128]; [248; 136; 128; 128]; [128]; [195]; [195; 65]]).
Eval vm_compute in ("V C104"%string, map (fun b => mono_parse (L "a") (mkReader b None)) [[194; 128]; [224; 160; 128]; [237; 159; 191]; [238; 128; 128]; [240; 144; 128; 128]; [244; 143; 191; 191]; [127]]).
(* ---- C105 *)
Definition files_at (p : string) (k : parser) (b : string) := match parse_files (ac "M" [p] k None None) (L b) with Done (fs, _, es) => Some (fs, es) | Panic => None end.
Eval vm_compute in ("V C105"%string, (map (files_at "missing.md" PMarkdown) ["/q"; "/q/"; ""; "."]%string, map (files_at "/missing.md" PMarkdown) ["/q"; ""]%string, map (files_at "ok*" PRust) ["/p"; "/q"]%string)).
Definition written_at (f b : string) := match controller_new good (L b) with Done c => fst (open_output c (mkJob QTrace Json (L f) None) []) | Panic => [] end.
Eval vm_compute in ("V C105"%string, [written_at "out.txt" "/p"; written_at "out.txt" "/p/"; written_at "out.txt" ""; written_at "/out.txt" "/p"]).
(* ---- C106 *)
Definition tag_graph := gr [ar "A" false false [rq "R_1" None 1 [] []; rq "R_10" None 2 [] []; rq "R" None 3 [] []; rq "R_2" None 4 [] []] []] [].
Eval vm_compute in ("V C106"%string, (map req_id (sort_by req_id (all_reqs tag_graph)), ovalues (tg_derived (traced tag_graph)))).
Definition rel_graph := gr [ar "A" false false [rq "R1" None 1 [] []] []; ar "B" false false [] []; ar "C" false false [rq "R2" None 1 [] []] []] [rel "B" ["A"; "C"]%string; rel "A" ["C"; "B"]%string; rel "A" ["C"%string]].
Eval vm_compute in ("V C106"%string, match aggregate (traced rel_graph) with Done ag => map (fun e => (okeys (rt_depends (snd e)), okeys (rt_covers (snd e)))) (ag_requirements ag) | Panic => [] end).
