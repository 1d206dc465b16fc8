"""Mutants of the model: realistic bugs.  Each breaks the claim it names."""
MUTANTS = []
def m(name, definition, edit, claim, *edits):
    MUTANTS.append(dict(name=name, definition=definition, edit=edit, claim=claim, edits=edits))

# --- trace.rs
T = 'Tracer.v'
m('T01', 'Tracer.that_cover_push', 'a second coverer of an id replaces the first instead of being appended', 'C01',
  (T, '| Some l => oins (ref_id cov) (l ++ [(req, cov)]) m', '| Some l => oins (ref_id cov) [(req, cov)] m'))
m('T02', 'Tracer.add_requirement', 'a duplicate id overwrites the index instead of keeping the first definition', 'C07',
  (T, '''      mkAdd (push_error t (EDuplicateRequirement old_req req))
            (ad_derived s) (ad_by_id s) (ad_that_cover s)''',
   '''      mkAdd (let t' := push_error t (EDuplicateRequirement old_req req) in
             mkTracer (t_artefacts t') (t_relations t') (t_errors t')
                      (oins (req_id req) (art_id art, req) (t_req_by_id t'))
                      (t_invalid_depends t') (t_invalid_covers t'))
            (ad_derived s) (ad_by_id s) (ad_that_cover s)'''))
m('T03', 'Tracer.add_requirement', 'the two requirements of DuplicateRequirement are swapped', 'C07',
  (T, '(EDuplicateRequirement old_req req)', '(EDuplicateRequirement req old_req)'))
m('T04', 'Tracer.add_requirement', 'a duplicate is still indexed in its own artefact', 'C07',
  (T, '''            (ad_derived s) (ad_by_id s) (ad_that_cover s)
  | None''', '''            (ad_derived s) (oins (req_id req) req (ad_by_id s)) (ad_that_cover s)
  | None'''))
m('T05', 'Tracer.add_requirement', 'covers of the requirement are not registered as links to check', 'C04',
  (T, '''                  inv_dep inv_cov)''', '''                  inv_dep (t_invalid_covers t))'''))
m('T06', 'Tracer.add_requirement', 'the flag ignore_derived_requirements is inverted', 'C03',
  (T, '(if negb (art_ignore_derived art) then', '(if art_ignore_derived art then'))
m('T07', 'Tracer.trace_depends', 'a depends link does not clear the derived mark', 'C03',
  (T, 'let t2 := remove_derived t1 lower lower_artefact (req_id lower_requirement) in\n      let t3 := remove_invalid_depends',
      'let t2 := t1 in\n      let t3 := remove_invalid_depends'))
m('T08', 'Tracer.trace_depends', 'pair of ids swapped when the link is marked as valid', 'C04',
  (T, 'remove_invalid_depends t2 (req_id upper_requirement, req_id lower_requirement)',
      'remove_invalid_depends t2 (req_id lower_requirement, req_id upper_requirement)'))
m('T09', 'Tracer.trace_depends', 'the title of the upper requirement is compared', 'C05',
  (T, '(option_eqb str_eqb (Some title) (req_title lower_requirement))',
      '(option_eqb str_eqb (Some title) (req_title upper_requirement))'))
m('T10', 'Tracer.trace_depends', 'a missing title is not reported', 'C06',
  (T, '''            if art_reference_with_title (ta_artefact lower_artefact) then
              push_error t (EReferencedWithoutTitle lower_requirement (ref_location depends))
            else t''', '''            t'''))
m('T11', 'Tracer.trace_covers', 'reference_with_title of the lower artefact is asked for covers links', 'C06',
  (T, 'if art_reference_with_title upper_artefact then', 'if art_reference_with_title (ta_artefact lower_artefact) then'))
m('T12', 'Tracer.trace_covers', 'direction Downwards for a covers link', 'C01',
  (T, '(ref_location covers) Upwards])', '(ref_location covers) Downwards])'))
m('T13', 'Tracer.trace_covers', 'location of the lower requirement in place of that of the reference', 'C01',
  (T, '(ref_location covers) Upwards])', '(req_location lower_requirement) Upwards])'))
m('T14', 'Tracer.trace_covers', 'the error for a wrong title has the location of the requirement, not of the reference', 'C05',
  (T, '''          push_error t (ECoveredWithWrongTitle upper_requirement lower_requirement
                                               title (ref_location covers))
        else t
    | None =>''', '''          push_error t (ECoveredWithWrongTitle upper_requirement lower_requirement
                                               title (req_location lower_requirement))
        else t
    | None =>'''))
m('T15', 'Tracer.trace_upper', 'is_covered is not reset for each requirement', 'C02',
  (T, 'let s0 := mkRel (rs_tracer s) (rs_any s) (rs_covered s) (rs_uncovered s) false in',
      'let s0 := s in'))
m('T16', 'Tracer.trace_upper', 'upward links of the first lower artefact only', 'C01',
  (T, 'for_each (rel_lower relation) (trace_lower upper_artefact upper_requirement) s1 in',
      'for_each (firstn 1 (rel_lower relation)) (trace_lower upper_artefact upper_requirement) s1 in'))
m('T17', 'Tracer.trace_upper', 'any-flag takes only the last requirement', 'C08',
  (T, '(rs_any s2 || rs_is_covered s2)', '(rs_is_covered s2)'))
m('T18', 'Tracer.trace_relation', 'UnusedRelation not reported', 'C08',
  (T, 'let t1 := if negb (rs_any s) then push_error (rs_tracer s) (EUnusedRelation relation)\n            else rs_tracer s in',
      'let t1 := rs_tracer s in'))
m('T19', 'Tracer.trace_relation', 'relations are put in front', 'C11',
  (T, '(t_relations t1 ++ [mkTracedRelation relation (rs_covered s) (rs_uncovered s)])',
      '(mkTracedRelation relation (rs_covered s) (rs_uncovered s) :: t_relations t1)'))
m('T20', 'Tracer.validate_upwards', 'reports the location of the requirement, not of the reference', 'C04',
  (T, '(ECoversUnknownRequirement req upper_id (ref_location reference))',
      '(ECoversUnknownRequirement req upper_id (req_location req))'))
m('T21', 'Tracer.validate', 'depends links are not validated', 'C04',
  (T, 'let* t1 := validate_upwards t in validate_downwards t1.', 'validate_upwards t.'))
m('T22', 'Tracer.tracer_data', 'derived lists emptied', 'C03',
  (T, '(ocollect (map (fun e => (fst e, ta_derived (snd e))) (t_artefacts t)))', '(ocollect (map (fun e => (fst e, [])) (t_artefacts t)))'))
m('T23', 'Tracer.trace_lower', 'unknown lower artefact is skipped', 'C09',
  (T, '''  let* lower_artefact := unwrap (oget lower_id (t_artefacts (rs_tracer s))) in
  match oget (req_id upper_requirement)''', '''  match oget lower_id (t_artefacts (rs_tracer s)) with None => Done s | Some lower_artefact =>
  match oget (req_id upper_requirement)'''),
  (T, '''(trace_covers upper_artefact upper_requirement lower_id) s
  end.''', '''(trace_covers upper_artefact upper_requirement lower_id) s
  end end.'''))
m('T24', 'Tracer.validate_downwards', 'the reference is searched among covers', 'C09',
  (T, 'lower_id) (req_depends req))', 'lower_id) (req_covers req))'))
m('T25', 'Tracer.trace_covers', 'a wrong title makes the link void', 'C05',
  (T, '''  let* lower_artefact := unwrap (oget lower_id (t_artefacts t)) in
  let t1 :=
    match ref_title covers with''', '''  let* lower_artefact := unwrap (oget lower_id (t_artefacts t)) in
  if match ref_title covers with Some x => negb (option_eqb str_eqb (Some x) (req_title upper_requirement)) | None => false end then Done s else
  let t1 :=
    match ref_title covers with'''))
m('T26', 'Tracer.trace_upper', 'a requirement with a depends link counts as uncovered', 'C80',
  (T, 'let unc := if negb (rs_is_covered s2)', 'let unc := if negb (xorb (rs_is_covered s1) (rs_is_covered s2))'))
m('T27', 'Tracer.trace_depends', 'titles are compared by their length', 'C81',
  (T, '(option_eqb str_eqb (Some title) (req_title lower_requirement))', '(match req_title lower_requirement with Some x => Nat.eqb (length title) (length x) | None => false end)'))
m('T28', 'Tracer.trace_upper', 'requirements without location count as covered', 'C81',
  (T, 'let unc := if negb (rs_is_covered s2)', 'let unc := if negb (rs_is_covered s2 || match loc_in_file (req_location upper_requirement) with None => true | _ => false end)'))
m('T29', 'Tracer.trace_relation', 'only first definitions are traced as upper requirements (a fix)', 'C07',
  (T, 'let* s := for_each (ovalues (art_requirements upper_artefact))', 'let* s := for_each (ovalues (ta_by_id ta))'))
# --- aggregator.rs
A = 'Aggregator.v'
m('A01', 'Aggregator.agg_coverage', 'the entry of the upper requirement names itself, not the lower one', 'C15',
  (A, '(push_depends rel (lower_req, cov_location cov))', '(push_depends rel (upper_req, cov_location cov))'))
m('A02', 'Aggregator.agg_relation', 'relation stored as upper of its upper artefact', 'C16',
  (A, 'upd (rel_upper rel) (push_lower tr) (fst s)', 'upd (rel_upper rel) (push_upper tr) (fst s)'))
m('A03', 'Aggregator.agg_lower', 'no empty covers entry for lower requirements', 'C14',
  (A, '''(fun m id => upd id (insert_covers (tr_relation tr)) m) (snd s) in
  Done (arts, reqs)''', '''(fun m id => upd id (fun r => Done r) m) (snd s) in
  Done (arts, reqs)'''))
m('A04', 'Aggregator.push_covers', 'newest coverage first', 'C15',
  (A, '''  let* c := upd rel (fun l => Done (l ++ [x])) (rt_covers r) in''', '''  let* c := upd rel (fun l => Done (x :: l)) (rt_covers r) in'''))
m('A05', 'Aggregator.agg_coverage', 'the covers entry is not written', 'C15',
  (A, '''  upd (cov_lower cov) (push_covers rel (upper_req, cov_location cov)) reqs1.''', '''  Done reqs1.'''))
m('A06', 'Aggregator.aggregate', 'coverage of the first relation only', 'C15',
  (A, '''  let* reqs := for_each (tg_relations tg)
                 (fun m tr''', '''  let* reqs := for_each (firstn 1 (tg_relations tg))
                 (fun m tr'''))
m('A07', 'Aggregator.agg_init_requirements', 'the artefact stored with a requirement is the first artefact', 'C15',
  (A, 'mkRT [] [] a (snd e)', 'mkRT [] [] (match ovalues (tg_artefacts tg) with b :: _ => b | [] => a end) (snd e)'))
# --- parsers/markdown.rs
X = 'MdLex.v'
m('M01', 'MdLex.re_id', 'ids of one character are accepted', 'C21',
  (X, 'Definition re_id : re := Seq (Cls xid_start) (Plus true (Cls xid_continue)).',
      'Definition re_id : re := Seq (Cls xid_start) (Star true (Cls xid_continue)).'))
m('M02', 'MdLex.REQUIREMENT_LINE', 'greedy title: white space at the end stays in the group (then trimmed)', 'C52',
  (X, '(Seq re_ws (Seq (Grp 3 (Plus false (Cls dot))) (Seq re_ws Eol))))))).',
      '(Seq re_ws (Seq (Grp 3 (Plus true (Cls dot))) Eol)))))).'))
m('M03', 'MdLex.ATTRIBUTE_LINE', 'attribute names of one letter are accepted', 'C52',
  (X, '(Plus true (Cls is_lower_ascii))', '(Star true (Cls is_lower_ascii))'))
m('M04', 'MdLex.REF_LINK_LINE', 'the bullet is anchored (a fix)', 'C51',
  (X, 'Seq (Star true Bol) (Seq (Plus true (Cls is_ws))', 'Seq Bol (Seq (Chr 42) (Seq (Plus true (Cls is_ws))'),
  (X, '''      (Seq (Opt (Seq (Chr COLON) (Seq re_ws (Grp 2 (Plus false (Cls dot)))))) (Seq re_ws Eol)))).
End Lex.''', '''      (Seq (Opt (Seq (Chr COLON) (Seq re_ws (Grp 2 (Plus false (Cls dot)))))) (Seq re_ws Eol))))).
End Lex.'''))
P = 'MdParser.v'
m('M05', 'MdParser.ctx_location', 'line numbers count from 0', 'C18',
  (P, 'new_with_line_no p (c_line c).', 'new_with_line_no p (c_line c - 1).'))
m('M06', 'MdParser.commit_link_attr', 'references are added to the earlier list instead of replacing it', 'C24',
  (P, '(set_ruc c (Some (set_covers r v)))', '(set_ruc c (Some (set_covers r (req_covers r ++ v))))'))
m('M07', 'MdParser.commit_link_attr', 'Depends is stored as Covers', 'C52',
  (P, '(set_ruc c (Some (set_depends r v)))', '(set_ruc c (Some (set_covers r v)))'))
m('M08', 'MdParser.add_req', 'the pending requirement is not committed', 'C18',
  (P, 'let c := maybe_commit_req c in\n    let* g1', 'let* g1'))
m('M09', 'MdParser.add_req', 'title is not trimmed (no effect: the expression has removed white space)', 'none (equivalent)',
  (P, '(Some (trim g3))', '(Some g3)'))
m('M10', 'MdParser.parse_link_attr', 'ids of the short list are not trimmed', 'C21',
  (P, '         let id := trim id in\n', ''))
m('M11', 'MdParser.start_attribute', 'no error for a duplicate text attribute', 'C24',
  (P, 'let c := match oget attr (req_attributes r) with None => c | Some _ => dup end in', 'let c := c in'))
m('M12', 'MdParser.start_attribute', 'a second Depends is checked against covers', 'C24',
  (P, 'let c := match req_depends r with [] => c | _ => dup end in', 'let c := match req_covers r with [] => c | _ => dup end in'))
m('M13', 'MdParser.parse_state_empty', 'an empty line in a text attribute ends it', 'C52',
  (P, '| CollectTextAttr attr val => Done (c, CollectTextAttr attr (val ++ [NL]))',
      '| CollectTextAttr attr val => let* c := commit_attr c attr val in Done (c, LookForAttr)'))
m('M14', 'MdParser.parse_state_line', 'the lost line of the description is kept (a fix)', 'C23',
  (P, '| None => Done (c, CollectDesc desc)\n', '| None => Done (c, CollectDesc (desc ++ line))\n'))
m('M15', 'MdParser.parse_state_line', 'after a missing attribute line the parser goes on looking for attributes', 'C52',
  (P, '''(L "Expected an Attribute line like `Comment:`")),
                  LookForReq)''', '''(L "Expected an Attribute line like `Comment:`")),
                  LookForAttr)'''))
m('M16', 'MdParser.parse_state_line', 'references before a bad bullet are dropped', 'C52',
  (P, '''                let* c := commit_link_attr c attr v in
                Done (push_error c (EFormat''', '''                Done (push_error c (EFormat'''))
m('M17', 'MdParser.parse_state_line', 'no error for a bad bullet', 'C52',
  (P, '''Done (push_error c (EFormat (ctx_location c) (L "Expected a Reference like `* REQ_ID: Title`")),
                      LookForReq)''', '''Done (c, LookForReq)'''))
m('M18', 'MdParser.parse_state_eof', 'the last text attribute is lost at the end of the file', 'C52',
  (P, '''        let* c := commit_attr c attr val in Done (maybe_commit_req c, LookForReq)
    | CollectRefLink''', '''        Done (maybe_commit_req c, LookForReq)
    | CollectRefLink'''))
m('M19', 'MdParser.parse_state_eof', 'pending requirement committed in every state (a fix)', 'C18',
  (P, '| LookForReq => Done (c, LookForReq)\n    | LookForDesc => Done (maybe', '| LookForReq => Done (maybe_commit_req c, LookForReq)\n    | LookForDesc => Done (maybe'))
m('M20', 'MdParser.parse_state_heading', 'a heading continues a reference list', 'C52',
  (P, '| CollectRefLink attr v => let* c := commit_link_attr c attr v in Done (c, LookForReq)',
      '| CollectRefLink attr v => Done (c, CollectRefLink attr v)'))
m('M21', 'MdParser.parse_state_req', 'a requirement heading loses a pending description', 'C20',
  (P, '''      | CollectDesc desc | CollectDescNl desc => commit_attr c ATTR_DESCRIPTION desc
      | CollectTextAttr attr val => commit_attr c attr val
      | CollectRefLink''', '''      | CollectTextAttr attr val => commit_attr c attr val
      | CollectRefLink'''))
m('M22', 'MdParser.line_event', 'no assertion on one-byte lines', 'C17',
  (P, 'if starts_with_c NL line then Done EvEmpty else Panic', 'if starts_with_c NL line then Done EvEmpty else Done (EvLine line)'))
m('M23', 'MdParser.parse_loop', 'parsing goes on after a read error', 'C18',
  (P, "| RErr m :: _ => Done (push_error c (EIo p m))", "| RErr m :: rs' => parse_loop rs' st (push_error c (EIo p m))"))
m('M24', 'MdParser.parse_loop', 'a read error commits the pending requirement (a fix)', 'C18',
  (P, "| RErr m :: _ => Done (push_error c (EIo p m))", "| RErr m :: _ => Done (push_error (maybe_commit_req c) (EIo p m))"))
m('M25', 'MdParser.line_event', 'heading is tested before requirement heading', 'C18',
  (P, '''      match captures REQUIREMENT_LINE line with
      | Some caps => Done (EvReq caps)
      | None => if is_match HEADING_LINE line then Done EvHeading else Done (EvLine line)
      end.''', '''      if is_match HEADING_LINE line then Done EvHeading else
      match captures REQUIREMENT_LINE line with
      | Some caps => Done (EvReq caps)
      | None => Done (EvLine line)
      end.'''))
# --- parsers/monoreq.rs
O = 'MonoParser.v'
m('O01', 'MonoParser.mono_loop', 'the line number of a reference is 0-based', 'C26',
  (O, '(new_with_line_no p (no + 1)) in', '(new_with_line_no p no) in'))
m('O02', 'MonoParser.mono_loop', 'the first line is also searched for a reference', 'C26',
  (O, '| None => mono_loop (no + 1) (Some line) depends l\'', '''| None => mono_loop (no + 1) (Some line)
                    (match captures MONO_REF_LINK line with
                     | Some caps => match group 1 caps with
                                    | Some id => [mkReference id (group 2 caps) (new_with_line_no p (no + 1))]
                                    | None => depends end
                     | None => depends end) l\''''))
m('O03', 'MonoParser.mono_parse', 'references stored as covers', 'C26',
  (O, '(new_with_no_pos p) [] depends [] []]', '(new_with_no_pos p) depends [] [] []]'))
m('O04', 'MonoParser.MONO_REF_LINK', 'white space at the end of the line is not allowed', 'C26',
  (O, '(Seq (Opt (Seq (Chr COLON) (Seq re_ws (Grp 2 (Plus false (Cls dot)))))) (Seq re_ws Eol))))).',
      '(Seq (Opt (Seq (Chr COLON) (Seq re_ws (Grp 2 (Plus false (Cls dot)))))) Eol)))).'))
m('O05', 'MonoParser.mono_loop', 'a read error ends the loop silently', 'C26',
  (O, '| RErr _ :: _ => Panic (* todo!() *)', '| RErr _ :: _ => Done (title, depends)'))
m('O06', 'Paths.file_stem', 'the stem ends at the first dot', 'C26',
  ('Paths.v', '''      match rsplit_once sep s' with
      | Some (a, b) => Some (c :: a, b)
      | None => if c =? sep then Some ([], s') else None
      end''', '''      if c =? sep then Some ([], s') else
      match rsplit_once sep s' with
      | Some (a, b) => Some (c :: a, b)
      | None => None
      end'''))
# --- models.rs: locations
Lo = 'Location.v'
m('L01', 'Location.show_in_file', 'line and column swapped', 'C29',
  (Lo, 'show_N n ++ [COLON] ++ show_N c', 'show_N c ++ [COLON] ++ show_N n'))
m('L02', 'Location.cmp_in_file', 'columns are not compared', 'C30',
  (Lo, '''      | Line l' => Some (cmp_pair (l, c) (l', 0))
      | LineAndColumn l' c' => Some (cmp_pair (l, c) (l', c'))''', '''      | Line l' => Some (cmp_pair (l, c) (l', 0))
      | LineAndColumn l' c' => Some (N.compare l l')'''))
m('L03', 'Location.LOCATION_RE', 'greedy file name', 'C29',
  (Lo, '(Seq (Grp 1 (Plus false (Cls dot)))\n', '(Seq (Grp 1 (Plus true (Cls dot)))\n'))
m('L04', 'Location.parse_location', 'a line number that does not fit gives a location without position, no error', 'C29',
  (Lo, '| inr e => inr (L "Error parsing line " ++ line ++ L ": " ++ e)', '| inr e => inl (mkLocation file None)'))
m('L05', 'Location.cmp_in_file', 'a line is greater than a text position', 'C30',
  (Lo, '''      | Line l' => Some (N.compare l l')
      | LineAndColumn l' c' => Some (cmp_pair (l, 0) (l', c'))
      | LocString _ => None''', '''      | Line l' => Some (N.compare l l')
      | LineAndColumn l' c' => Some (cmp_pair (l, 0) (l', c'))
      | LocString _ => Some Gt'''))
m('L06', 'Location.parse_digits', 'numbers up to and including 2^64 are accepted', 'C29',
  (Lo, '(c - 48) <? USIZE then', '(c - 48) <=? USIZE then'))
# --- parsers/rust.rs
R = 'RustParser.v'
m('R01', 'RustParser.add_reference', 'merged with any earlier requirement, not by id', 'C27',
  (R, 'if eqb (req_id r) id\n', 'if true\n'))
m('R02', 'RustParser.add_reference', 'never merged', 'C27',
  (R, 'if eqb (req_id r) id\n', 'if false\n'))
m('R03', 'RustParser.impl_symbol', 'negative impl looks like a positive one', 'C27',
  (R, 'L " as !" ++', 'L " as " ++'))
m('R04', 'RustParser.visit', 'parts of an impl block are not visited', 'C27',
  (R, 'let* s\' := visit_all kids (rs_enter s (impl_symbol ty tr) a) in rs_leave s\'',
      'Done s'))
m('R05', 'RustParser.rs_leave', 'the scope is not popped', 'C27',
  (R, '(removelast (rs_scope s)) (removelast (rs_locations s))', '(rs_scope s) (removelast (rs_locations s))'))
m('R06', 'RustParser.read_mark', 'two tokens are accepted', 'C27',
  (R, '''    | [t0; _; t2] =>
''', '''    | [t0; t2] | [t0; _; t2] =>
'''))
m('R07', 'RustParser.add_reference', 'location of the mark in place of that of the scope', 'C27',
  (R, '[mkRequirement id None loc [x] [] [] []]', '[mkRequirement id None (ref_location x) [x] [] [] []]'))
m('R08', 'RustParser.unquote', 'only the outer quotes are removed (a fix)', 'C54',
  (R, 'Some (filter (fun c => negb (c =? QUOTE)) t)', 'Some (removelast (tl t))'))
m('R09', 'RustParser.visit', 'item macros count (a fix)', 'C53',
  (R, '| NItemMacro _ _ => Done s', '| NItemMacro segments tokens => parse_macro s segments tokens'))
m('R10', 'RustParser.parse_macro', 'the last path segment counts (a fix)', 'C53',
  (R, '''    match segments with
    | [(name, a)] =>
        if eqb name (L "requirement_covered") then''', '''    match rev segments with
    | (name, a) :: _ =>
        if eqb name (L "requirement_covered") then'''))
m('R11', 'RustParser.parse_macro', 'a malformed mark is skipped', 'C27',
  (R, '| inr e => Done (rs_push_error s e)', '| inr e => Done s'))
m('R12', 'RustParser.rust_parse', 'a syntax error without error', 'C27',
  (R, '| inr (a, msg) => Done ([], [EFormat (location_from_span a) msg])', '| inr (a, msg) => Done ([], [])'))
# --- controller.rs
K = 'Controller.v'
m('K01', 'Controller.glob_entries', 'an unreadable match is skipped', 'C55',
  (K, '| inr (p, m) :: _ => inr (EIo p m)', "| inr (p, m) :: l' => glob_entries l'"))
m('K02', 'Controller.glob_paths', 'the base directory is prepended to absolute paths too', 'C55',
  (K, '(if is_absolute p then p else base ++ L "/" ++ p)', '(base ++ L "/" ++ p)'))
m('K03', 'Controller.parse_single_file', 'several paths: the first is used', 'C55',
  (K, '    | [p0] =>\n', '    | p0 :: _ =>\n'))
m('K04', 'Controller.parse_next_file', 'an unreadable file drops the requirements of the files before it', 'C55',
  (K, '| inr m => Done (fst s, snd s ++ [EIo p m])\n    | inl r =>\n        let* res := match ac_parser ac with\n                    | PRust',
      '| inr m => Done ([], snd s ++ [EIo p m])\n    | inl r =>\n        let* res := match ac_parser ac with\n                    | PRust'))
m('K05', 'Controller.store', 'a later requirement replaces the stored one', 'C31',
  (K, '| Some old => (fst s, snd s ++ [EDuplicateRequirement old r])', '| Some old => (oins (req_id r) r (fst s), snd s ++ [EDuplicateRequirement old r])'))
m('K06', 'Controller.store', 'no error for a duplicate', 'C31',
  (K, '| Some old => (fst s, snd s ++ [EDuplicateRequirement old r])', '| Some old => s'))
m('K07', 'Controller.parse_from_config', 'errors of the parser are dropped', 'C31',
  (K, 'let s := fold_left store reqs ([], errs) in', 'let s := fold_left store reqs ([], []) in'))
m('K08', 'Controller.roots_relation', 'the upper artefact is marked as no root, too', 'C32',
  (K, '| Some _ => for_each (rel_lower rel) roots_lower m\n', '| Some _ => for_each (rel_upper rel :: rel_lower rel) roots_lower m\n'))
m('K09', 'Controller.roots_relation', 'only the first lower artefact is marked', 'C32',
  (K, '| Some _ => for_each (rel_lower rel) roots_lower m\n', '| Some _ => for_each (firstn 1 (rel_lower rel)) roots_lower m\n'))
m('K10', 'Controller.add_artefact', 'the configured value for ignore_derived is ignored', 'C32',
  (K, 'let ignore := opt_default (ac_ignore_derived ac) root in', 'let ignore := root in'))
m('K11', 'Controller.add_artefact', 'requirements without title are always reported', 'C33',
  (K, "let errs' := if with_title then errs ++ untitled else errs in", "let errs' := errs ++ untitled in"))
m('K12', 'Controller.add_artefact', 'errors for missing titles before the parse errors', 'C33',
  (K, "let errs' := if with_title then errs ++ untitled else errs in", "let errs' := if with_title then untitled ++ errs else errs in"))
m('K13', 'Controller.open_output', 'the directories are not made', 'C57',
  (K, '''        | Some d => let r := out_make_dirs h d in
                    (h ++ [EvMakeDirs d r], match r with Some m => Some (d, m) | None => None end)''',
      '''        | Some d => (h, None)'''))
m('K14', 'Controller.open_output', 'relative to the working directory', 'C57',
  (K, 'if is_absolute (job_file j) then job_file j else path_join (ctl_base c) (job_file j) in', 'job_file j in'))
m('K15', 'Controller.errors_detected', 'derived requirements do not count', 'C38',
  (K, ''' ||
        existsb (fun d => negb (is_nil d)) (ovalues (tg_derived tg))''', ''''''))
m('K16', 'Controller.errors_detected', 'parse errors do not count in a Trace job', 'C38',
  (K, '''        existsb (fun a => negb (is_nil (art_errors a))) (ovalues (tg_artefacts tg)) ||
''', ''''''))
m('K17', 'Controller.run', 'a write error is ignored', 'C37',
  (K, '(h1 ++ [EvWrite s (firstn n text) (Some m)], RFail (CIo (job_file j) m))', '(h1 ++ [EvWrite s (firstn n text) (Some m)], ROkay Success)'))
m('K18', 'Controller.run', 'the report is made before the output is opened (a fix)', 'C41',
  (K, '''    match open_output c j h with
    | (h1, RFail e) => (h1, RFail e)
    | (h1, RPanic) => (h1, RPanic)
    | (h1, ROkay s) =>
        match job_text c j with
        | Panic => (h1, RPanic)
        | Done text =>''', '''    match job_text c j with
    | Panic => (h, RPanic)
    | Done text =>
        match open_output c j h with
        | (h1, RFail e) => (h1, RFail e)
        | (h1, RPanic) => (h1, RPanic)
        | (h1, ROkay s) =>'''))
m('K19', 'Controller.run_jobs', 'set_return_code defaults to false', 'C37',
  (K, 'if opt_default (job_set_return_code j) true then', 'if opt_default (job_set_return_code j) false then'))
m('K20', 'Controller.run_jobs', 'a later success resets the result', 'C37',
  (K, "| (h1, ROkay Success) => run_jobs c jobs' success h1", "| (h1, ROkay Success) => run_jobs c jobs' Success h1"))
m('K21', 'Controller.run_jobs', 'jobs go on after a failure', 'C37',
  (K, '        | (h1, r) => (h1, r)\n        end\n    end.', "        | (h1, r) => (fst (run_jobs c jobs' success h1), r)\n        end\n    end."))
m('K22', 'Controller.find_jobs', 'unknown jobs are skipped', 'C36',
  (K, '| None => inr (CUnknownJob n)', "| None => find_jobs c names'"))
m('K23', 'Controller.get_config', 'version 1 is accepted', 'C39',
  (K, 'if CONFIG_VERSION <? v then None', 'if CONFIG_VERSION + 1 <? v then None'))
m('K24', 'Controller.main_rc', 'exit status 2 when errors are detected', 'C39',
  (K, '| (h, ROkay ErrorsDetected) => (h, Exit 1)', '| (h, ROkay ErrorsDetected) => (h, Exit 2)'))
m('K25', 'Controller.run_cli_jobs', 'default jobs run in addition', 'C39',
  (K, 'if is_nil jobs then run_default_jobs c h else run_jobs_by_name c jobs h.', 'if is_nil jobs then run_default_jobs c h else run_jobs_by_name c (ctl_default_jobs c ++ jobs) h.'))
m('K26', 'Controller.run_default_jobs', 'no default jobs: success', 'C39',
  (K, '(h, RFail (CConfig (L "no default_jobs configured")))', '(h, ROkay Success)'))
m('K27', 'Controller.job_text', 'a Trace job formats the requirements', 'C57',
  (K, '| QTrace => fmt_tracing (ctl_traced c) (job_format j)', '| QTrace => fmt_requirements (ctl_graph c) (job_format j)'))
m('K28', 'Controller.json_parse', 'a JSON error gives no error', 'C55',
  (K, 'let failed := ([], [EFormat (new_with_no_pos p) (in_json_error r)]) in', 'let failed := ([], []) in'))
# --- formatters
F = 'MdFmt.v'; G = 'GnuErr.v'; S = 'Serialize.v'
m('F01', 'Tags.tag_line', 'column in place of the line', 'C42',
  ('Tags.v', '''  | Some (Line n) | Some (LineAndColumn n _) =>
''', '''  | Some (Line n) | Some (LineAndColumn _ n) =>
'''))
m('F02', 'Tags.tags_requirements', 'not sorted', 'C42',
  ('Tags.v', 'concat (sort_by (fun l => l)\n', 'concat (id\n'))
m('F03', 'Serialize.json_requirements', 'errors not exported', 'C43',
  (S, '(L "errors", jlist json_error (sort_errors errs))].\n  (** serialize', '(L "errors", jlist json_error [])].\n  (** serialize'))
m('F04', 'Serialize.json_requirements', 'requirements not sorted', 'C43',
  (S, 'jlist json_requirement (sort_by req_id reqs)', 'jlist json_requirement reqs'))
m('F05', 'Serialize.json_reference', 'title left out', 'C49',
  (S, '''  JObj [(L "id", JStr (ref_id r)); (L "title", jopt JStr (ref_title r));
        (L "location", json_location (ref_location r))].''', '''  JObj [(L "id", JStr (ref_id r));
        (L "location", json_location (ref_location r))].'''))
m('F06', 'Serialize.json_in_file', 'line and column exchanged', 'C49',
  (S, '(JArr [JNum n; JNum c])', '(JArr [JNum c; JNum n])'))
m('F07', 'Serialize.json_error', 'upper and lower exchanged in DependWithWrongTitle', 'C43',
  (S, '''  | EDependWithWrongTitle u l t loc =>
      variant "DependWithWrongTitle"
        (JObj [(L "upper", json_requirement u); (L "lower", json_requirement l);''', '''  | EDependWithWrongTitle u l t loc =>
      variant "DependWithWrongTitle"
        (JObj [(L "upper", json_requirement l); (L "lower", json_requirement u);'''))
m('F08', 'GnuErr.gnu_error', 'place of the requirement in place of that of the reference', 'C44',
  (G, '''        show_location loc ++ L ": " ++ req_id r ++ L " Covers unknown requirement "''', '''        show_location (req_location r) ++ L ": " ++ req_id r ++ L " Covers unknown requirement "'''))
m('F09', 'GnuErr.gnu_error', 'the unknown id is not named', 'C44',
  (G, '''L " Depends on unknown requirement " ++ id ++ [NL]''', '''L " Depends on unknown requirement" ++ [NL]'''))
m('F10', 'GnuErr.gnu_error', 'wrong title: expected and actual exchanged', 'C44',
  (G, '''        debug_str (opt_default (req_title u) NO_TITLE) ++ L ", actual " ++ debug_str t ++ [NL] ++''', '''        debug_str t ++ L ", actual " ++ debug_str (opt_default (req_title u) NO_TITLE) ++ [NL] ++'''))
m('F11', 'GnuErr.gnu_error', 'wrong title: the expected title of the other requirement', 'C44',
  (G, '''    | EDependWithWrongTitle _ l t loc =>
        show_location loc ++ L ": " ++ req_id l ++ L " depended with wrong title. Expected " ++
        debug_str (opt_default (req_title l) NO_TITLE)''', '''    | EDependWithWrongTitle u l t loc =>
        show_location loc ++ L ": " ++ req_id l ++ L " depended with wrong title. Expected " ++
        debug_str (opt_default (req_title u) NO_TITLE)'''))
m('F12', 'GnuErr.gnu_tracing', 'derived requirements not reported', 'C44',
  (G, 'L "Derived Requirement" ++ [NL] ++ concat ds).', 'L "Derived Requirement" ++ [NL]).'))
m('F13', 'GnuErr.gnu_uncovered', 'looked up in the wrong artefact', 'C44',
  (G, 'mapO (gnu_uncovered tg (rel_upper (tr_relation t))) (tr_uncovered t)', 'mapO (gnu_uncovered tg (match rel_lower (tr_relation t) with x :: _ => x | [] => [] end)) (tr_uncovered t)'))
m('F14', 'GnuErr.gnu_tracing', 'parse errors of the first artefact only', 'C44',
  (G, '(flat_map art_errors (ovalues (tg_artefacts tg)))', '(flat_map art_errors (firstn 1 (ovalues (tg_artefacts tg))))'))
m('F15', 'MdFmt.slug', 'blanks are removed instead of becoming dashes', 'C46',
  (F, 'filter slug_char (map (fun c => if c =? 32 then 45 else c) (to_lowercase s)).', 'filter slug_char (to_lowercase s).'))
m('F16', 'MdFmt.requirement_link', 'the anchor of the id alone', 'C46',
  (F, '''    | Some t => L "[" ++ req_id r ++ L "](#" ++ slug (req_id r ++ L "-" ++ t) ++''', '''    | Some t => L "[" ++ req_id r ++ L "](#" ++ slug (req_id r) ++'''))
m('F17', 'MdFmt.location_link', 'the column in the link target', 'C45',
  (F, '''L "?plain=1#L" ++
        show_N n ++ L ")"''', '''L "?plain=1#L" ++
        show_N c ++ L ")"'''))
m('F18', 'MdFmt.md_error', 'no place for an unknown covers reference', 'C45',
  (F, '''L " covers unknown Requirement " ++ id ++ [NL] ++
        L "    " ++ location_link loc ++ [NL]''', '''L " covers unknown Requirement " ++ id ++ [NL]'''))
m('F19', 'MdFmt.md_error', 'title of the lower requirement for a wrong covers title', 'C45',
  (F, '''        L "    *   Title of Upper Requirement:" ++ [NL] ++
        L "        *    " ++ TICKS ++ opt_default (req_title u) []''', '''        L "    *   Title of Upper Requirement:" ++ [NL] ++
        L "        *    " ++ TICKS ++ opt_default (req_title l) []'''))
m('F20', 'MdFmt.md_error', 'places of a duplicate in the right order (a fix)', 'C47',
  (F, '''        L "    first seen in " ++ location_link (req_location r2) ++ [NL] ++
        L "    then again in " ++ location_link (req_location r1) ++ [NL]''', '''        L "    first seen in " ++ location_link (req_location r1) ++ [NL] ++
        L "    then again in " ++ location_link (req_location r2) ++ [NL]'''))
m('F21', 'MdFmt.md_distinct', 'repeated texts are printed again', 'C45',
  (F, "if existsb (eqb s) seen then md_distinct seen es' else s ++ md_distinct (s :: seen) es'", "s ++ md_distinct (s :: seen) es'"))
m('F22', 'MdFmt.md_distinct', 'only neighbouring repetitions are dropped', 'C45',
  (F, "else s ++ md_distinct (s :: seen) es'", "else s ++ md_distinct [s] es'"))
m('F23', 'MdFmt.md_traced_requirement', 'UNCOVERED printed for covered requirements', 'C59',
  (F, '(if is_nil (snd e) then L "    *    UNCOVERED" ++ [NL] else []) ++', '(if is_nil (snd e) then [] else L "    *    UNCOVERED" ++ [NL]) ++'))
m('F24', 'MdFmt.md_traced_requirement', 'Derived is decided by the first relation', 'C59',
  (F, '(if forallb (fun e => is_nil (snd e)) (rt_covers t) then', '(if forallb (fun e => is_nil (snd e)) (firstn 1 (rt_covers t)) then'))
m('F25', 'MdFmt.md_sections', 'items of a section without heading for later sections', 'C45',
  (F, 'Done ((if headline then [] else md_headline title) ++ md_subheading name ++ concat items ++ rest)', 'Done ((if headline then [] else md_headline title ++ md_subheading name) ++ concat items ++ rest)'))
m('F26', 'MdFmt.md_requirement', 'covers printed under Depends', 'C48',
  (F, 'md_references "Depends" (req_depends r) ++', 'md_references "Depends" (req_covers r) ++'))
m('F27', 'MdFmt.md_reference', 'title left out', 'C48',
  (F, '| Some t => L "*   " ++ ref_id r ++ L ": " ++ t ++ [NL]', '| Some t => L "*   " ++ ref_id r ++ [NL]'))
m('F28', 'MdFmt.md_attribute', 'value not printed', 'C48',
  (F, "| v' => [NL] ++ k ++ L \":\" ++ [NL] ++ v' ++ [NL]", "| v' => [NL] ++ k ++ L \":\" ++ [NL]"))
m('F29', 'MdFmt.md_trace_link', 'location of the requirement in place of the reference', 'C59',
  (F, 'L "        Reference: " ++ location_link (snd x) ++ [NL].', 'L "        Reference: " ++ location_link (req_location (fst x)) ++ [NL].'))
m('F30', 'Formatters.fmt_tracing', 'Tags supported for Trace', 'C41',
  ('Formatters.v', '''    | GnuError => gnu_tracing t
''', '''    | GnuError => gnu_tracing t
    | Tags => Done (tags_requirements (mkGraph (tg_artefacts t) []))
'''))
m('F31', 'MdFmt.md_requirements', 'input errors left out of the export', 'C57',
  (F, '''    md_input_errors false (ovalues (g_artefacts g)) ++
    flat_map md_requirement
      (sort_by''', '''    flat_map md_requirement
      (sort_by'''))
m('F32', 'MdFmt.md_tracing', 'uncovered requirements left out', 'C45',
  (F, '          uncovered ++ derived ++', '          derived ++'))

# --- the configuration file and the messages of main.rs
C = 'Config.v'
m('G01', 'Config.tou32', 'negative versions are accepted', 'C66',
  (C, '((0 <=? z) && (z <? 4294967296))%Z', '(z <? 4294967296)%Z'))
m('G02', 'Config.may', 'a wrong type in an optional field counts as absent', 'C66',
  (C, 'Some v => option_map Some (f v) | None => Some None end.', 'Some v => Some (f v) | None => Some None end.'))
m('G03', 'Config.to_query', 'Parse and Trace exchanged', 'C66',
  (C, 'if eqb k (L "Parse") then Some QParse else if eqb k (L "Trace") then Some QTrace',
      'if eqb k (L "Parse") then Some QTrace else if eqb k (L "Trace") then Some QParse'))
m('G04', 'Config.to_format', 'a template file counts as template text', 'C66',
  (C, 'then Some (TemplateFile s)', 'then Some (TemplateString s)'))
m('G05', 'Config.to_artefact', 'reference_with_title read under a shorter name', 'C66',
  (C, 'may tobool "reference_with_title" m with', 'may tobool "with_title" m with'))
m('G06', 'Config.to_artefact', 'the two flags exchanged in the array form', 'C66',
  (C, 'Some (mkArtefactConfig i p x (Some d) (Some t))', 'Some (mkArtefactConfig i p x (Some t) (Some d))'))
m('G07', 'Config.to_config', 'relations may be left out', 'C66',
  (C, '''must (tolist to_relation) "relations" m,
''', '''(match may (tolist to_relation) "relations" m with Some (Some x) => Some x | Some None => Some [] | None => None end),
'''))
m('G08', 'Config.tolist', 'a bad element of a list is dropped', 'C66',
  (C, 'match v with TArr l => mapM f l | _ => None end.', 'match v with TArr l => Some (flat_map (fun x => match f x with Some y => [y] | None => [] end) l) | _ => None end.'))
m('G09', 'Config.toml_message', 'line counted from 0', 'C67',
  (C, 'show_N (line + 1)', 'show_N line'))
m('G10', 'Config.toml_message', 'column counted from 1 (a fix)', 'C67',
  (C, 'show_N col ++', 'show_N (col + 1) ++'))
m('G11', 'Config.load_config', 'the file is not named when it cannot be read', 'C67',
  (C, '| inr m => inr (file ++ L ": " ++ m)', '| inr m => inr m'))
m('G12', 'Config.load_config', 'the version is compared with >=', 'C67',
  (C, 'if CONFIG_VERSION <? v then', 'if CONFIG_VERSION <=? v then'))
m('G13', 'Config.show_controller_error', 'path and cause exchanged', 'C67',
  (C, 'L "IO Error: " ++ m ++ L " in " ++ p', 'L "IO Error: " ++ p ++ L " in " ++ m'))
m('G14', 'Config.main', 'a failed job ends with status 1', 'C67',
  (C, '| (h, RFail e) => (h, show_controller_error e ++ [NL], Exit 2)', '| (h, RFail e) => (h, show_controller_error e ++ [NL], Exit 1)'))
m('G15', 'Config.main', 'message although errors were only detected', 'C67',
  (C, '(h, [], Exit 1)', '(h, L "errors" ++ [NL], Exit 1)'))
m('G16', 'Config.main', 'the effects before a failure are forgotten', 'C67',
  (C, '| (h, RFail e) => (h, show', '| (h, RFail e) => ([], show'))

# --- the command line
P = 'Cli.v'
m('P01', 'Cli.set_value', 'a repeated option overrides the first', 'C78',
  (P, '''  | Some _ => inr Usage
  | None =>
      if is_path''', '''  | _ =>
      if is_path'''))
m('P02', 'Cli.set_value', 'empty file names are accepted', 'C78',
  (P, 'is_path_option o && is_nil v', 'false'))
m('P03', 'Cli.option_short', '-b and -c exchanged', 'C78',
  (P, 'if c =? 99 then Some OConfig else if c =? 98 then Some OBase', 'if c =? 98 then Some OConfig else if c =? 99 then Some OBase'))
m('P04', 'Cli.short_args', 'the equals sign is part of an attached value', 'C78',
  (P, "| e :: v => if e =? EQUALS then Some v else Some w'", "| e :: v => Some w'"))
m('P05', 'Cli.short_args', 'flags cannot be grouped', 'C78',
  (P, "| inl (m', p') => short_args w' p' m'\n", "| inl (m', p') => if is_nil w' then inl (m', p') else inr Usage\n"))
m('P06', 'Cli.split_equals', 'value after the last equals sign', 'C78',
  (P, "if c =? EQUALS then ([], Some w') else let '(n, v) := split_equals w' in (c :: n, v)",
      "let '(n, v) := split_equals w' in match v with Some _ => (c :: n, v) | None => if c =? EQUALS then ([], Some w') else (c :: n, v) end"))
m('P07', 'Cli.parse_from', 'options after -- still count', 'C78',
  (P, "| [] => parse_from args' true p m", "| [] => parse_from args' false p m"))
m('P08', 'Cli.parse_from', 'a value may look like an option', 'C78',
  (P, '''      if trailing then continue (positional a p m)
''', '''      if match p with Some (_, None) => true | _ => false end then value_or_positional
      else if trailing then continue (positional a p m)
'''))
m('P09', 'Cli.add_job', 'jobs in reverse order', 'C78',
  (P, '(ma_jobs m ++ [s])', '(s :: ma_jobs m)'))
m('P10', 'Cli.parse_args', 'the base directory defaults to the root', 'C78',
  (P, '(L ".")', '(L "/")'))
m('P11', 'Cli.process', 'usage errors end with status 1', 'C78',
  (P, '(cli_usage args) (Exit 2)', '(cli_usage args) (Exit 1)'))
m('P12', 'Cli.process', 'the version asked for: the help is printed', 'C78',
  (P, 'mkRun [] cli_version [] (Exit 0)', 'mkRun [] cli_help [] (Exit 0)'))
m('P13', 'Cli.parse_from', 'a single dash is an error', 'C78',
  (P, '''                 | [] => value_or_positional
                 | d2''', '''                 | [] => inr Usage
                 | d2'''))
m('P14', 'Cli.process', '--quiet drops the messages (a fix)', 'C79',
  (P, "mkRun h [] msg e", "mkRun h [] (if existsb (eqb (L \"-q\")) args then [] else msg) e"))

# --- serde_json
S = 'SerdeJson.v'
m('J01', 'SerdeJson.escape_char', 'control characters are not escaped', 'C68',
  (S, 'else if c <? 32 then [BACKSLASH; 117; 48; 48; hex_digit (c / 16); hex_digit (c mod 16)]\n', ''))
m('J02', 'SerdeJson.escape_char', 'the backslash is not escaped', 'C68',
  (S, '  else if c =? 92 then [BACKSLASH; 92]\n', ''))
m('J03', 'SerdeJson.escape_char', 'escape sequences of tab and backspace exchanged', 'C68',
  (S, '''  else if c =? 8 then [BACKSLASH; 98]
  else if c =? 9 then [BACKSLASH; 116]''', '''  else if c =? 8 then [BACKSLASH; 116]
  else if c =? 9 then [BACKSLASH; 98]'''))
m('J04', 'SerdeJson.write_json', 'a comma after the last member', 'C68',
  (S, '''                                           write_json (S level) (snd e)) l) ++
''', '''                                           write_json (S level) (snd e)) l) ++ L "," ++
'''))
m('J05', 'SerdeJson.write_json', 'keys are not escaped', 'C68',
  (S, 'write_string (fst e)', '[QUOTE] ++ fst e ++ [QUOTE]'))
m('J06', 'SerdeJson.hex_digit', 'hexadecimal digits beyond 9 wrong by one', 'C68',
  (S, 'else 87 + n.', 'else 88 + n.'))
m('J07', 'SerdeJson.json_blank', 'a carriage return is no white space', 'C69',
  (S, '(c =? 10) || (c =? 13).', '(c =? 10).'))
m('J08', 'SerdeJson.hex_value', 'capital hexadecimal digits are refused', 'C69',
  (S, '  else if (65 <=? c) && (c <=? 70) then Some (c - 55)\n', ''))
m('J09', 'SerdeJson.unescape', 'an escaped slash is refused', 'C69',
  (S, '  else if e =? 47 then Some 47\n', ''))
m('J10', 'SerdeJson.read_chars', 'a lone surrogate is accepted', 'C69',
  (S, 'if low_surrogate n then None\n                      else if', 'if'))
m('J11', 'SerdeJson.read_chars', 'surrogate pairs are joined wrongly', 'C69',
  (S, 'put (65536 + 1024 * (n - 55296) + (m - 56320))', 'put (65536 + 1024 * (n - 55296) + m)'))
m('J12', 'SerdeJson.read_chars', 'raw control characters are accepted', 'C69',
  (S, '      else if c <? 32 then None\n', ''))
m('J13', 'SerdeJson.plain_int', 'leading zeros are accepted', 'C69',
  (S, "| c :: ds' => negb (c =? 48) || is_nil ds'", "| c :: ds' => true"))
m('J14', 'SerdeJson.read_elements', 'a comma before the closing bracket is accepted', 'C69',
  (S, '''              else if x =? 44 then
                match read_elements f (skip_blanks r') with''', '''              else if x =? 44 then
                if match skip_blanks r' with y :: _ => y =? 93 | [] => false end then Some ([v], tl (skip_blanks r')) else
                match read_elements f (skip_blanks r') with'''))
m('J15', 'SerdeJson.read_json', 'text after the value is ignored', 'C69',
  (S, 'if is_nil (skip_blanks r) then Some v else None', 'Some v'))
m('J16', 'SerdeJson.from_reader', 'a text that cannot be read counts as empty (no effect: the empty text is no JSON text)', 'none (equivalent)',
  (S, '  | RErr _ => None\n  end.', '  | RErr _ => read_json []\n  end.'))
m('J19', 'SerdeJson.from_reader', 'a read fault is ignored, what has been read counts', 'C69',
  (S, '  | RErr _ => None\n  end.', '  | RErr _ => match read_to_string (mkReader (rd_bytes r) None) with ROk s => read_json s | RErr _ => None end\n  end.'))
m('J17', 'SerdeJson.read_members', 'no white space before the colon', 'C69',
  (S, 'match skip_blanks r1 with', 'match r1 with'))
m('J18', 'SerdeJson.value_of_digits', 'the first digit is lost', 'C69',
  (S, 'fold_left (fun a c => 10 * a + (c - 48)) ds 0', 'fold_left (fun a c => 10 * a + (c - 48)) (tl ds) 0'))

# --- promises of the documentation, whole runs
m('D01', 'MdParser.parse_loop', 'a line that cannot be read is skipped (a fix)', 'C70',
  ('MdParser.v', '| RErr m :: _ => Done (push_error c (EIo p m))', "| RErr m :: rs' => parse_loop rs' st (push_error c (EIo p m))"))
m('D02', 'MdParser.parse_loop', 'the requirement before an unreadable line is kept (a fix)', 'C70',
  ('MdParser.v', 'Done (push_error c (EIo p m))', 'Done (maybe_commit_req (push_error c (EIo p m)))'))
m('D03', 'MdParser.parse_state_heading', 'a description goes on after a heading', 'C71',
  ('MdParser.v', '''        let* c := commit_attr c ATTR_DESCRIPTION desc in Done (c, LookForReq)
    | CollectTextAttr attr val => let* c := commit_attr c attr val in Done (c, LookForReq)''', '''        Done (c, CollectDesc desc)
    | CollectTextAttr attr val => let* c := commit_attr c attr val in Done (c, LookForReq)'''))
m('D04', 'MdParser.add_req', 'tags from the title', 'C72',
  ('MdParser.v', 'mkRequirement g2 (Some (trim g3)) (ctx_location c) [] [] [] [] in', 'mkRequirement g2 (Some (trim g3)) (ctx_location c) [] [] [g3] [] in'))
m('D05', 'MdParser.add_req', 'the id is taken from the title', 'C74',
  ('MdParser.v', 'mkRequirement g2 (Some (trim g3)) (ctx_location c) [] [] [] [] in', 'mkRequirement (trim g3) (Some (trim g3)) (ctx_location c) [] [] [] [] in'))
m('D06', 'Controller.parse_multiple_files', 'only files with requirements are recorded', 'C76',
  ('Controller.v', '''          Done (paths, fst s, snd s)
''', '''          Done (if is_nil (fst s) then [] else paths, fst s, snd s)
'''))
m('D07', 'Controller.parse_single_file', 'a file that cannot be opened gives no error', 'C75',
  ('Controller.v', '| inr m => Done ([p], [], [EIo p m])', '| inr m => Done ([p], [], [])'))
m('D08', 'Controller.parse_next_file', 'files after an erroneous one are ignored', 'C75',
  ('Controller.v', '''    match in_open p with
    | inr m => Done (fst s, snd s ++ [EIo p m])''', '''    if negb (is_nil (snd s)) then Done s else
    match in_open p with
    | inr m => Done (fst s, snd s ++ [EIo p m])'''))
m('D09', 'Controller.add_artefact', 'the first artefact is treated as a root', 'C77',
  ('Controller.v', 'let ignore := opt_default (ac_ignore_derived ac) root in', 'let ignore := opt_default (ac_ignore_derived ac) (root || is_nil arts) in'))
m('D10', 'Controller.errors_detected', 'uncovered requirements do not count', 'C60',
  ('Controller.v', '''        existsb (fun t => negb (is_nil (tr_uncovered t))) (tg_relations tg) ||
''', ''))
m('D11', 'MonoParser.mono_parse', 'tags of a mono requirement', 'C72',
  ('MonoParser.v', '[] depends [] []]', '[] depends [id] []]'))
m('D12', 'MdFmt.requirement_link', 'a link without anchor sign', 'C65',
  ('MdFmt.v', '''    | Some t => L "[" ++ req_id r ++ L "](#" ++''', '''    | Some t => L "[" ++ req_id r ++ L "](" ++'''))
m('D13', 'MdFmt.md_traced_requirement', 'headings of entries without title', 'C65',
  ('MdFmt.v', 'L "### " ++ req_id r ++ match req_title r with Some x => L ": " ++ x | None => [] end ++ [NL; NL] ++\n    L "Origin: "', 'L "### " ++ req_id r ++ [NL; NL] ++\n    L "Origin: "'))

# --- claims that no mutant above names
m('Q01', 'Tracer.trace_depends', 'a link to a requirement that an earlier relation has reached gives no coverage', 'C10',
  (T, '''  match oget (ref_id depends) (ta_by_id lower_artefact) with
  | None => Done s
  | Some lower_requirement =>
''', '''  match oget (ref_id depends) (ta_by_id lower_artefact) with
  | None => Done s
  | Some lower_requirement =>
      if negb (existsb (eqb (req_id lower_requirement)) (ta_derived lower_artefact)) then Done s else
'''))
m('Q02', 'Tracer.remove_derived', 'the derived mark is toggled instead of cleared', 'C12',
  (T, '(srem id (ta_derived ta)))', '''(if existsb (eqb id) (ta_derived ta) then srem id (ta_derived ta)
                     else sins id (ta_derived ta)))'''))
m('Q03', 'Tracer.add_requirement', 'only the first covers reference is registered to be checked', 'C13',
  (T, '(req_covers req) (t_invalid_covers t) in', '(firstn 1 (req_covers req)) (t_invalid_covers t) in'))
m('Q04', 'Tracer.trace_covers', 'a covers link does not count as coverage of the upper requirement', 'C62',
  (T, '''(ref_location covers) Upwards])
          (rs_uncovered s) true).''', '''(ref_location covers) Upwards])
          (rs_uncovered s) (rs_is_covered s)).'''))
m('Q05', 'Tracer.trace_depends', 'the search ends at the first covering link', 'C63',
  (T, '''  match oget (ref_id depends) (ta_by_id lower_artefact) with
  | None => Done s
  | Some lower_requirement =>
''', '''  match oget (ref_id depends) (ta_by_id lower_artefact) with
  | None => Done s
  | Some lower_requirement =>
      if rs_is_covered s then Done s else
'''))
m('Q06', 'Tracer.validate_upwards', 'a covers reference to an existing id is not reported although no relation leads there', 'C64',
  (T, '''       let '(upper_id, lower_id) := cov in
''', '''       let '(upper_id, lower_id) := cov in
       if match oget upper_id (t_req_by_id t') with Some _ => true | None => false end then Done t' else
'''))
m('Q07', 'Aggregator.agg_init_requirements', 'the first definition of an id is kept, not the last', 'C50',
  ('Aggregator.v', '''                     (ovalues (tg_artefacts tg))).''', '''                     (rev (ovalues (tg_artefacts tg)))).'''))
m('Q08', 'Serialize.json_coverage', 'the direction of a coverage is written as Upwards always', 'C61',
  ('Serialize.v', '''Upwards => L "Upwards" | Downwards => L "Downwards" end''', '''Upwards => L "Upwards" | Downwards => L "Upwards" end'''))
m('Q09', 'Serialize.json_artefact', 'the files of an artefact are left out of the report', 'C76',
  ('Serialize.v', '(L "files", jlist JStr (art_files a));', '(L "files", JArr []);'))
m('Q10', 'MdParser.parse_state_line', 'text outside of requirements is reported', 'C19',
  ('MdParser.v', '''    | LookForReq => Done (c, st)
    | LookForDesc =>
        match captures''', '''    | LookForReq => Done (push_error c (EFormat (ctx_location c) (L "Text outside of a requirement")), st)
    | LookForDesc =>
        match captures'''))
m('Q11', 'MdParser.line_event', 'lines of white space count as empty', 'C25',
  ('MdParser.v', '''    if byte_len line =? 1 then
      if starts_with_c NL line''', '''    if is_nil (trim line) then Done EvEmpty else
    if byte_len line =? 1 then
      if starts_with_c NL line'''))
m('Q12', 'RustParser.add_reference', 'a mark is added to the requirement of its scope wherever that is', 'C28',
  ('RustParser.v', '''    match slice_last (rs_requirements s) with
    | Some r =>
        if eqb (req_id r) id
        then Done (rs_set_requirements s (removelast (rs_requirements s) ++ [add_cover r x]))
        else fresh
    | None => fresh
    end.''', '''    if existsb (fun r => eqb (req_id r) id) (rs_requirements s)
    then Done (rs_set_requirements s
                 (map (fun r => if eqb (req_id r) id then add_cover r x else r) (rs_requirements s)))
    else fresh.'''))
m('Q13', 'Controller.roots_lower', 'an unknown lower artefact is skipped', 'C34',
  ('Controller.v', '''    match oget la m with
    | None => Panic (* todo!() *)''', '''    match oget la m with
    | None => Done m'''))
m('Q14', 'Controller.add_artefact', 'of two artefacts with the same id the first is kept', 'C35',
  ('Controller.v', '''    let* root := unwrap (oget (ac_id ac) roots) in
''', '''    match oget (ac_id ac) arts with Some _ => Done arts | None =>
    let* root := unwrap (oget (ac_id ac) roots) in
'''), ('Controller.v', "Done (oins (ac_id ac) (mkArtefact (ac_id ac) files ignore with_title reqs errs') arts).",
       "Done (oins (ac_id ac) (mkArtefact (ac_id ac) files ignore with_title reqs errs') arts) end."))
m('Q15', 'Controller.errors_detected', 'derived requirements count only if every artefact has some', 'C40',
  ('Controller.v', '        existsb (fun d => negb (is_nil d)) (ovalues (tg_derived tg))', '        forallb (fun d => negb (is_nil d)) (ovalues (tg_derived tg))'))
m('Q16', 'Formatters.fmt_requirements', 'an unsupported format gives an empty report', 'C56',
  ('Formatters.v', '''          (flat_map art_errors (ovalues (g_artefacts g)))))
    | _ => Panic (* todo!() *)''', '''          (flat_map art_errors (ovalues (g_artefacts g)))))
    | _ => Done []'''))
m('Q17', 'Controller.open_output', 'the output itself is made as a directory, not its parent', 'C58',
  ('Controller.v', '''let r := out_make_dirs h d in
                    (h ++ [EvMakeDirs d r],''', '''let r := out_make_dirs h p in
                    (h ++ [EvMakeDirs p r],'''))
m('Q18', 'MonoParser.MONO_REF_LINK', 'the end of the line is not required', 'C73',
  ('MonoParser.v', '(Seq re_ws (Grp 2 (Plus false (Cls dot)))))) (Seq re_ws Eol))))).', '(Seq re_ws (Grp 2 (Plus false (Cls dot)))))) re_ws)))).'))
m('Q19', 'Location.cmp_requirement', 'requirements with the same id compare by title', 'C30',
  ('Location.v', 'Some (cmp (req_id x) (req_id y)).', '''match cmp (req_id x) (req_id y) with
  | Eq => Some (cmp (opt_default (req_title x) []) (opt_default (req_title y) []))
  | o => Some o end.'''))
m('Q20', 'Controller.parse_multiple_files', 'only the first path is expanded', 'C77',
  ('Controller.v', '''      match glob_paths base (ac_paths ac) with
      | inr e => Done (ac_paths ac, [], [e])''', '''      match glob_paths base (firstn 1 (ac_paths ac)) with
      | inr e => Done (ac_paths ac, [], [e])'''))
m('Q21', 'Tracer.trace_relation', 'an unused relation is reported unless an earlier relation has coverage', 'C10',
  (T, '  let t1 := if negb (rs_any s) then', '''  let t1 := if negb (rs_any s || existsb (fun r => negb (is_nil (tr_covered r))) (t_relations t)) then'''))
m('Q22', 'Tracer.validate_downwards', 'dangling depends references are reported only if there is a relation', 'C12',
  (T, '''Definition validate_downwards (t : tracer) : outcome tracer :=
  for_each (t_invalid_depends t)''', '''Definition validate_downwards (t : tracer) : outcome tracer :=
  for_each (if is_nil (t_relations t) then [] else t_invalid_depends t)'''))
m('Q23', 'Tracer.trace_upper', 'a requirement with depends references needs one of them to be covered', 'C62',
  (T, '''  let unc := if negb (rs_is_covered s2)
''', '''  let s2 := if is_nil (req_depends upper_requirement) then s2
            else mkRel (rs_tracer s2) (rs_any s2) (rs_covered s2) (rs_uncovered s2) (rs_is_covered s1) in
  let unc := if negb (rs_is_covered s2)
'''))
m('Q24', 'Tracer.add_artefact', 'the ids of an artefact replace the dangling links collected so far', 'C64',
  (T, '''    (t_relations t') (t_errors t') (t_req_by_id t')
    (t_invalid_depends t') (t_invalid_covers t').

(** the locals''', '''    (t_relations t') (t_errors t') (t_req_by_id t')
    (filter (fun p => existsb (eqb (fst p)) (okeys (ad_by_id s))) (t_invalid_depends t')) (t_invalid_covers t').

(** the locals'''))
m('N01', 'MdParser.parse_state_empty', 'empty lines are dropped from text attributes', 'C82',
  ('MdParser.v', 'Done (c, CollectTextAttr attr (val ++ [NL]))', 'Done (c, CollectTextAttr attr val)'))
m('N02', 'MdParser.parse_state_line', 'the lines of a text attribute are trimmed', 'C82',
  ('MdParser.v', 'None => Done (c, CollectTextAttr attr (val ++ line))', 'None => Done (c, CollectTextAttr attr (val ++ trim line ++ [NL]))'))
m('N03', 'MdParser.parse_state_heading', 'a heading that starts no requirement drops the text attribute before it', 'C82',
  ('MdParser.v', '| CollectTextAttr attr val => let* c := commit_attr c attr val in Done (c, LookForReq)', '| CollectTextAttr attr val => Done (c, LookForReq)'))
m('N04', 'Tags.tag_line', 'file and id are exchanged', 'C83',
  ('Tags.v', '[req_id r ++ [TAB] ++ loc_file (req_location r) ++ [TAB]', '[loc_file (req_location r) ++ [TAB] ++ req_id r ++ [TAB]'))
m('N05', 'Tags.tag_line', 'a requirement with a column gets the column as line', 'C83',
  ('Tags.v', '| Some (Line n) | Some (LineAndColumn n _) =>', '| Some (Line n) | Some (LineAndColumn _ n) =>'))
m('N06', 'Tags.tags_requirements', 'the lines are in the order of the graph', 'C83',
  ('Tags.v', '''  concat (sort_by (fun l => l)
            (flat_map''', '''  concat ((fun l => l)
            (flat_map'''))
m('N07', 'Tags.tag_line', 'a blank in place of the first tabulator', 'C83',
  ('Tags.v', '[req_id r ++ [TAB] ++ loc_file', '[req_id r ++ [32] ++ loc_file'))
m('N08', 'MdLex.re_id', 'an id may start with any character of an id, as a digit', 'C84',
  ('MdLex.v', 'Seq (Cls xid_start) (Plus true (Cls xid_continue))', 'Seq (Cls xid_continue) (Plus true (Cls xid_continue))'))
m('N09', 'MdLex.re_id', 'ids of one character', 'C84',
  ('MdLex.v', 'Seq (Cls xid_start) (Plus true (Cls xid_continue))', 'Seq (Cls xid_start) (Star true (Cls xid_continue))'))
m('N10', 'Controller.errors_detected', 'uncovered requirements of the last relation do not count', 'C85',
  ('Controller.v', 'existsb (fun t => negb (is_nil (tr_uncovered t))) (tg_relations tg) ||', 'existsb (fun t => negb (is_nil (tr_uncovered t))) (removelast (tg_relations tg)) ||'))
m('N11', 'Tracer.trace_upper', 'a requirement counts as covered along all relations once it is covered along one', 'C02',
  (T, '  let unc := if negb (rs_is_covered s2)\n', '''  let unc := if negb (rs_is_covered s2 || existsb (fun tr => existsb (fun c => eqb (cov_upper c) (req_id upper_requirement)) (tr_covered tr)) (t_relations (rs_tracer s2)))
'''))
m('N12', 'Serialize.json_trace', 'the errors of the trace report are sorted with sort_unstable', 'C86',
  ('Serialize.v', '(L "trace", json_traced_graph t)].', '''(L "trace", json_traced_graph
            (mkTracedGraph (tg_artefacts t) (tg_relations t) (tg_derived t) (sort_errors (tg_errors t))))].'''))
m('N13', 'Controller.parse_single_file', 'a file that cannot be opened is not recorded', 'C87',
  ('Controller.v', '        | inr m => Done ([p], [], [EIo p m])', '        | inr m => Done ([], [], [EIo p m])'))
m('N14', 'Controller.parse_multiple_files', 'the patterns are recorded in place of the files', 'C87',
  ('Controller.v', 'Done (paths, fst s, snd s)\n      end.', 'Done (ac_paths ac, fst s, snd s)\n      end.'))
m('N15', 'Controller.parse_single_file', 'a file is skipped if there is another of the same name with .ignore', 'C87',
  ('Controller.v', '''        match in_open p with
        | inr m => Done ([p], [], [EIo p m])
        | inl r =>''', '''        match in_open (p ++ L ".ignore") with inl _ => Done ([p], [], []) | inr _ =>
        match in_open p with
        | inr m => Done ([p], [], [EIo p m])
        | inl r =>'''),
  ('Controller.v', '''            Done ([p], fst res, snd res)
        end
    | _ =>''', '''            Done ([p], fst res, snd res)
        end end
    | _ =>'''))
m('S01', 'MonoParser.strip_line', 'a carriage return stays at the end of the line', 'C88',
  ('MonoParser.v', '          | d :: r\' => if d =? 13 then rev r\' else rev r', '          | d :: r\' => rev r'))
m('S02', 'MdParser.line_event', 'CR LF is an empty line', 'C88',
  ('MdParser.v', '    if byte_len line =? 1 then', '    if eqb line [13; NL] then Done EvEmpty else\n    if byte_len line =? 1 then'))
m('S03', 'MdParser.parse_loop', 'a byte order mark is skipped', 'C88',
  ('MdParser.v', '        let* ev := line_event line in', '        let* ev := line_event (if starts_with_c 65279 line then tl line else line) in'))
m('U01', 'MdLex.REQUIREMENT_LINE', 'white space may stand before the hashes', 'C89',
  ('MdLex.v', '    Seq Bol (Seq (Grp 1 (Plus true (Chr HASH))) (Seq re_ws (Seq (Grp 2 re_id) (Seq (Chr COLON)', '    Seq Bol (Seq (Seq re_ws (Grp 1 (Plus true (Chr HASH)))) (Seq re_ws (Seq (Grp 2 re_id) (Seq (Chr COLON)'))
m('U02', 'MdLex.REQUIREMENT_LINE', 'white space may stand before the colon', 'C89',
  ('MdLex.v', '    Seq Bol (Seq (Grp 1 (Plus true (Chr HASH))) (Seq re_ws (Seq (Grp 2 re_id) (Seq (Chr COLON)', '    Seq Bol (Seq (Grp 1 (Plus true (Chr HASH))) (Seq re_ws (Seq (Grp 2 re_id) (Seq (Seq re_ws (Chr COLON))'))
m('U03', 'MdLex.REQUIREMENT_LINE', 'a heading needs no title', 'C89',
  ('MdLex.v', '(Seq re_ws (Seq (Grp 3 (Plus false (Cls dot)))', '(Seq re_ws (Seq (Grp 3 (Star false (Cls dot)))'))
m('U04', 'MdLex.REQUIREMENT_LINE', 'a space is required after the hashes', 'C89',
  ('MdLex.v', '    Seq Bol (Seq (Grp 1 (Plus true (Chr HASH))) (Seq re_ws (Seq', '    Seq Bol (Seq (Grp 1 (Plus true (Chr HASH))) (Seq (Plus true (Cls is_ws)) (Seq'))
m('U05', 'MdLex.ATTRIBUTE_LINE', 'lazy value: white space at the end of the value is cut off', 'C89',
  ('MdLex.v', '(Grp 2 (Star true (Cls dot)))', '(Grp 2 (Star false (Cls dot)))'))
m('U06', 'MdLex.ATTRIBUTE_LINE', 'the second letter of a name may be a capital', 'C89',
  ('MdLex.v', '(Plus true (Cls is_lower_ascii))', '(Plus true (Cls (fun c => is_lower_ascii c || is_upper_ascii c)))'))
m('U07', 'MdLex.REF_LINK_LINE', 'white space before the id is optional', 'C89',
  ('MdLex.v', '(Seq (Plus true (Cls is_ws)) (Seq (Grp 1 re_id)', '(Seq re_ws (Seq (Grp 1 re_id)'))
m('U08', 'MdLex.REF_LINK_LINE', 'a colon without title is accepted', 'C89',
  ('MdLex.v', '(Seq (Opt (Seq (Chr COLON) (Seq re_ws (Grp 2 (Plus false (Cls dot))))))', '(Seq (Opt (Seq (Chr COLON) (Seq re_ws (Grp 2 (Star false (Cls dot))))))'))
m('U09', 'MonoParser.MONO_REF_LINK', 'an arrow of one character', 'C89',
  ('MonoParser.v', 'Seq (Chr 61) (Seq (Chr 62) (Seq re_ws', 'Seq (Opt (Chr 61)) (Seq (Chr 62) (Seq re_ws'))
m('U10', 'MonoParser.MONO_REF_LINK', 'a space is required after the arrow', 'C89',
  ('MonoParser.v', 'Seq (Chr 61) (Seq (Chr 62) (Seq re_ws', 'Seq (Chr 61) (Seq (Chr 62) (Seq (Plus true (Cls is_ws))'))
m('U11', 'MdParser.short_list_refs', 'the list after Covers is split at blanks', 'C89',
  ('MdParser.v', '(split_on COMMA (trim short_list))', '(split_on 32 (trim short_list))'))
# --- C12, C25, C51, C60, C63, C90
m('V01', 'Tracer.validate', 'unknown ids in depends lists are reported before those in covers lists', 'C90',
  (T, 'let* t1 := validate_upwards t in validate_downwards t1.', 'let* t1 := validate_downwards t in validate_upwards t1.'))
m('V02', 'Tracer.validate_upwards', 'the set is walked backwards', 'C90',
  (T, '  for_each (t_invalid_covers t)', '  for_each (rev (t_invalid_covers t))'))
m('V03', 'Tracer.trace_relation', 'UnusedRelation comes before all other messages', 'C90',
  (T, 'let t1 := if negb (rs_any s) then push_error (rs_tracer s) (EUnusedRelation relation)',
      '''let t1 := if negb (rs_any s) then let t := rs_tracer s in mkTracer (t_artefacts t) (t_relations t) (EUnusedRelation relation :: t_errors t)
                (t_req_by_id t) (t_invalid_depends t) (t_invalid_covers t)'''))
m('V04', 'Tracer.tracer_new', 'the relations are traced in reverse order', 'C90',
  (T, 'let* t1 := for_each (g_relations g) trace_relation t0 in', 'let* t1 := for_each (rev (g_relations g)) trace_relation t0 in'))
m('V05', 'Tracer.trace_relation', 'a relation with the same upper artefact as an earlier one is skipped', 'C12',
  (T, '''  Done (mkTracer (t_artefacts t1)
          (t_relations t1 ++''', '''  if existsb (fun x => eqb (rel_upper (tr_relation x)) (rel_upper relation)) (t_relations t) then Done t else
  Done (mkTracer (t_artefacts t1)
          (t_relations t1 ++'''))
m('V06', 'Tracer.trace_relation', 'an unused relation forgets the messages of the relations before it', 'C12',
  (T, 'let t1 := if negb (rs_any s) then push_error (rs_tracer s) (EUnusedRelation relation)',
      '''let t1 := if negb (rs_any s) then let t := rs_tracer s in mkTracer (t_artefacts t) (t_relations t) [EUnusedRelation relation]
                (t_req_by_id t) (t_invalid_depends t) (t_invalid_covers t)'''))
m('V07', 'Tracer.trace_relation', 'the relation in front of one with the same upper artefact loses its uncovered list', 'C63',
  (T, '(t_relations t1 ++ [mkTracedRelation relation (rs_covered s) (rs_uncovered s)])',
      '(map (fun x => if eqb (rel_upper (tr_relation x)) (rel_upper relation) then mkTracedRelation (tr_relation x) (tr_covered x) [] else x) (t_relations t1) ++ [mkTracedRelation relation (rs_covered s) (rs_uncovered s)])'))
m('V08', 'MdParser.parse_state_line', 'a line of white space after a list is a wrong reference', 'C25',
  ('MdParser.v', '            match trim line with\n', '            match line with\n'))
m('V09', 'MdParser.parse_state_line', 'a line of white space after a list leaves the list open', 'C25',
  ('MdParser.v', '            | [] => let* c := commit_link_attr c attr v in Done (c, LookForAttr)', '            | [] => Done (c, CollectRefLink attr v)'))
m('V10', 'MdParser.parse_state_line', 'the references after the attribute line come first', 'C51',
  ('MdParser.v', '(v ++ [mkReference id (group 2 caps) (ctx_location c)])', '(mkReference id (group 2 caps) (ctx_location c) :: v)'))
m('V11', 'MdParser.parse_state_line', 'the first bullet replaces the references of the attribute line', 'C51',
  ('MdParser.v', '(v ++ [mkReference id (group 2 caps) (ctx_location c)])', '((match v with [r] => match ref_title r with None => [] | _ => v end | _ => v end) ++ [mkReference id (group 2 caps) (ctx_location c)])'))
m('V12', 'MdParser.parse_state_heading', 'the list before a heading is not committed', 'C51',
  ('MdParser.v', '    | CollectRefLink attr v => let* c := commit_link_attr c attr v in Done (c, LookForReq)\n    end.', '    | CollectRefLink attr v => Done (c, LookForReq)\n    end.'))
m('V13', 'MdParser.parse_state_req', 'a Depends list before the next requirement is lost', 'C52',
  ('MdParser.v', '      | CollectRefLink attr v => commit_link_attr c attr v\n      | _ => Done c', '      | CollectRefLink attr v => if eqb attr ATTR_COVERS then commit_link_attr c attr v else Done c\n      | _ => Done c'))
# --- C91, C92
GE = 'GnuErr.v'
m('W01', 'GnuErr.gnu_error', 'a format error has no line end', 'C91',
  (GE, '| EFormat l m => show_location l ++ L ": " ++ m ++ [NL]', '| EFormat l m => show_location l ++ L ": " ++ m'))
m('W02', 'GnuErr.gnu_error', 'the note on a wrong title stands in the same line', 'C91',
  (GE, '''L " covered with wrong title. Expected " ++
        debug_str (opt_default (req_title u) NO_TITLE) ++ L ", actual " ++ debug_str t ++ [NL] ++''',
   '''L " covered with wrong title. Expected " ++
        debug_str (opt_default (req_title u) NO_TITLE) ++ L ", actual " ++ debug_str t ++ L " " ++'''))
m('W03', 'GnuErr.gnu_error', 'place and message of an IO error are divided by a blank only', 'C91',
  (GE, '| EIo p m => p ++ L ": IO Error: " ++ m ++ [NL]', '| EIo p m => p ++ L " IO Error: " ++ m ++ [NL]'))
m('W04', 'GnuErr.gnu_error', 'expected and actual title are exchanged', 'C91',
  (GE, '''L " depended with wrong title. Expected " ++
        debug_str (opt_default (req_title l) NO_TITLE) ++ L ", actual " ++ debug_str t ++''',
   '''L " depended with wrong title. Expected " ++
        debug_str t ++ L ", actual " ++ debug_str (opt_default (req_title l) NO_TITLE) ++'''))
m('W05', 'GnuErr.gnu_error', 'titles are written as they are', 'C91',
  (GE, '''L " with title " ++
        debug_str (opt_default (req_title r) NO_TITLE) ++ [NL]''', '''L " with title " ++
        opt_default (req_title r) NO_TITLE ++ [NL]'''))
m('W06', 'GnuErr.gnu_uncovered', 'the id stands before the place', 'C91',
  (GE, 'Done (show_location (req_location r) ++ L ": " ++ req_id r ++ L " Uncovered" ++ [NL])',
   'Done (req_id r ++ L ": " ++ show_location (req_location r) ++ L " Uncovered" ++ [NL])'))
m('W07', 'GnuErr.gnu_tracing', 'parsing errors and tracing errors are exchanged', 'C91',
  (GE, '''          gnu_errors (flat_map art_errors (ovalues (tg_artefacts tg))) ++
          L "# Tracing Errors" ++ [NL] ++ gnu_errors (tg_errors tg) ++''',
   '''          gnu_errors (tg_errors tg) ++
          L "# Tracing Errors" ++ [NL] ++ gnu_errors (flat_map art_errors (ovalues (tg_artefacts tg))) ++'''))
m('W08', 'GnuErr.gnu_derived', 'the headline of an artefact lacks its line end', 'C91',
  (GE, 'Done (L "## " ++ fst e ++ [NL] ++ concat ls)', 'Done (L "## " ++ fst e ++ concat ls)'))
m('W09', 'GnuErr.gnu_error', 'the duplicate is reported at the first definition', 'C91',
  (GE, '''        show_location (req_location r2) ++ L ": Duplicate Requirement: " ++ req_id r1 ++ [NL] ++
        show_location (req_location r1) ++''', '''        show_location (req_location r1) ++ L ": Duplicate Requirement: " ++ req_id r1 ++ [NL] ++
        show_location (req_location r2) ++'''))
m('W10', 'MdFmt.requirement_link', 'no blank between destination and title', 'C92',
  ('MdFmt.v', 'slug (req_id r ++ L "-" ++ t) ++ [32; DQUOTE] ++ t', 'slug (req_id r ++ L "-" ++ t) ++ [DQUOTE] ++ t'))
m('W11', 'MdFmt.requirement_link', 'the closing parenthesis is missing if there is no title', 'C92',
  ('MdFmt.v', '| None => L "[" ++ req_id r ++ L "](#" ++ slug (req_id r) ++ L ")"', '| None => L "[" ++ req_id r ++ L "](#" ++ slug (req_id r)'))
m('W12', 'MdFmt.location_link', 'the column is part of the fragment', 'C92',
  ('MdFmt.v', '''L "](../" ++ file ++ L "?plain=1#L" ++
        show_N n ++ L ")"''', '''L "](../" ++ file ++ L "?plain=1#L" ++
        show_N n ++ L ":" ++ show_N c ++ L ")"'''))
m('W13', 'MdFmt.location_link', 'the file is linked from the directory of the report', 'C92',
  ('MdFmt.v', '| None => L "[" ++ file ++ L "](../" ++ file ++ L ")"', '| None => L "[" ++ file ++ L "](" ++ file ++ L ")"'))
m('W14', 'MdFmt.requirement_link', 'the anchor is the id with its capitals', 'C92',
  ('MdFmt.v', 'L "](#" ++ slug (req_id r) ++ L ")"', 'L "](#" ++ req_id r ++ L ")"'))
m('W15', 'MdLex.ATTRIBUTE_LINE', 'the line end belongs to the value of an attribute line', 'C89',
  ('MdLex.v', "(Seq (Chr COLON) (Seq re_ws (Seq (Grp 2 (Star true (Cls dot))) (Seq re_ws Eol))))).", "(Seq (Chr COLON) (Seq re_ws (Seq (Grp 2 (Star true (Cls (fun _ => true)))) (Seq re_ws Eol))))).")) 

# C93: the outline of the Markdown reports
MF = 'MdFmt.v'
m('X01', 'MdFmt.md_headline', 'headlines have the level of artefacts', 'C93',
  (MF, '[NL; NL] ++ L "# " ++ L title', '[NL; NL] ++ L "## " ++ L title'))
m('X02', 'MdFmt.md_input_errors', 'the headline is repeated for each artefact', 'C93',
  (MF, 'md_input_errors (if is_nil (art_errors a) then headline else true) arts\'', 'md_input_errors headline arts\''))
m('X03', 'MdFmt.md_input_errors', 'artefacts without errors are listed, too', 'C93',
  (MF, '''(if is_nil (art_errors a) then []
         else (if headline then [] else md_headline "Input Errors") ++ md_subheading (art_id a)) ++''',
   '''((if is_nil (art_errors a) then [] else if headline then [] else md_headline "Input Errors") ++ md_subheading (art_id a)) ++'''))
m('X04', 'MdFmt.md_tracing_errors', 'the headline is written without errors', 'C93',
  (MF, 'if is_nil es then [] else md_headline "Tracing Errors"', 'md_headline "Tracing Errors"'))
m('X05', 'MdFmt.md_sections', 'relations without uncovered requirements are listed, too', 'C93',
  (MF, '''        if is_nil ids then md_sections ag title headline l'
        else
''', ''))
m('X06', 'MdFmt.md_sections', 'the headline is repeated for each section', 'C93',
  (MF, "let* rest := md_sections ag title true l' in", "let* rest := md_sections ag title headline l' in"))
m('X07', 'MdFmt.md_artefact', 'the line end after the artefact is missing', 'C93',
  (MF, 'Done (L "## " ++ art_id a ++ [NL] ++ concat rs)', 'Done (L "## " ++ art_id a ++ concat rs)'))
m('X08', 'MdFmt.md_traced_requirement', 'requirements have the level of artefacts', 'C93',
  (MF, '[NL] ++ L "### " ++ req_id r ++ match req_title r', '[NL] ++ L "## " ++ req_id r ++ match req_title r'))
m('X09', 'MdFmt.md_trace_link', 'the line end after a reference is missing', 'C93',
  (MF, 'L "        Reference: " ++ location_link (snd x) ++ [NL].', 'L "        Reference: " ++ location_link (snd x).'))
m('X10', 'MdFmt.md_tracing', 'derived requirements stand before the uncovered ones', 'C93',
  (MF, 'uncovered ++ derived ++ md_headline', 'derived ++ uncovered ++ md_headline'))
m('X11', 'MdFmt.md_tracing', 'the headline of the requirements is missing', 'C93',
  (MF, 'uncovered ++ derived ++ md_headline "Requirements" ++ concat all', 'uncovered ++ derived ++ concat all'))
m('X12', 'MdFmt.md_tracing', 'the sections of uncovered and derived requirements have the same headline', 'C93',
  (MF, 'let* derived := md_sections ag "Derived Requirements" false', 'let* derived := md_sections ag "Uncovered Requirements" false'))
m('X13', 'MdFmt.md_requirement', 'no blank after the marks of a heading', 'C93',
  (MF, '[NL] ++ L "### " ++ req_id r ++ L ": "', '[NL] ++ L "###" ++ req_id r ++ L ": "'))
m('X14', 'MdFmt.md_requirements', 'requirements are sorted within artefacts only', 'C93',
  (MF, '''(sort_by req_id (flat_map (fun a => ovalues (art_requirements a)) (ovalues (g_artefacts g))))''',
   '''(flat_map (fun a => sort_by req_id (ovalues (art_requirements a))) (ovalues (g_artefacts g)))'''))
m('X15', 'MdFmt.md_attribute', 'values are written as headings', 'C93',
  (MF, "| v' => [NL] ++ k ++ L \":\" ++ [NL] ++ v' ++ [NL]", "| v' => [NL] ++ L \"# \" ++ k ++ L \":\" ++ [NL] ++ v' ++ [NL]"))

# C94: what tracing looks at, and the forms of artefacts; C95: reports and results
m('Y01', 'Tracer.trace_covers', 'titles of references without line are not compared', 'C94',
  ('Tracer.v', '''        if negb (option_eqb str_eqb (Some title) (req_title upper_requirement)) then''',
   '''        if negb (option_eqb str_eqb (Some title) (req_title upper_requirement)) &&
           match loc_in_file (ref_location covers) with Some _ => true | None => false end then'''))
m('Y02', 'Tracer.trace_upper', 'requirements with tags need no coverage', 'C94',
  ('Tracer.v', 'let unc := if negb (rs_is_covered s2)', 'let unc := if negb (rs_is_covered s2) && is_nil (req_tags upper_requirement)'))
m('Y03', 'Tracer.add_requirement', 'requirements with attributes are not derived', 'C94',
  ('Tracer.v', '(if negb (art_ignore_derived art) then sins', '(if negb (art_ignore_derived art) && is_nil (req_attributes req) then sins'))
m('Y04', 'Tracer.add_requirement', 'a duplicate in the same file is no error', 'C94',
  ('Tracer.v', 'mkAdd (push_error t (EDuplicateRequirement old_req req))',
   'mkAdd (if str_eqb (loc_file (req_location old_req)) (loc_file (req_location req)) then t else push_error t (EDuplicateRequirement old_req req))'))
m('Y05', 'Controller.add_artefact', 'reference_with_title is an option of Markdown artefacts only', 'C94',
  ('Controller.v', 'let with_title := opt_default (ac_reference_with_title ac) false in',
   'let with_title := match ac_parser ac with PMarkdown => opt_default (ac_reference_with_title ac) false | _ => false end in'))
m('Y06', 'Controller.add_artefact', 'requirements of JSON artefacts are never derived', 'C94',
  ('Controller.v', 'let ignore := opt_default (ac_ignore_derived ac) root in',
   'let ignore := match ac_parser ac with PJson => true | _ => opt_default (ac_ignore_derived ac) root end in'))
m('Y07', 'MdFmt.md_references', 'only the first reference is exported', 'C94',
  (MF, 'L name ++ L ":" ++ [NL] ++ flat_map md_reference l end', 'L name ++ L ":" ++ [NL] ++ flat_map md_reference (firstn 1 l) end'))
m('Y08', 'MdFmt.md_requirement', 'dependencies are exported as coverage', 'C94',
  (MF, 'md_references "Depends" (req_depends r) ++', 'md_references "Covers" (req_depends r) ++'))
m('Y09', 'Serialize.unjson_requirement', 'the title is not read', 'C94',
  ('Serialize.v', '''optional unjstr (field "title" l),
            required unjson_location (field "location" l),
            required (unjlist unjson_reference) (field "covers" l)''', '''Some (@None str),
            required unjson_location (field "location" l),
            required (unjlist unjson_reference) (field "covers" l)'''))
m('Y10', 'Controller.errors_detected', 'tracing errors count in parse jobs', 'C95',
  ('Controller.v', '| QParse => existsb (fun a => negb (is_nil (art_errors a))) (ovalues (g_artefacts (ctl_graph c)))',
   '| QParse => negb (is_nil (tg_errors (ctl_traced c))) || existsb (fun a => negb (is_nil (art_errors a))) (ovalues (g_artefacts (ctl_graph c)))'))
m('Y11', 'Serialize.json_artefact', 'errors of artefacts are left out', 'C95',
  ('Serialize.v', '(L "errors", jlist json_error (art_errors a))', '(L "errors", JArr [])'))
m('Y12', 'Controller.errors_detected', 'all relations have to be uncovered', 'C95',
  ('Controller.v', 'existsb (fun t => negb (is_nil (tr_uncovered t))) (tg_relations tg) ||',
   '(negb (is_nil (tg_relations tg)) && forallb (fun t => negb (is_nil (tr_uncovered t))) (tg_relations tg)) ||'))
m('Y13', 'GnuErr.gnu_error', 'errors of the configuration are not reported', 'C95',
  (GE, 'L "Error in config file: " ++ debug_error e ++ [NL]', '[]'))
m('Y14', 'MdFmt.md_tracing', 'derived requirements are reported if there are uncovered ones only', 'C95',
  (MF, 'uncovered ++ derived ++ md_headline', 'uncovered ++ (if is_nil uncovered then [] else derived) ++ md_headline'))
m('Y15', 'Serialize.json_requirements', 'an error is left out', 'C95',
  ('Serialize.v', '(L "errors", jlist json_error (sort_errors errs))', '(L "errors", jlist json_error (tl (sort_errors errs)))'))

# C96 to C98: functions the program does not use
m('Z01', 'Api.run_jobs_with_names', 'all jobs run, whatever the names are', 'C96',
  ('Api.v', 'run_jobs c (map fst (combine jobs job_names)) Success h', 'run_jobs c jobs Success h'))
m('Z02', 'Api.run_jobs_with_names', 'the first job is left out', 'C96',
  ('Api.v', 'run_jobs c (map fst (combine jobs job_names)) Success h', 'run_jobs c (tl (map fst (combine jobs job_names))) Success h'))
m('Z03', 'Api.json_errors', 'errors are not sorted', 'C97',
  ('Api.v', 'jlist json_error (sort_errors errs)', 'jlist json_error errs'))
m('Z04', 'Api.json_errors', 'the version is missing', 'C97',
  ('Api.v', 'JObj [(L "version", JNum VERSION); (L "errors"', 'JObj [(L "errors"'))
m('Z05', 'Api.builder_tag', 'tags are in reverse order', 'C98',
  ('Api.v', '(req_tags r ++ [tag])', '(tag :: req_tags r)'))
m('Z06', 'Api.builder_attribute', 'the first value of an attribute is kept', 'C98',
  ('Api.v', '(oins k v (req_attributes r))', '(match oget k (req_attributes r) with Some _ => req_attributes r | None => oins k v (req_attributes r) end)'))
m('Z07', 'Api.builder_title', 'the first title is kept', 'C98',
  ('Api.v', 'mkRequirement (req_id r) (Some s)', 'mkRequirement (req_id r) (match req_title r with Some t => Some t | None => Some s end)'))
m('Z08', 'Api.builder_location', 'a text that is no location is ignored', 'C98',
  ('Api.v', '''(req_covers r) (req_depends r) (req_tags r) (req_attributes r))
          | inr e => inr e''', '''(req_covers r) (req_depends r) (req_tags r) (req_attributes r))
          | inr e => inl r'''))
m('Z09', 'MdFmt.TICKS', 'titles stand between three backticks', 'C99',
  (MF, 'Definition TICKS : str := L "````".', 'Definition TICKS : str := L "```".'))
m('Z10', 'MdFmt.md_error', 'the title of the lower requirement is shown as that of the upper one', 'C99',
  (MF, 'TICKS ++ opt_default (req_title u) [] ++ TICKS', 'TICKS ++ opt_default (req_title l) [] ++ TICKS'))
m('Z11', 'MdFmt.md_error', 'the two titles are exchanged', 'C99',
  (MF, '''        L "    *   Title of Lower Requirement:" ++ [NL] ++
        L "        *    " ++ TICKS ++ opt_default (req_title l) [] ++ TICKS ++ [NL] ++
        L "    *   Title used to cover it:" ++ [NL] ++
        L "        *    " ++ TICKS ++ t ++ TICKS ++ [NL] ++''', '''        L "    *   Title of Lower Requirement:" ++ [NL] ++
        L "        *    " ++ TICKS ++ t ++ TICKS ++ [NL] ++
        L "    *   Title used to cover it:" ++ [NL] ++
        L "        *    " ++ TICKS ++ opt_default (req_title l) [] ++ TICKS ++ [NL] ++'''))
m('Z12', 'MdFmt.md_error', 'a missing title is shown as a dash', 'C99',
  (MF, 'TICKS ++ opt_default (req_title u) [] ++ TICKS', 'TICKS ++ opt_default (req_title u) (L "-") ++ TICKS'))

# --- found by the mechanical mutants of automut.py
m('AA01', 'Tags.TAGS_HEADER', 'the file is declared unsorted', 'C83',
  ('Tags.v', '[TAB] ++ L "1" ++ [TAB]', '[TAB] ++ L "0" ++ [TAB]'))
m('AA02', 'Location.USIZE', 'numbers of 32 bits', 'C29',
  ('Location.v', '18446744073709551616', '4294967296'))
m('AA03', 'Location.parse_digits', 'the two reasons are swapped', 'C29',
  ('Location.v', 'L "invalid digit found in string"', 'L "number too large to fit in target type"'),
  ('Location.v', 'Definition too_large : str := L "number too large to fit in target type"',
   'Definition too_large : str := L "invalid digit found in string"'))
m('AA04', 'Paths.part_counts', 'empty parts and lone dots at the end of a path count', 'C26',
  ('Paths.v', 'negb (eqb c [] || eqb c [DOT])', 'negb (eqb c [] && eqb c [DOT])'))
m('AA05', 'Paths.file_stem', 'a file whose only dot is its first character has no stem', 'C26',
  ('Paths.v', '| Some ([], _) | None => Some n', '| Some ([], _) => None | None => Some n'))
m('AA06', 'Controller.debug_strs', 'the paths are listed without brackets', 'C55',
  ('Controller.v', 'L "[" ++ join (L ", ") (map debug_str l) ++ L "]"', 'join (L ", ") (map debug_str l)'))
m('AA07', 'Controller.debug_parser', 'the name of another parser', 'C55',
  ('Controller.v', '| PJson => L "Json"', '| PJson => L "Markdown"'))
m('AA08', 'Cli.EQUALS', 'a colon separates options and values', 'C78',
  ('Cli.v', 'Definition EQUALS : chr := 61', 'Definition EQUALS : chr := 58'))
m('AA09', 'Show.show_error', 'the text of an I/O error does not name the file', 'C100',
  ('Show.v', 'L "IO Error: " ++ m ++ L " in " ++ p', 'L "IO Error: " ++ m'))
m('AA10', 'Show.show_error', 'errors in the configuration begin with Error', 'C100',
  ('Show.v', 'L "Configuration Error  " ++ m', 'L "Error in Configuration " ++ m'))
m('AA11', 'Show.show_error', 'upper and lower are swapped in the text about a wrong title', 'C100',
  ('Show.v', 'show_requirement u ++ L " <- " ++ show_requirement l', 'show_requirement l ++ L " <- " ++ show_requirement u'))
m('AA12', 'Show.show_error', 'a tilde after the id in the text about a missing title', 'C100',
  ('Show.v', 'L " must have a title"', 'L "~ must have a title"'))
m('AA13', 'Show.show_relation', 'no blank after the commas', 'C101',
  ('Show.v', 'join (L ", ") (rel_lower r)', 'join (L ",") (rel_lower r)'))
m('AA14', 'Show.show_relation', 'only the first lower artefact is shown', 'C101',
  ('Show.v', 'join (L ", ") (rel_lower r)', 'join (L ", ") (firstn 1 (rel_lower r))'))
m('AA15', 'Unicode.is_ws', 'a tabulator is not white space', 'C89',
  ('Unicode.v', '((9 <=? c) && (c <=? 13))', '((10 <=? c) && (c <=? 13))'))
m('AA16', 'Utf8.invalid_utf8', 'another text for lines that are not UTF-8', 'C70',
  ('Utf8.v', 'L "stream did not contain valid UTF-8"', 'L "invalid UTF-8"'))
m('AA17', 'MdFmt.slug_char', 'underscores are left out of the targets of links', 'C102',
  ('MdFmt.v', 'is_digit_ascii c || (c =? 95) || (c =? 45)', 'is_digit_ascii c || (c =? 45)'))
m('AA18', 'MdFmt.requirement_link', 'no dash between id and title in the targets of links', 'C102',
  ('MdFmt.v', 'L "](#" ++ slug (req_id r ++ L "-" ++ t)', 'L "](#" ++ slug (req_id r ++ t)'))
m('AA19', 'Serialize.optional', 'optional entries of JSON objects must be there', 'C69',
  ('Serialize.v', 'match v with Missing => Some None', 'match v with Missing => None'))
m('AA20', 'Serialize.unjusize', 'the number 2^64 is read', 'C69',
  ('Serialize.v', 'JNum n => if n <? USIZE', 'JNum n => if n <=? USIZE'))
m('AA21', 'Serialize.field', 'of an entry given twice the first counts', 'C69',
  ('Serialize.v', '| [e] => Once (snd e)', '| e :: _ => Once (snd e)'),
  ('Serialize.v', '  | _ => Twice\n', ''))
m('AA22', 'Show.show_error', 'no colon before the message of a format error', 'C103',
  ('Show.v', 'show_location l ++ L ": " ++ m', 'show_location l ++ L " " ++ m'))
m('AA23', 'MdFmt.md_error', 'the place of a format error is on the line of the message', 'C103',
  ('MdFmt.v', 'L "*   Format Error: " ++ m ++ [NL] ++ L "    in "', 'L "*   Format Error: " ++ m ++ L "    in "'))
m('AA24', 'MdFmt.md_error', 'errors of the configuration are not list items', 'C103',
  ('MdFmt.v', 'L "*   Config Error: "', 'L "Config Error: "'))
m('AA25', 'GnuErr.gnu_error', 'the two places of a repeated requirement are swapped', 'C103',
  ('GnuErr.v', 'show_location (req_location r2) ++ L ": Duplicate', 'show_location (req_location r1) ++ L ": Duplicate'),
  ('GnuErr.v', 'show_location (req_location r1) ++ L ": note: prev', 'show_location (req_location r2) ++ L ": note: prev'))
m('AB01', 'Utf8.scalar', 'surrogates are characters', 'C104',
  ('Utf8.v', '(c <? 55296) || ((57343 <? c) && (c <=? 1114111))', 'c <=? 1114111'))
m('AB02', 'Utf8.scalar', 'characters reach to 2^21', 'C104',
  ('Utf8.v', '(c <=? 1114111)', '(c <? 2097152)'),
  ('Utf8.v', 'if (240 <=? b0) && (b0 <=? 244)', 'if (240 <=? b0) && (b0 <=? 247)'))
m('AB03', 'Utf8.decode', 'overlong forms of two bytes are read', 'C104',
  ('Utf8.v', 'if (194 <=? b0) && (b0 <=? 223)', 'if (192 <=? b0) && (b0 <=? 223)'))
m('AB04', 'Paths.path_join', 'there is no slash between base directory and path', 'C105',
  ('Paths.v', 'else base ++ [SLASH] ++ p', 'else base ++ p'))
m('AB05', 'Paths.path_join', 'absolute paths are taken from the base directory too', 'C105',
  ('Paths.v', '  if is_absolute p then p\n  else match base with', '  match base with'),
  ('Paths.v', 'if ends_with_c SLASH base then base ++ p else base ++ [SLASH] ++ p\n       end.', 'if ends_with_c SLASH base then base ++ p else base ++ [SLASH] ++ p\n  end.'))
m('AB06', 'Paths.path_join', 'an empty base directory is the root', 'C105',
  ('Paths.v', '| [] => p\n       | _ =>', '| [] => [SLASH] ++ p\n       | _ =>'))
m('AB07', 'Controller.open_output', 'relative outputs are written to the current directory', 'C105',
  ('Controller.v', 'let p := if is_absolute (job_file j) then job_file j else path_join (ctl_base c) (job_file j) in', 'let p := job_file j in'))
m('AB08', 'Controller.glob_paths', 'patterns are not taken from the base directory', 'C105',
  ('Controller.v', 'in_glob (if is_absolute p then p else base ++ L "/" ++ p)', 'in_glob p'))
m('AC01', 'Base.list_cmp', 'of two texts of which one starts with the other the longer one comes first', 'C106',
  ('Base.v', '  | [], _ :: _ => Lt\n  | _ :: _, [] => Gt\n  | a :: x', '  | [], _ :: _ => Gt\n  | _ :: _, [] => Lt\n  | a :: x'))
m('AC02', 'Models.Ord_relation', 'relations are ordered by the lower artefacts first', 'C106',
  ('Models.v', 'cmp := fun x y => cmp (rel_upper x, rel_lower x) (rel_upper y, rel_lower y)', 'cmp := fun x y => cmp (rel_lower x, rel_upper x) (rel_lower y, rel_upper y)'))
