{
 "claims": [
  {
   "property": "C01",
   "status": "proved",
   "theorems": [
    "C01_coverage_is_links",
    "C01_coverage_order",
    "C01_links_complete"
   ],
   "note": ""
  },
  {
   "property": "C02",
   "status": "proved",
   "theorems": [
    "C02_uncovered_exact"
   ],
   "note": ""
  },
  {
   "property": "C03",
   "status": "proved",
   "theorems": [
    "C03_derived_exact"
   ],
   "note": ""
  },
  {
   "property": "C04",
   "status": "proved",
   "theorems": [
    "C04_covers_unknown_exact",
    "C04_depends_unknown_exact"
   ],
   "note": ""
  },
  {
   "property": "C05",
   "status": "proved",
   "theorems": [
    "C05_wrong_title_exact",
    "C08_errors_classified"
   ],
   "note": ""
  },
  {
   "property": "C06",
   "status": "proved",
   "theorems": [
    "C06_missing_title_exact",
    "C08_errors_classified"
   ],
   "note": ""
  },
  {
   "property": "C07",
   "status": "proved",
   "theorems": [
    "C07_duplicates_exact",
    "C07_first_definition",
    "C07_lower_is_first",
    "C07_titles_of_first",
    "C07_covers_to_first_refuted"
   ],
   "note": "Lower requirements are first definitions; that covers references are resolved to the first definition too is refuted (an earlier version of the English claimed it without a theorem about trace)."
  },
  {
   "property": "C08",
   "status": "proved",
   "theorems": [
    "C08_unused_exact",
    "C08_unused_count",
    "C08_errors_classified"
   ],
   "note": ""
  },
  {
   "property": "C09",
   "status": "proved",
   "theorems": [
    "C09_panic_exact"
   ],
   "note": ""
  },
  {
   "property": "C10",
   "status": "proved",
   "theorems": [
    "C10_relation_order"
   ],
   "note": ""
  },
  {
   "property": "C11",
   "status": "proved",
   "theorems": [
    "C11_structure"
   ],
   "note": ""
  },
  {
   "property": "C12",
   "status": "proved",
   "theorems": [
    "C12_more_relations"
   ],
   "note": ""
  },
  {
   "property": "C13",
   "status": "proved",
   "theorems": [
    "C13_covers_checked",
    "C13_depends_checked",
    "C13_all_references_checked_refuted",
    "C13_masked_dangling_refuted"
   ],
   "note": "Positive part for graphs with unique ids; the unrestricted expectation is refuted with two witnesses."
  },
  {
   "property": "C14",
   "status": "proved",
   "theorems": [
    "C14_panic_exact",
    "C14_never_panics_refuted"
   ],
   "note": "Exact panic condition; the unconditional statement is refuted (relation from an empty artefact to an unknown one)."
  },
  {
   "property": "C15",
   "status": "proved",
   "theorems": [
    "C15_cross_references",
    "C15_symmetric"
   ],
   "note": ""
  },
  {
   "property": "C16",
   "status": "proved",
   "theorems": [
    "C16_artefact_relations"
   ],
   "note": ""
  },
  {
   "property": "C17",
   "status": "proved",
   "theorems": [
    "C17_panic_exact"
   ],
   "note": ""
  },
  {
   "property": "C18",
   "status": "proved",
   "theorems": [
    "C18_headings",
    "C18_all_headings_refuted"
   ],
   "note": "Exact condition for losing the last requirement; the unconditional statement is refuted."
  },
  {
   "property": "C19",
   "status": "proved",
   "theorems": [
    "C19_preamble_ignored"
   ],
   "note": ""
  },
  {
   "property": "C20",
   "status": "proved",
   "theorems": [
    "C20_independent"
   ],
   "note": ""
  },
  {
   "property": "C21",
   "status": "proved",
   "theorems": [
    "C21_wellformed"
   ],
   "note": ""
  },
  {
   "property": "C22",
   "status": "proved",
   "theorems": [
    "C22_locations"
   ],
   "note": ""
  },
  {
   "property": "C23",
   "status": "proved",
   "theorems": [
    "C23_description_verbatim",
    "C23_description_preserved_refuted",
    "C52_grammar_exact"
   ],
   "note": "Verbatim for one paragraph; the general statement is refuted; what exactly is kept is part of C52."
  },
  {
   "property": "C24",
   "status": "proved",
   "theorems": [
    "C24_duplicates_reported",
    "C24_last_wins"
   ],
   "note": ""
  },
  {
   "property": "C25",
   "status": "proved",
   "theorems": [
    "C25_whitespace_lines_refuted",
    "C25_after_list"
   ],
   "note": "The expectation is false; refuted with a witness. True directly after a list of references."
  },
  {
   "property": "C51",
   "status": "proved",
   "theorems": [
    "C51_attribute_after_links_refuted",
    "C51_after_empty_line"
   ],
   "note": "The expectation is false; refuted with a witness. True after the heading or an empty line."
  },
  {
   "property": "C52",
   "status": "proved",
   "theorems": [
    "C52_grammar_total",
    "C52_grammar_exact"
   ],
   "note": ""
  },
  {
   "property": "C50",
   "status": "proved",
   "theorems": [
    "C50_same_definition",
    "C50_largest",
    "C50_same_definition_refuted"
   ],
   "note": "Holds for unique ids; refuted with duplicate ids."
  },
  {
   "property": "C26",
   "status": "proved",
   "theorems": [
    "C26_exact",
    "C26_panics",
    "C26_no_arrow",
    "C26_plain",
    "C26_titled",
    "C26_stem",
    "C26_id"
   ],
   "note": ""
  },
  {
   "property": "C29",
   "status": "proved",
   "theorems": [
    "C29_round_trip",
    "C29_accepts",
    "C29_total",
    "C29_rejects",
    "C29_messages"
   ],
   "note": ""
  },
  {
   "property": "C30",
   "status": "proved",
   "theorems": [
    "C30_order",
    "C30_dual",
    "C30_transitive",
    "C30_consistent_refuted",
    "C30_requirements",
    "C30_requirements_refuted"
   ],
   "note": ""
  },
  {
   "property": "C27",
   "status": "proved",
   "theorems": [
    "C27_exact",
    "C27_covers_in_order",
    "C27_panics",
    "C27_unreadable"
   ],
   "note": "The syntax tree made by syn is arbitrary."
  },
  {
   "property": "C28",
   "status": "proved",
   "theorems": [
    "C28_unique_ids",
    "C28_unique_ids_refuted"
   ],
   "note": "Holds if the marks of each scope are consecutive; refuted for nested functions."
  },
  {
   "property": "C53",
   "status": "proved",
   "theorems": [
    "C53_counted",
    "C53_item_position_refuted",
    "C53_qualified_refuted"
   ],
   "note": "Exactly which calls count; the expectation that all count is refuted."
  },
  {
   "property": "C54",
   "status": "proved",
   "theorems": [
    "C54_any_title",
    "C54_plain_title",
    "C54_title_refuted"
   ],
   "note": "Holds for literals without escapes; refuted with an escaped quote."
  },
  {
   "property": "C31",
   "status": "proved",
   "theorems": [
    "C31_nothing_lost"
   ],
   "note": ""
  },
  {
   "property": "C32",
   "status": "proved",
   "theorems": [
    "C32_ignore_derived"
   ],
   "note": ""
  },
  {
   "property": "C33",
   "status": "proved",
   "theorems": [
    "C33_untitled",
    "C33_order"
   ],
   "note": ""
  },
  {
   "property": "C34",
   "status": "proved",
   "theorems": [
    "C34_panics",
    "C34_traced"
   ],
   "note": ""
  },
  {
   "property": "C35",
   "status": "proved",
   "theorems": [
    "C35_present",
    "C35_last_counts",
    "C35_all_present_refuted"
   ],
   "note": "Ids are present once; that every configured artefact is kept is refuted."
  },
  {
   "property": "C36",
   "status": "proved",
   "theorems": [
    "C36_unknown_job"
   ],
   "note": ""
  },
  {
   "property": "C37",
   "status": "proved",
   "theorems": [
    "C37_all_run",
    "C37_stops",
    "C37_io_error"
   ],
   "note": ""
  },
  {
   "property": "C38",
   "status": "proved",
   "theorems": [
    "C38_success"
   ],
   "note": ""
  },
  {
   "property": "C39",
   "status": "proved",
   "theorems": [
    "C39_exit_0",
    "C39_exit_1",
    "C39_exit_2",
    "C39_no_other"
   ],
   "note": ""
  },
  {
   "property": "C40",
   "status": "proved",
   "theorems": [
    "C40_sound",
    "C40_exact"
   ],
   "note": ""
  },
  {
   "property": "C41",
   "status": "proved",
   "theorems": [
    "C41_panics",
    "C41_truncates"
   ],
   "note": ""
  },
  {
   "property": "C55",
   "status": "proved",
   "theorems": [
    "C55_sources",
    "C55_sources_unique"
   ],
   "note": ""
  },
  {
   "property": "C56",
   "status": "proved",
   "theorems": [
    "C56_panics"
   ],
   "note": ""
  },
  {
   "property": "C57",
   "status": "proved",
   "theorems": [
    "C57_report"
   ],
   "note": ""
  },
  {
   "property": "C58",
   "status": "proved",
   "theorems": [
    "C58_only_outputs"
   ],
   "note": ""
  },
  {
   "property": "C42",
   "status": "proved",
   "theorems": [
    "C42_tags",
    "C42_sorted_by_name"
   ],
   "note": ""
  },
  {
   "property": "C43",
   "status": "proved",
   "theorems": [
    "C43_json"
   ],
   "note": ""
  },
  {
   "property": "C44",
   "status": "proved",
   "theorems": [
    "C44_gnu_report",
    "C44_places",
    "C44_notes",
    "C44_mentions",
    "C44_phrases"
   ],
   "note": ""
  },
  {
   "property": "C45",
   "status": "proved",
   "theorems": [
    "C45_markdown_report",
    "C45_distinct",
    "C45_all_listed",
    "C45_phrases",
    "C45_location_link",
    "C45_place_refuted"
   ],
   "note": "The place of a requirement without title is missing: refuted with a witness."
  },
  {
   "property": "C46",
   "status": "proved",
   "theorems": [
    "C46_anchor_clean",
    "C46_anchor_of_heading",
    "C46_anchor_unique_refuted"
   ],
   "note": ""
  },
  {
   "property": "C47",
   "status": "proved",
   "theorems": [
    "C47_gnu_right",
    "C47_markdown_refuted"
   ],
   "note": "False for Markdown, refuted with a witness; right for GNU."
  },
  {
   "property": "C49",
   "status": "proved",
   "theorems": [
    "C49_round_trip",
    "C49_export_not_importable",
    "C49_import_export_refuted"
   ],
   "note": "On JSON values; for texts see C68 and C69."
  },
  {
   "property": "C59",
   "status": "proved",
   "theorems": [
    "C59_own_requirements",
    "C59_own_requirements_refuted"
   ],
   "note": "Holds for unique ids; refuted with duplicate ids."
  },
  {
   "property": "C48",
   "status": "proved",
   "theorems": [
    "C48_round_trip",
    "C48_report",
    "C48_description_refuted",
    "C48_repeat_refuted",
    "C48_value_refuted"
   ],
   "note": "Round trip for exportable requirements (RoundSpec.v), for the requirement list and for the whole Parse/Markdown report; witnesses for the three ways in which other output of the parser does not survive."
  },
  {
   "property": "C60",
   "status": "proved",
   "theorems": [
    "C60_headings_covered",
    "C60_marks_known",
    "C60_headings_covered_refuted"
   ],
   "note": "Composition of parsers, tracer and exit status. Refuted without the condition on the end of the Markdown file."
  },
  {
   "property": "C61",
   "status": "proved",
   "theorems": [
    "C61_trace_read_back",
    "C61_faithful"
   ],
   "note": "On JSON values; for texts see C68. The reader is JsonSpec.v."
  },
  {
   "property": "C62",
   "status": "proved",
   "theorems": [
    "C62_either_side"
   ],
   "note": ""
  },
  {
   "property": "C63",
   "status": "proved",
   "theorems": [
    "C63_split"
   ],
   "note": ""
  },
  {
   "property": "C64",
   "status": "proved",
   "theorems": [
    "C64_unconnected"
   ],
   "note": "The order of the errors is left open."
  },
  {
   "property": "C65",
   "status": "proved",
   "theorems": [
    "C65_no_dead_links",
    "C65_duplicate_ids_refuted"
   ],
   "note": "Holds for unique ids and ASCII headings; refuted with duplicate ids."
  },
  {
   "property": "C66",
   "status": "proved",
   "theorems": [
    "C66_exact",
    "C66_round_trip",
    "C66_known_keys",
    "C66_known_artefact_keys",
    "C66_misspelled_refuted"
   ],
   "note": "From the TOML value on; the syntax of TOML is external. That misspelled keys are reported is refuted."
  },
  {
   "property": "C67",
   "status": "proved",
   "theorems": [
    "C67_used",
    "C67_complaint",
    "C67_status",
    "C67_message",
    "C67_message_iff",
    "C67_column_refuted"
   ],
   "note": "A consistent position is refuted."
  },
  {
   "property": "C68",
   "status": "proved",
   "theorems": [
    "C68_trace_report",
    "C68_parse_report",
    "C68_faithful"
   ],
   "note": "Grammar: JsonGrammar.v; serde_json is modelled in SerdeJson.v."
  },
  {
   "property": "C69",
   "status": "proved",
   "theorems": [
    "C69_reader",
    "C69_artefact",
    "C69_round_trip"
   ],
   "note": "serde_json is modelled in SerdeJson.v; strings of members that are not used are checked in the model only."
  },
  {
   "property": "C70",
   "status": "proved",
   "theorems": [
    "C70_cut",
    "C70_replaced_refuted"
   ],
   "note": "The documented replacement is refuted."
  },
  {
   "property": "C71",
   "status": "proved",
   "theorems": [
    "C71_ignored",
    "C71_documented_nothing",
    "C71_documented_refuted"
   ],
   "note": "The documented example is refuted."
  },
  {
   "property": "C72",
   "status": "proved",
   "theorems": [
    "C72_untagged",
    "C72_documented_refuted"
   ],
   "note": "The documented attribute is refuted."
  },
  {
   "property": "C73",
   "status": "proved",
   "theorems": [
    "C73_after_arrow",
    "C73_title",
    "C73_documented_title_refuted",
    "C73_documented_arrows_refuted"
   ],
   "note": "The documented title and the documented references are refuted. Exact result: C26."
  },
  {
   "property": "C74",
   "status": "proved",
   "theorems": [
    "C74_copied",
    "C74_normalised_refuted"
   ],
   "note": "Normalisation is refuted."
  },
  {
   "property": "C75",
   "status": "proved",
   "theorems": [
    "C75_contributes",
    "C75_missing",
    "C75_late_error_refuted",
    "C75_no_match_refuted"
   ],
   "note": "Refuted for patterns of Rust artefacts."
  },
  {
   "property": "C76",
   "status": "proved",
   "theorems": [
    "C76_files",
    "C76_reported"
   ],
   "note": "For the JSON text of serde_json as modelled in SerdeJson.v."
  },
  {
   "property": "C77",
   "status": "proved",
   "theorems": [
    "C77_artefacts",
    "C77_paths"
   ],
   "note": ""
  },
  {
   "property": "C78",
   "status": "proved",
   "theorems": [
    "C78_obeyed",
    "C78_asked",
    "C78_runs",
    "C78_prints",
    "C78_refuses",
    "C78_unique"
   ],
   "note": "For the argument parser of clap 4.5 as modelled in Cli.v; what the jobs do is C36-C41, C67."
  },
  {
   "property": "C79",
   "status": "proved",
   "theorems": [
    "C79_same",
    "C79_quiet_refuted"
   ],
   "note": "That --quiet silences messages is refuted."
  },
  {
   "property": "C80",
   "status": "proved",
   "theorems": [
    "C80_more",
    "C80_old_ids_refuted"
   ],
   "note": "Without the condition on the ids it is refuted."
  },
  {
   "property": "C81",
   "status": "proved",
   "theorems": [
    "C81_relabel"
   ],
   "note": ""
  },
  {
   "property": "C82",
   "status": "proved",
   "theorems": [
    "C82_text",
    "C82_joined_refuted",
    "C82_paragraph_refuted",
    "C82_word_refuted"
   ],
   "note": "The lines before the attribute must contain no heading and no format error. The documented rules are refuted with files."
  },
  {
   "property": "C83",
   "status": "proved",
   "theorems": [
    "C83_read",
    "C83_unambiguous",
    "C83_header",
    "C83_all_refuted",
    "C83_tab_refuted",
    "C83_header_refuted",
    "C83_trace_refuted"
   ],
   "note": "Refuted for requirements without line, for file names with tabulators, and for the number of fields in the header."
  },
  {
   "property": "C84",
   "status": "proved",
   "theorems": [
    "C84_markdown",
    "C84_short_list_refuted",
    "C84_mono_refuted",
    "C84_rust_refuted",
    "C84_json_refuted"
   ],
   "note": "Refuted for the other parsers and for short lists."
  },
  {
   "property": "C85",
   "status": "proved",
   "theorems": [
    "C85_down",
    "C85_up",
    "C85_no_way_back",
    "C85_exit_0",
    "C85_loop_refuted"
   ],
   "note": "Refuted with loops in the relations."
  },
  {
   "property": "C86",
   "status": "proved",
   "theorems": [
    "C86_same",
    "C86_same_refuted"
   ],
   "note": "Refuted for errors with equal texts in Parse/Json."
  },
  {
   "property": "C87",
   "status": "proved",
   "theorems": [
    "C87_cached",
    "C87_opened",
    "C87_recorded_refuted",
    "C87_identifiable_refuted"
   ],
   "note": "The libraries (syn, serde_json) and the outputs are the same in both runs."
  },
  {
   "property": "C88",
   "status": "proved",
   "theorems": [
    "C88_crlf",
    "C88_swallowed",
    "C88_crlf_refuted",
    "C88_bare_refuted",
    "C88_mono",
    "C88_bom",
    "C88_bom_refuted",
    "C88_json_bom"
   ],
   "note": "That line ends and byte order marks do not matter is refuted for Markdown. How syn treats them is outside."
  },
  {
   "property": "C89",
   "status": "proved",
   "theorems": [
    "C89_headings",
    "C89_references",
    "C89_mono",
    "C89_heading_re",
    "C89_attribute_re",
    "C89_reference_re",
    "C89_arrow_re",
    "C89_white_space"
   ],
   "note": "The Unicode tables are parameters, so that the result holds for every version of Unicode."
  },
  {
   "property": "C90",
   "status": "proved",
   "theorems": [
    "C90_order"
   ],
   "note": ""
  },
  {
   "property": "C91",
   "status": "proved",
   "theorems": [
    "C91_read",
    "C91_places",
    "C91_markdown",
    "C91_forged_refuted",
    "C91_file_name_refuted",
    "C91_hash_refuted"
   ],
   "note": "Debug output (`{:?}`) is assumed to have no line breaks, as the one of str has. Refuted for other ids and file names."
  },
  {
   "property": "C92",
   "status": "proved",
   "theorems": [
    "C92_requirement_links",
    "C92_location_links",
    "C92_quote",
    "C92_quote_refuted",
    "C92_blank",
    "C92_blank_refuted"
   ],
   "note": "Inline links are the plain form of CommonMark 0.30, section 6.3 (MdInline.v). That titles and file names may contain anything is refuted."
  },
  {
   "property": "C93",
   "status": "proved",
   "theorems": [
    "C93_outline",
    "C93_headlines",
    "C93_export",
    "C93_forged_refuted"
   ],
   "note": "Headings are ATX headings (CommonMark 0.30, section 4.2), found line by line (OutlineSpec.v); setext headings and code blocks are not regarded. That attributes may contain anything is refuted."
  },
  {
   "property": "C94",
   "status": "proved",
   "theorems": [
    "C94_same_graph",
    "C94_same_project",
    "C94_markdown",
    "C94_json",
    "C94_any_id_refuted"
   ],
   "note": "Same findings are defined in SameSpec.v without the tracer. That the Markdown export of any artefact may replace it is refuted."
  },
  {
   "property": "C95",
   "status": "proved",
   "theorems": [
    "C95_gnu",
    "C95_markdown",
    "C95_json",
    "C95_export_markdown",
    "C95_export_json",
    "C95_tags_refuted"
   ],
   "note": "The JSON theorems are about texts and the grammar of RFC 8259. That the tags file tells whether the job succeeds is refuted."
  },
  {
   "property": "C96",
   "status": "proved",
   "theorems": [
    "C96_all",
    "C96_fewer",
    "C96_by_name",
    "C96_any_names_refuted"
   ],
   "note": "That all given jobs run whatever names are given is refuted."
  },
  {
   "property": "C97",
   "status": "proved",
   "theorems": [
    "C97_errors"
   ],
   "note": "With the text of `SerdeJson.v`."
  },
  {
   "property": "C98",
   "status": "proved",
   "theorems": [
    "C98_builder",
    "C98_depends_refuted"
   ],
   "note": "That `depends` adds to `depends` is refuted."
  },
  {
   "property": "C99",
   "status": "proved",
   "theorems": [
    "C99_titles",
    "C99_plain",
    "C99_no_title",
    "C99_any_title_refuted"
   ],
   "note": "Code spans are read by a function of CodeSpec.v that follows CommonMark 0.30, section 6.1; that the line is a list item with inline content is not part of the theorem. That every title is shown is refuted."
  },
  {
   "property": "C100",
   "status": "proved",
   "theorems": [
    "C100_groups",
    "C100_order",
    "C100_contents",
    "C100_lines_refuted",
    "C100_texts_refuted"
   ],
   "note": "The order of lines and different texts for different errors are refuted."
  },
  {
   "property": "C101",
   "status": "proved",
   "theorems": [
    "C101_text",
    "C101_told_apart",
    "C101_any_names_refuted"
   ],
   "note": "Refuted for any names."
  },
  {
   "property": "C102",
   "status": "proved",
   "theorems": [
    "C102_told_apart",
    "C102_exact",
    "C102_page",
    "C102_any_ids_refuted",
    "C102_page_refuted",
    "C102_umlauts"
   ],
   "note": "Refuted for any ids. C102_umlauts assumes of the case tables that the lower case of two umlauts is what Unicode says."
  },
  {
   "property": "C103",
   "status": "proved",
   "theorems": [
    "C103_display",
    "C103_gnu",
    "C103_markdown",
    "C103_items",
    "C103_items_refuted"
   ],
   "note": "That the message about the empty graph is a list item is refuted. Debug output within GNU messages is a parameter."
  },
  {
   "property": "C104",
   "status": "proved",
   "theorems": [
    "C104_rust",
    "C104_mono",
    "C104_markdown",
    "C104_headings",
    "C104_json",
    "C104_one_text",
    "C104_every_text"
   ],
   "note": "For JSON the reader of serde_json is the one of SerdeJson.v."
  },
  {
   "property": "C105",
   "status": "proved",
   "theorems": [
    "C105_reads",
    "C105_writes",
    "C105_patterns",
    "C105_one",
    "C105_absolute",
    "C105_leads",
    "C105_walk",
    "C105_pattern_absolute",
    "C105_empty_base_refuted"
   ],
   "note": "Unix paths. What glob finds for a pattern is arbitrary. That patterns for an empty base directory are relative is refuted."
  },
  {
   "property": "C106",
   "status": "proved",
   "theorems": [
    "C106_order",
    "C106_graph",
    "C106_json",
    "C106_markdown",
    "C106_tags",
    "C106_uncovered",
    "C106_derived",
    "C106_aggregated",
    "C106_unknown"
   ],
   "note": ""
  }
 ]
}
