#!/usr/bin/env python3
"""Writes MANIFEST.json; the claims are listed here."""
import json, os, re
ROOT = os.path.dirname(os.path.dirname(os.path.abspath(__file__)))
claims = []
def claim(prop, status, theorems, note=""):
    claims.append({"property": prop, "status": status, "theorems": theorems.split(), "note": note})

claim("C01", "proved", "C01_coverage_is_links C01_coverage_order C01_links_complete")
claim("C02", "proved", "C02_uncovered_exact")
claim("C03", "proved", "C03_derived_exact")
claim("C04", "proved", "C04_covers_unknown_exact C04_depends_unknown_exact")
claim("C05", "proved", "C05_wrong_title_exact C08_errors_classified")
claim("C06", "proved", "C06_missing_title_exact C08_errors_classified")
claim("C07", "proved", "C07_duplicates_exact C07_first_definition C07_lower_is_first C07_titles_of_first C07_covers_to_first_refuted",
      "Lower requirements are first definitions; that covers references are resolved to the first definition too is refuted (an earlier version of the English claimed it without a theorem about trace).")
claim("C08", "proved", "C08_unused_exact C08_unused_count C08_errors_classified")
claim("C09", "proved", "C09_panic_exact")
claim("C10", "proved", "C10_relation_order")
claim("C11", "proved", "C11_structure")
claim("C12", "proved", "C12_more_relations")
claim("C13", "proved", "C13_covers_checked C13_depends_checked C13_all_references_checked_refuted C13_masked_dangling_refuted",
      "Positive part for graphs with unique ids; the unrestricted expectation is refuted with two witnesses.")
claim("C14", "proved", "C14_panic_exact C14_never_panics_refuted",
      "Exact panic condition; the unconditional statement is refuted (relation from an empty artefact to an unknown one).")
claim("C15", "proved", "C15_cross_references C15_symmetric")
claim("C16", "proved", "C16_artefact_relations")
claim("C17", "proved", "C17_panic_exact")
claim("C18", "proved", "C18_headings C18_all_headings_refuted", "Exact condition for losing the last requirement; the unconditional statement is refuted.")
claim("C19", "proved", "C19_preamble_ignored")
claim("C20", "proved", "C20_independent")
claim("C21", "proved", "C21_wellformed")
claim("C22", "proved", "C22_locations")
claim("C23", "proved", "C23_description_verbatim C23_description_preserved_refuted C52_grammar_exact",
      "Verbatim for one paragraph; the general statement is refuted; what exactly is kept is part of C52.")
claim("C24", "proved", "C24_duplicates_reported C24_last_wins")
claim("C25", "proved", "C25_whitespace_lines_refuted C25_after_list", "The expectation is false; refuted with a witness. True directly after a list of references.")
claim("C51", "proved", "C51_attribute_after_links_refuted C51_after_empty_line", "The expectation is false; refuted with a witness. True after the heading or an empty line.")
claim("C52", "proved", "C52_grammar_total C52_grammar_exact")
claim("C50", "proved", "C50_same_definition C50_largest C50_same_definition_refuted",
      "Holds for unique ids; refuted with duplicate ids.")
claim("C26", "proved", "C26_exact C26_panics C26_no_arrow C26_plain C26_titled C26_stem C26_id")
claim("C29", "proved", "C29_round_trip C29_accepts C29_total C29_rejects C29_messages")
claim("C30", "proved", "C30_order C30_dual C30_transitive C30_consistent_refuted C30_requirements C30_requirements_refuted")
claim("C27", "proved", "C27_exact C27_covers_in_order C27_panics C27_unreadable", "The syntax tree made by syn is arbitrary.")
claim("C28", "proved", "C28_unique_ids C28_unique_ids_refuted", "Holds if the marks of each scope are consecutive; refuted for nested functions.")
claim("C53", "proved", "C53_counted C53_item_position_refuted C53_qualified_refuted", "Exactly which calls count; the expectation that all count is refuted.")
claim("C54", "proved", "C54_any_title C54_plain_title C54_title_refuted", "Holds for literals without escapes; refuted with an escaped quote.")
claim("C31", "proved", "C31_nothing_lost")
claim("C32", "proved", "C32_ignore_derived")
claim("C33", "proved", "C33_untitled C33_order")
claim("C34", "proved", "C34_panics C34_traced")
claim("C35", "proved", "C35_present C35_last_counts C35_all_present_refuted", "Ids are present once; that every configured artefact is kept is refuted.")
claim("C36", "proved", "C36_unknown_job")
claim("C37", "proved", "C37_all_run C37_stops C37_io_error")
claim("C38", "proved", "C38_success")
claim("C39", "proved", "C39_exit_0 C39_exit_1 C39_exit_2 C39_no_other")
claim("C40", "proved", "C40_sound C40_exact")
claim("C41", "proved", "C41_panics C41_truncates")
claim("C55", "proved", "C55_sources C55_sources_unique")
claim("C56", "proved", "C56_panics")
claim("C57", "proved", "C57_report")
claim("C58", "proved", "C58_only_outputs")
claim("C42", "proved", "C42_tags C42_sorted_by_name")
claim("C43", "proved", "C43_json")
claim("C44", "proved", "C44_gnu_report C44_places C44_notes C44_mentions C44_phrases")
claim("C45", "proved", "C45_markdown_report C45_distinct C45_all_listed C45_phrases C45_location_link C45_place_refuted",
      "The place of a requirement without title is missing: refuted with a witness.")
claim("C46", "proved", "C46_anchor_clean C46_anchor_of_heading C46_anchor_unique_refuted")
claim("C47", "proved", "C47_gnu_right C47_markdown_refuted", "False for Markdown, refuted with a witness; right for GNU.")
claim("C49", "proved", "C49_round_trip C49_export_not_importable C49_import_export_refuted", "On JSON values; for texts see C68 and C69.")
claim("C59", "proved", "C59_own_requirements C59_own_requirements_refuted", "Holds for unique ids; refuted with duplicate ids.")
claim("C48", "proved", "C48_round_trip C48_report C48_description_refuted C48_repeat_refuted C48_value_refuted",
      "Round trip for exportable requirements (RoundSpec.v), for the requirement list and for the whole Parse/Markdown report; witnesses for the three ways in which other output of the parser does not survive.")
claim("C60", "proved", "C60_headings_covered C60_marks_known C60_headings_covered_refuted",
      "Composition of parsers, tracer and exit status. Refuted without the condition on the end of the Markdown file.")
claim("C61", "proved", "C61_trace_read_back C61_faithful", "On JSON values; for texts see C68. The reader is JsonSpec.v.")
claim("C62", "proved", "C62_either_side", "")
claim("C63", "proved", "C63_split", "")
claim("C64", "proved", "C64_unconnected", "The order of the errors is left open.")
claim("C65", "proved", "C65_no_dead_links C65_duplicate_ids_refuted", "Holds for unique ids and ASCII headings; refuted with duplicate ids.")
claim("C66", "proved", "C66_exact C66_round_trip C66_known_keys C66_known_artefact_keys C66_misspelled_refuted", "From the TOML value on; the syntax of TOML is external. That misspelled keys are reported is refuted.")
claim("C67", "proved", "C67_used C67_complaint C67_status C67_message C67_message_iff C67_column_refuted", "A consistent position is refuted.")
claim("C68", "proved", "C68_trace_report C68_parse_report C68_faithful", "Grammar: JsonGrammar.v; serde_json is modelled in SerdeJson.v.")
claim("C69", "proved", "C69_reader C69_artefact C69_round_trip", "serde_json is modelled in SerdeJson.v; strings of members that are not used are checked in the model only.")
claim("C70", "proved", "C70_cut C70_replaced_refuted", "The documented replacement is refuted.")
claim("C71", "proved", "C71_ignored C71_documented_nothing C71_documented_refuted", "The documented example is refuted.")
claim("C72", "proved", "C72_untagged C72_documented_refuted", "The documented attribute is refuted.")
claim("C73", "proved", "C73_after_arrow C73_title C73_documented_title_refuted C73_documented_arrows_refuted", "The documented title and the documented references are refuted. Exact result: C26.")
claim("C74", "proved", "C74_copied C74_normalised_refuted", "Normalisation is refuted.")
claim("C75", "proved", "C75_contributes C75_missing C75_late_error_refuted C75_no_match_refuted", "Refuted for patterns of Rust artefacts.")
claim("C76", "proved", "C76_files C76_reported", "For the JSON text of serde_json as modelled in SerdeJson.v.")
claim("C77", "proved", "C77_artefacts C77_paths", "")
claim("C78", "proved", "C78_obeyed C78_asked C78_runs C78_prints C78_refuses C78_unique", "For the argument parser of clap 4.5 as modelled in Cli.v; what the jobs do is C36-C41, C67.")
claim("C79", "proved", "C79_same C79_quiet_refuted", "That --quiet silences messages is refuted.")
claim("C80", "proved", "C80_more C80_old_ids_refuted", "Without the condition on the ids it is refuted.")
claim("C81", "proved", "C81_relabel")
claim("C82", "proved", "C82_text C82_joined_refuted C82_paragraph_refuted C82_word_refuted", "The lines before the attribute must contain no heading and no format error. The documented rules are refuted with files.")
claim("C83", "proved", "C83_read C83_unambiguous C83_header C83_all_refuted C83_tab_refuted C83_header_refuted C83_trace_refuted", "Refuted for requirements without line, for file names with tabulators, and for the number of fields in the header.")
claim("C84", "proved", "C84_markdown C84_short_list_refuted C84_mono_refuted C84_rust_refuted C84_json_refuted", "Refuted for the other parsers and for short lists.")
claim("C85", "proved", "C85_down C85_up C85_no_way_back C85_exit_0 C85_loop_refuted", "Refuted with loops in the relations.")
claim("C86", "proved", "C86_same C86_same_refuted", "Refuted for errors with equal texts in Parse/Json.")
claim("C87", "proved", "C87_cached C87_opened C87_recorded_refuted C87_identifiable_refuted", "The libraries (syn, serde_json) and the outputs are the same in both runs.")
claim("C88", "proved", "C88_crlf C88_swallowed C88_crlf_refuted C88_bare_refuted C88_mono C88_bom C88_bom_refuted C88_json_bom", "That line ends and byte order marks do not matter is refuted for Markdown. How syn treats them is outside.")
claim("C89", "proved", "C89_headings C89_references C89_mono C89_heading_re C89_attribute_re C89_reference_re C89_arrow_re C89_white_space", "The Unicode tables are parameters, so that the result holds for every version of Unicode.")
claim("C90", "proved", "C90_order", "")
claim("C91", "proved", "C91_read C91_places C91_markdown C91_forged_refuted C91_file_name_refuted C91_hash_refuted", "Debug output (`{:?}`) is assumed to have no line breaks, as the one of str has. Refuted for other ids and file names.")
claim("C92", "proved", "C92_requirement_links C92_location_links C92_quote C92_quote_refuted C92_blank C92_blank_refuted", "Inline links are the plain form of CommonMark 0.30, section 6.3 (MdInline.v). That titles and file names may contain anything is refuted.")
claim("C93", "proved", "C93_outline C93_headlines C93_export C93_forged_refuted", "Headings are ATX headings (CommonMark 0.30, section 4.2), found line by line (OutlineSpec.v); setext headings and code blocks are not regarded. That attributes may contain anything is refuted.")
claim("C94", "proved", "C94_same_graph C94_same_project C94_markdown C94_json C94_any_id_refuted", "Same findings are defined in SameSpec.v without the tracer. That the Markdown export of any artefact may replace it is refuted.")
claim("C95", "proved", "C95_gnu C95_markdown C95_json C95_export_markdown C95_export_json C95_tags_refuted", "The JSON theorems are about texts and the grammar of RFC 8259. That the tags file tells whether the job succeeds is refuted.")
claim("C96", "proved", "C96_all C96_fewer C96_by_name C96_any_names_refuted", "That all given jobs run whatever names are given is refuted.")
claim("C97", "proved", "C97_errors", "With the text of `SerdeJson.v`.")
claim("C98", "proved", "C98_builder C98_depends_refuted", "That `depends` adds to `depends` is refuted.")
claim("C99", "proved", "C99_titles C99_plain C99_no_title C99_any_title_refuted", "Code spans are read by a function of CodeSpec.v that follows CommonMark 0.30, section 6.1; that the line is a list item with inline content is not part of the theorem. That every title is shown is refuted.")
claim("C100", "proved", "C100_groups C100_order C100_contents C100_lines_refuted C100_texts_refuted", "The order of lines and different texts for different errors are refuted.")
claim("C101", "proved", "C101_text C101_told_apart C101_any_names_refuted", "Refuted for any names.")
claim("C102", "proved", "C102_told_apart C102_exact C102_page C102_any_ids_refuted C102_page_refuted C102_umlauts", "Refuted for any ids. C102_umlauts assumes of the case tables that the lower case of two umlauts is what Unicode says.")
claim("C103", "proved", "C103_display C103_gnu C103_markdown C103_items C103_items_refuted", "That the message about the empty graph is a list item is refuted. Debug output within GNU messages is a parameter.")
claim("C104", "proved", "C104_rust C104_mono C104_markdown C104_headings C104_json C104_one_text C104_every_text", "For JSON the reader of serde_json is the one of SerdeJson.v.")
claim("C105", "proved", "C105_reads C105_writes C105_patterns C105_one C105_absolute C105_leads C105_walk C105_pattern_absolute C105_empty_base_refuted", "Unix paths. What glob finds for a pattern is arbitrary. That patterns for an empty base directory are relative is refuted.")
claim("C106", "proved", "C106_order C106_graph C106_json C106_markdown C106_tags C106_uncovered C106_derived C106_aggregated C106_unknown", "")
# --- end of claims ---

names = set()
td = os.path.join(ROOT, "rocq", "theories")
for f in os.listdir(td):
    if f.endswith(".v"):
        names |= set(re.findall(r"^(?:Theorem|Lemma|Corollary)\s+([\w']+)", open(os.path.join(td, f)).read(), re.M))
for c in claims:
    for t in c["theorems"]:
        assert t in names, (c["property"], t)
with open(os.path.join(ROOT, "MANIFEST.json"), "w") as f:
    json.dump({"claims": claims}, f, indent=1)
    f.write("\n")
print(len(claims), "claims")
