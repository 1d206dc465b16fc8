# Formal model of wonkodv/reqtrace in Rocq (Coq 8.16.1)

## Approach

Every Rust function of the core is re-written as a total Gallina function in
`rocq/theories/` with a comment naming file and lines of the code it models.
`&mut` parameters become returned values, `Result`/`Option` stay data, and every
`panic!`, `unwrap`, `expect`, `todo!`, `assert!` and map index becomes the explicit
outcome `Panic` of the type `outcome A := Done a | Panic`.
`BTreeMap`/`BTreeSet` are association lists kept sorted by the key order
(`OMap.v`), strings are lists of Unicode scalar values (`N`), files are lists of bytes.

Layers:

* Substrate: `Base.v`, `OMap.v`, `Unicode.v`, `Regex.v` (backtracking leftmost-first matcher),
  `Utf8.v` (decoding, `read_line`, `read_to_string`), `Paths.v`, `Sort.v`.
* Model of the code, no properties: `Models.v`, `Tracer.v`, `Aggregator.v`, `MdLex.v`, `MdParser.v`,
  `MonoParser.v`, `RustParser.v`, `Location.v`, `Show.v`, `GnuErr.v`, `Tags.v`, `Serialize.v`,
  `MdFmt.v`, `Formatters.v`, `Controller.v` (with the model of `main.rs` at its end), `Config.v`, `Cli.v`.
* Vocabulary of the statements: `TraceSpec.v`, `AggSpec.v`, `MdSyntax.v` and `MdSpec.v` (scanners and
  grammar of the Markdown format, without regular expressions or states), `MonoSpec.v`, `RustSpec.v`,
  `FmtSpec.v`, `EntrySpec.v`, `CtlSpec.v`, `RoundSpec.v`, `MetaSpec.v`, `E2ESpec.v`, `JsonSpec.v`, `JsonGrammar.v`, `JsonValues.v`, `Utf8Spec.v`, `OrderSpec.v`, `Where.v`, `ConfigSpec.v`, `CliSpec.v`.
* Proofs: `*Facts.v`, `*Cor*.v` and the other files.
* `Props*.v`: the property theorems: statement, `exact lemma`, `Print Assumptions`, and beside each an
  `Example` with a concrete case that satisfies the hypotheses.

A property that is false of the code has a theorem with the suffix `_refuted`: the negation of the
statement, proved by a concrete input evaluated with `vm_compute`.  The part that does hold is proved
by a theorem of its own.

## Trusted base

* Coq's kernel, including `vm_compute` (used in examples and refutations).
* `Print Assumptions` follows each property theorem; all of them print
  `Closed under the global context`.  No axiom is used.  (A list of everything the standard library
  loads also names `Coq.ssr.ssrunder.Under_rel.*`; these are parameters of a module type of the
  standard library, loaded with it, and no theorem here depends on them.)
* The reading of the Rust code: nothing is extracted or executed; each definition cites its source.
* `Golden.v` replays the data driven tests of the project (`/repo/tests/data`) in the model: the same
  inputs give the same reports, character by character.  `SelfTrace.v` does the same for the project's own
  documents: the model writes the 99 kB of `/repo/reports/tmx.md`.  `UnitTests.v` has the unit tests of
  `/repo/src`.  These are tests of the model, not proofs.
* The tools in `tools/` are not trusted: they write `properties.jsonl`, `MANIFEST.json`, parts of this
  file and the log of the mutation tests.

### What is modelled

| Rust source | Model | Left out or simplified |
|---|---|---|
| `trace.rs` | `Tracer.v`, all functions | log output; `Rc` sharing (values are copied) |
| `aggregator.rs` | `Aggregator.v`, all functions | references into the traced graph are the values they point to |
| `parsers/markdown.rs` | `MdLex.v` (the regular expressions as syntax trees, matched by `Regex.v`), `MdParser.v`, all functions | log output; the line number is unbounded |
| `parsers/monoreq.rs` | `MonoParser.v` | log output |
| `parsers/rust.rs` | `RustParser.v`, all functions | the crate `syn` is an arbitrary function from text to a tree or an error; the tree has the elements the visitor looks at, everything else is one constructor |
| `models.rs` | `Models.v`, `Location.v`, `Show.v`, `Serialize.v` (the derived encodings) | `Debug` texts are arbitrary functions |
| `formatters/*.rs` | `GnuErr.v`, `Tags.v`, `Serialize.v`, `MdFmt.v`, `Formatters.v`, all functions | the text of a JSON value is an arbitrary function, except in C68 and C69, where it is the one of `SerdeJson.v`; lower case of non-ASCII characters is an arbitrary table (no ASCII capital in its range); a panic in a formatter loses the text before it (proved: cannot happen on traced graphs) |
| `controller.rs` | `Controller.v`, all functions | log output, timing; results of file operations are arbitrary functions of everything done before; the text of a report is offered for writing at once |
| `main.rs` | end of `Controller.v`; with messages and the decoder of the configuration: `Config.v`; command line: `Cli.v` | logging set-up and log output; the syntax of TOML (an arbitrary function from text to a value or an error), the text of decoding errors |
| `util.rs`, `Errors` of `serialize.rs`, `run_jobs` with any names | `Api.v` | log output |

Library code that is modelled because results depend on it: UTF-8 decoding and line reading of the
standard library, `serde_json` (`SerdeJson.v`), the argument parser of `clap` (`Cli.v`; the texts of help and usage errors are arbitrary), `str::trim`, `str::split`, `usize` parsing and printing, `Path::join`,
`Path::file_stem`, `BTreeMap`, stable sorting, the matching order of the `regex` crate.  The Unicode
tables for identifiers and decimal digits beyond ASCII are universally quantified
(`UnicodeTables`), so the theorems hold for any table.

Simplifications of the standard library: paths are Unix paths in UTF-8; Windows is not covered;
`sort_unstable_by_key` is any function returning a sorted rearrangement.

## Per property: what is proved and how

The statements are in `properties.jsonl`; the exact formal statements are the theorems named here.

| Properties | Model | Proof |
|---|---|---|
| C01-C08 | `trace.rs` over arbitrary graphs | refinement of the mutating loops to list comprehensions over the graph (`TraceSpec.v`), by induction over artefacts, requirements, references and relations |
| C09 | panics explicit in the model | the same refinement plus the invariant that unconfirmed links come from indexed requirements |
| C10-C13 | `trace.rs` | corollaries of the exact characterisation; permutation and monotonicity arguments |
| C14-C16, C50 | `aggregator.rs` | invariants over the two loops that fill the tables |
| C17-C25, C51, C52 | `parsers/markdown.rs` on bytes | closed forms of the regular expressions (scanners), a grammar of blocks, and a proof that the state machine computes the meaning of the blocks (`md_exact`); the other properties follow from it |
| C26 | `parsers/monoreq.rs` on bytes | induction over lines |
| C27, C28, C53, C54 | `parsers/rust.rs` over syntax trees | induction over trees: the result is the grouped list of marks |
| C29, C30 | `models.rs` locations | closed form of the regular expression, decimal numbers round trip, 64 bit bound explicit |
| C31-C35, C55 | `controller.rs` reading | induction over configurations and files |
| C36-C41, C56-C58 | `controller.rs` jobs, `main.rs` | induction over job lists with the history of effects |
| C60 | parsers + tracer + exit status | composition of C02, C04, C05, C19, C30, C37; `E2E.v` |
| C62, C63, C64 | tracer, two graphs | both results are given by the specification (`trace_done`, `trace_exact`); the specifications are compared (`TraceMeta.v`) |
| C80, C81 | tracer, two graphs | links of the smaller graph have counterparts in the larger one (`TraceExtend.v`); every function of the specification commutes with the replacement (`TraceRelabel.v`) |
| C65 | trace report | the link targets of a text are computed by a scanner (`targets`, EntrySpec.v); each piece of the report adds only targets of known requirements (`LinkFacts.v`) |
| C66 | decoder of the configuration | `says_config` (ConfigSpec.v) describes the documents; each decoder is proved equivalent to its description |
| C67 | `main` with messages | case analysis; the status is that of `main_rc`, so C39, C40, C56-C58, C60 apply |
| C68, C69 | `SerdeJson.v` (writer and reader of serde_json) | an inductive grammar of JSON texts with their values (`JsonGrammar.v`); the reader is sound and complete for it, the writer derives it, values are unique; which values are requirements: `JsonValues.v`, without functions of the model, and `JsonValueFacts.v` |
| C70-C74 | the three parsers | corollaries of the exact results of C17-C28 (`DocFacts.v`); the documented behaviour is refuted with a file |
| C75-C77 | `controller.rs` reading | from `sources` (CtlSpec.v), which is deterministic (`DocCtl.v`) |
| C78, C79 | `Cli.v` (the argument parser of clap for this program) | a grammar of argument lists (`CliSpec.v`); the parser, which stores values late, is proved equal to one that stores them at once, which is sound and complete for the grammar (`CliFacts.v`) |
| C82, C84 | `parsers/*.rs`, `controller.rs` | the state machine on the lines of a section (`MdAttr.v`); well-formedness of the parsed requirements (`DocIds.v`) |
| C83 | `formatters/tags.rs` | a reader of tags files (`says_tag`, TagRead.v), which the lines derive |
| C85 | tracer + exit status | a finite relation without loops is well founded (`TraceChain.v`) |
| C86 | all formatters | sorted permutations without ties are unique (`SortFree.v`) |
| C87 | `controller.rs`, `main.rs` with two file systems | induction over configuration and files (`CacheFacts.v`) |
| C88 | the parsers on two texts | the scanners of headings ignore white space at the end (`LineEnds.v`); the rest from C17-C26 |
| C89 | the four regular expressions, both parsers | shapes of texts in `LineSpec.v` (concatenations, no scanner); a backtracking matcher (`Regex.v`) is shown to compute the scanners (`MdLexFacts.v`, `MonoFacts.v`) and the scanners to find these shapes; lines of a text by counting line feeds (`LineFiles.v`) |
| C25, C51 (positive parts), C90 | Markdown parser; tracer | `MdRefs.v`: lists of references in the grammar, and white lines by comparing two runs of the line machine; `TraceOrder.v`: from `trace_exact` |
| C91 | GNU report, Markdown parser | `GnuReadSpec.v` says how a line is read and what is to be read; `GnuRead.v` goes through the report of C44 line by line and shows that a text has one division into lines; `GnuReadMd.v` goes through the block grammar (C52) |
| C92 | links of the Markdown reports | `MdInline.v`: the plain form of inline links in CommonMark; a link has at most one division at the first `]`, blank and quote |
| C93 | Markdown trace report | `OutlineSpec.v` finds headings line by line; `Outline.v` follows the exact report of C44-C46 piece by piece |
| C94 | tracer, controller, export and parsers | `SameSpec.v`; `Same.v` forgets places and texts by a relabelling (C81); `SameCtl.v` runs two constructions of the controller side by side, and uses C48 and C49 for the two forms |
| C95 | results and reports of jobs | `AgreeSpec.v`: what to look for in a report; `Agree.v` puts together C91, C93, C68 and the specification of `run` |
| C96, C97, C98 | functions the program does not use (in full) | `Api.v`; `ApiSpec.v`: what the calls of the builder ask for |
| C99 | messages about wrong titles in Markdown | `CodeSpec.v`: a reader of code spans; `Code.v`: what it reads, for any number of backticks |
| C100, C101 | texts of errors and relations (`Show.v`) and the sort of the export | `ErrText.v`: the groups, what comes first within a group, what a text contains; words followed by a blank are compared first |
| C102 | targets of links in the Markdown report | `Anchors.v`: words are only written in lower case, so the target of a requirement with title has its first dash after the id |
| C103 | texts of errors (`Show.v`, `GnuErr.v`, `MdFmt.v`) | `Templates.v`: templates with numbered holes as in the source, a function that fills them; by computation for each kind of error, and lines by a lemma that holes do not cross line ends |
| C104 | decoding of files (`Utf8.v`) under the four parsers | `Utf8Spec.v`: the tables 3-6 and 3-7 of the Unicode standard; the rows of the table are the images of the encoder, by linear arithmetic with division; decoder and encoder are inverse |
| C105 | `Paths.v` (`Path::join`) under reading and writing in `Controller.v` | `Where.v`: paths as seen from a directory and the parts they lead through, as inductive relations; induction over the parts |
| C106 | the order `list_cmp` of scalar values in `Base.v`, which all sorted maps, sets and lists use | `OrderSpec.v`: order of bytes as inductive relation over the encodings of `Utf8Spec.v`; cases by the lengths of both encodings |
| C61, C43 | JSON reports | readers by field name (`JsonSpec.v`), round trip |
| C42-C47, C49, C59 | formatters | sortedness, permutation, absence of panics from C02, C03, C11 |
| C48 | formatter text fed to the parser | the lines of the export derive the grammar of C52 with the blocks of the requirement |


* **C01 Coverage entries of a relation are exactly the declared links** (proved; PropsTrace.v): `C01_coverage_is_links`, `C01_coverage_order`, `C01_links_complete`. 
* **C02 Uncovered list is exactly the complement of the coverage** (proved; PropsTrace.v): `C02_uncovered_exact`. 
* **C03 Derived requirements are exactly those that cover nothing** (proved; PropsTrace.v): `C03_derived_exact`. 
* **C04 Dangling covers/depends references are reported exactly once each** (proved; PropsTrace.v): `C04_covers_unknown_exact`, `C04_depends_unknown_exact`. 
* **C05 Wrong-title errors are exact** (proved; PropsTrace.v): `C05_wrong_title_exact`, `C08_errors_classified`. 
* **C06 Missing-title errors are exact** (proved; PropsTrace.v): `C06_missing_title_exact`, `C08_errors_classified`. 
* **C07 Duplicate ids across artefacts are all reported; which definition references are resolved to** (proved; PropsTrace.v): `C07_duplicates_exact`, `C07_first_definition`, `C07_lower_is_first`, `C07_titles_of_first`, `C07_covers_to_first_refuted`. Lower requirements are first definitions; that covers references are resolved to the first definition too is refuted (an earlier version of the English claimed it without a theorem about trace).
* **C08 UnusedRelation is reported iff the relation yields no coverage** (proved; PropsTrace.v): `C08_unused_exact`, `C08_unused_count`, `C08_errors_classified`. 
* **C09 The tracer panics exactly on relations with unknown artefacts** (proved; PropsTrace.v): `C09_panic_exact`. 
* **C10 The order of relations does not matter** (proved; PropsTrace.v): `C10_relation_order`. 
* **C11 Tracing preserves its input and is structurally complete** (proved; PropsTrace.v): `C11_structure`. 
* **C12 More relations never create dangling or derived requirements** (proved; PropsTrace.v): `C12_more_relations`. 
* **C13 Every reference of every requirement is checked** (proved; PropsTrace.v): `C13_covers_checked`, `C13_depends_checked`, `C13_all_references_checked_refuted`, `C13_masked_dangling_refuted`. Positive part for graphs with unique ids; the unrestricted expectation is refuted with two witnesses.
* **C14 Aggregating a traced graph never panics** (proved; PropsAgg.v): `C14_panic_exact`, `C14_never_panics_refuted`. Exact panic condition; the unconditional statement is refuted (relation from an empty artefact to an unknown one).
* **C15 Aggregated cross references mirror the coverage lists** (proved; PropsAgg.v): `C15_cross_references`, `C15_symmetric`. 
* **C16 Artefacts know all relations above and below** (proved; PropsAgg.v): `C16_artefact_relations`. 
* **C17 Markdown parser panics exactly on a one-byte last line** (proved; PropsMd.v): `C17_panic_exact`. 
* **C18 Every requirement heading yields one requirement, in order** (proved; PropsMd.v): `C18_headings`, `C18_all_headings_refuted`. Exact condition for losing the last requirement; the unconditional statement is refuted.
* **C19 Text before the first requirement heading is ignored** (proved; PropsMd.v): `C19_preamble_ignored`. 
* **C20 Requirements parse independently of what precedes them** (proved; PropsMd.v): `C20_independent`. 
* **C21 Parsed ids and titles are well formed** (proved; PropsMd.v): `C21_wellformed`. 
* **C22 Reference locations lie inside their requirement** (proved; PropsMd.v): `C22_locations`. 
* **C23 Description text is preserved** (proved; PropsMd.v): `C23_description_verbatim`, `C23_description_preserved_refuted`, `C52_grammar_exact`. Verbatim for one paragraph; the general statement is refuted; what exactly is kept is part of C52.
* **C24 Duplicate attributes are reported** (proved; PropsMd.v): `C24_duplicates_reported`, `C24_last_wins`. 
* **C25 Whitespace-only lines act as blank lines** (proved; PropsMd.v, PropsMore.v): `C25_whitespace_lines_refuted`, `C25_after_list`. The expectation is false; refuted with a witness. True directly after a list of references.
* **C26 MonoRequirement yields exactly one requirement** (proved; PropsMono.v): `C26_exact`, `C26_panics`, `C26_no_arrow`, `C26_plain`, `C26_titled`, `C26_stem`, `C26_id`. 
* **C27 Every coverage mark in Rust source is attributed to its scope** (proved; PropsRust.v): `C27_exact`, `C27_covers_in_order`, `C27_panics`, `C27_unreadable`. The syntax tree made by syn is arbitrary.
* **C28 A scope's coverage marks end up in one requirement** (proved; PropsRust.v): `C28_unique_ids`, `C28_unique_ids_refuted`. Holds if the marks of each scope are consecutive; refuted for nested functions.
* **C29 Displayed locations parse back** (proved; PropsLoc.v): `C29_round_trip`, `C29_accepts`, `C29_total`, `C29_rejects`, `C29_messages`. 
* **C30 Ordering of locations is a partial order** (proved; PropsLoc.v): `C30_order`, `C30_dual`, `C30_transitive`, `C30_consistent_refuted`, `C30_requirements`, `C30_requirements_refuted`. 
* **C31 No parsed requirement disappears silently within an artefact** (proved; PropsCtl.v): `C31_nothing_lost`. 
* **C32 Artefacts are ignored for derived-ness by default iff they are roots** (proved; PropsCtl.v): `C32_ignore_derived`. 
* **C33 Requirements without title are reported exactly where titles are mandatory** (proved; PropsCtl.v): `C33_untitled`, `C33_order`. 
* **C34 Controller construction panics exactly on unknown artefacts in relations** (proved; PropsCtl.v): `C34_panics`, `C34_traced`. 
* **C35 Configured artefacts are all present** (proved; PropsCtl.v): `C35_present`, `C35_last_counts`, `C35_all_present_refuted`. Ids are present once; that every configured artefact is kept is refuted.
* **C36 Unknown job names are rejected before anything is written** (proved; PropsCtl.v): `C36_unknown_job`. 
* **C37 Jobs run in order and stop at the first failure** (proved; PropsCtl.v): `C37_all_run`, `C37_stops`, `C37_io_error`. 
* **C38 Success of a job means what it says** (proved; PropsCtl.v): `C38_success`. 
* **C39 Exit status** (proved; PropsCtl.v): `C39_exit_0`, `C39_exit_1`, `C39_exit_2`, `C39_no_other`. 
* **C40 Exit status 0 is sound** (proved; PropsCtl.v): `C40_sound`, `C40_exact`. 
* **C41 Unsupported query/format combinations** (proved; PropsCtl.v): `C41_panics`, `C41_truncates`. 
* **C42 Tags output is sorted and complete** (proved; PropsFmt.v): `C42_tags`, `C42_sorted_by_name`. 
* **C43 JSON requirements export is a sorted permutation** (proved; PropsFmt.v): `C43_json`. 
* **C44 GNU error output reports every finding and never panics** (proved; PropsFmt.v): `C44_gnu_report`, `C44_places`, `C44_notes`, `C44_mentions`, `C44_phrases`. 
* **C45 Markdown trace report never panics and prints every distinct error once** (proved; PropsFmt.v): `C45_markdown_report`, `C45_distinct`, `C45_all_listed`, `C45_phrases`, `C45_location_link`, `C45_place_refuted`. The place of a requirement without title is missing: refuted with a witness.
* **C46 Markdown link anchors are clean** (proved; PropsFmt.v): `C46_anchor_clean`, `C46_anchor_of_heading`, `C46_anchor_unique_refuted`. 
* **C47 Duplicate errors name the right places** (proved; PropsFmt.v): `C47_gnu_right`, `C47_markdown_refuted`. False for Markdown, refuted with a witness; right for GNU.
* **C48 Markdown export parses back** (proved; PropsRound.v): `C48_round_trip`, `C48_report`, `C48_description_refuted`, `C48_repeat_refuted`, `C48_value_refuted`. Round trip for exportable requirements (RoundSpec.v), for the requirement list and for the whole Parse/Markdown report; witnesses for the three ways in which other output of the parser does not survive.
* **C49 JSON import and export formats** (proved; PropsFmt.v): `C49_round_trip`, `C49_export_not_importable`, `C49_import_export_refuted`. On JSON values; for texts see C68 and C69.
* **C50 Tracer and aggregator agree on the definition of an id** (proved; PropsAgg.v): `C50_same_definition`, `C50_largest`, `C50_same_definition_refuted`. Holds for unique ids; refuted with duplicate ids.
* **C51 An attribute after Covers or Depends is not lost** (proved; PropsMd.v, PropsMore.v): `C51_attribute_after_links_refuted`, `C51_after_empty_line`. The expectation is false; refuted with a witness. True after the heading or an empty line.
* **C52 The Markdown format is a well-defined grammar** (proved; PropsMd.v): `C52_grammar_total`, `C52_grammar_exact`. 
* **C53 Every requirement_covered! call counts** (proved; PropsRust.v): `C53_counted`, `C53_item_position_refuted`, `C53_qualified_refuted`. Exactly which calls count; the expectation that all count is refuted.
* **C54 The title in a coverage mark is the value of the string literal** (proved; PropsRust.v): `C54_any_title`, `C54_plain_title`, `C54_title_refuted`. Holds for literals without escapes; refuted with an escaped quote.
* **C55 Which files an artefact is read from** (proved; PropsCtl.v): `C55_sources`, `C55_sources_unique`. 
* **C56 When the process panics** (proved; PropsCtl.v): `C56_panics`. 
* **C57 A job that returns has written its whole report** (proved; PropsCtl.v): `C57_report`. 
* **C58 Only the outputs of the selected jobs are touched** (proved; PropsCtl.v): `C58_only_outputs`. 
* **C59 The Markdown trace report describes the requirements of each artefact** (proved; PropsFmt.v): `C59_own_requirements`, `C59_own_requirements_refuted`. Holds for unique ids; refuted with duplicate ids.
* **C60 Exit status 0 means that the headings are covered** (proved; PropsE2E.v): `C60_headings_covered`, `C60_marks_known`, `C60_headings_covered_refuted`. Composition of parsers, tracer and exit status. Refuted without the condition on the end of the Markdown file.
* **C61 The JSON trace report is lossless** (proved; PropsFmt.v): `C61_trace_read_back`, `C61_faithful`. On JSON values; for texts see C68. The reader is JsonSpec.v.
* **C62 A link may be written at either side** (proved; PropsMeta.v): `C62_either_side`. 
* **C63 A relation to several artefacts is a union** (proved; PropsMeta.v): `C63_split`. 
* **C64 Unconnected artefacts do not interfere** (proved; PropsMeta.v): `C64_unconnected`. The order of the errors is left open.
* **C65 No dead links in the Markdown trace report** (proved; PropsLink.v): `C65_no_dead_links`, `C65_duplicate_ids_refuted`. Holds for unique ids and ASCII headings; refuted with duplicate ids.
* **C66 What a configuration file says** (proved; PropsConfig.v): `C66_exact`, `C66_round_trip`, `C66_known_keys`, `C66_known_artefact_keys`, `C66_misspelled_refuted`. From the TOML value on; the syntax of TOML is external. That misspelled keys are reported is refuted.
* **C67 Messages of the process** (proved; PropsConfig.v): `C67_used`, `C67_complaint`, `C67_status`, `C67_message`, `C67_message_iff`, `C67_column_refuted`. A consistent position is refuted.
* **C68 JSON reports are JSON texts** (proved; PropsJson.v): `C68_trace_report`, `C68_parse_report`, `C68_faithful`. Grammar: JsonGrammar.v; serde_json is modelled in SerdeJson.v.
* **C69 Which JSON artefacts are read** (proved; PropsJson.v): `C69_reader`, `C69_artefact`, `C69_round_trip`. serde_json is modelled in SerdeJson.v; strings of members that are not used are checked in the model only.
* **C70 Bytes that are not UTF-8** (proved; PropsDoc.v): `C70_cut`, `C70_replaced_refuted`. The documented replacement is refuted.
* **C71 Headings inside a requirement** (proved; PropsDoc.v): `C71_ignored`, `C71_documented_nothing`, `C71_documented_refuted`. The documented example is refuted.
* **C72 Tags** (proved; PropsDoc.v): `C72_untagged`, `C72_documented_refuted`. The documented attribute is refuted.
* **C73 References and title of a mono requirement** (proved; PropsDoc.v): `C73_after_arrow`, `C73_title`, `C73_documented_title_refuted`, `C73_documented_arrows_refuted`. The documented title and the documented references are refuted. Exact result: C26.
* **C74 Ids are compared as written** (proved; PropsDoc.v): `C74_copied`, `C74_normalised_refuted`. Normalisation is refuted.
* **C75 Errors in one file do not hide another** (proved; PropsDoc.v): `C75_contributes`, `C75_missing`, `C75_late_error_refuted`, `C75_no_match_refuted`. Refuted for patterns of Rust artefacts.
* **C76 Consumed files are recorded** (proved; PropsDoc.v): `C76_files`, `C76_reported`. For the JSON text of serde_json as modelled in SerdeJson.v.
* **C77 The order in the configuration does not matter** (proved; PropsDoc.v): `C77_artefacts`, `C77_paths`. 
* **C78 The command line is understood exactly** (proved; PropsCli.v): `C78_obeyed`, `C78_asked`, `C78_runs`, `C78_prints`, `C78_refuses`, `C78_unique`. For the argument parser of clap 4.5 as modelled in Cli.v; what the jobs do is C36-C41, C67.
* **C79 Only configuration, base directory and the order of the jobs matter** (proved; PropsCli.v): `C79_same`, `C79_quiet_refuted`. That --quiet silences messages is refuted.
* **C80 Adding to a project takes no coverage away** (proved; PropsMeta2.v): `C80_more`, `C80_old_ids_refuted`. Without the condition on the ids it is refuted.
* **C81 Names, places and texts carry no meaning** (proved; PropsMeta2.v): `C81_relabel`. 
* **C82 Text of an attribute** (proved; PropsDoc2.v): `C82_text`, `C82_joined_refuted`, `C82_paragraph_refuted`, `C82_word_refuted`. The lines before the attribute must contain no heading and no format error. The documented rules are refuted with files.
* **C83 Tags files can be read** (proved; PropsDoc2.v): `C83_read`, `C83_unambiguous`, `C83_header`, `C83_all_refuted`, `C83_tab_refuted`, `C83_header_refuted`, `C83_trace_refuted`. Refuted for requirements without line, for file names with tabulators, and for the number of fields in the header.
* **C84 Form of ids** (proved; PropsDoc2.v): `C84_markdown`, `C84_short_list_refuted`, `C84_mono_refuted`, `C84_rust_refuted`, `C84_json_refuted`. Refuted for the other parsers and for short lists.
* **C85 Tracing from top to bottom** (proved; PropsDoc2.v): `C85_down`, `C85_up`, `C85_no_way_back`, `C85_exit_0`, `C85_loop_refuted`. Refuted with loops in the relations.
* **C86 Unstable sorting does not show** (proved; PropsDoc2.v): `C86_same`, `C86_same_refuted`. Refuted for errors with equal texts in Parse/Json.
* **C87 Recorded files are enough to decide whether to run again** (proved; PropsDoc2.v): `C87_cached`, `C87_opened`, `C87_recorded_refuted`, `C87_identifiable_refuted`. The libraries (syn, serde_json) and the outputs are the same in both runs.
* **C88 Line ends and byte order marks** (proved; PropsText.v): `C88_crlf`, `C88_swallowed`, `C88_crlf_refuted`, `C88_bare_refuted`, `C88_mono`, `C88_bom`, `C88_bom_refuted`, `C88_json_bom`. That line ends and byte order marks do not matter is refuted for Markdown. How syn treats them is outside.
* **C89 What headings, attributes and references look like** (proved; PropsLines.v): `C89_headings`, `C89_references`, `C89_mono`, `C89_heading_re`, `C89_attribute_re`, `C89_reference_re`, `C89_arrow_re`, `C89_white_space`. The Unicode tables are parameters, so that the result holds for every version of Unicode.
* **C90 The order of the tracing messages** (proved; PropsMore.v): `C90_order`. 
* **C91 The GNU report can be read line by line** (proved; PropsRead.v): `C91_read`, `C91_places`, `C91_markdown`, `C91_forged_refuted`, `C91_file_name_refuted`, `C91_hash_refuted`. Debug output (`{:?}`) is assumed to have no line breaks, as the one of str has. Refuted for other ids and file names.
* **C92 Links in Markdown reports are links** (proved; PropsRead.v): `C92_requirement_links`, `C92_location_links`, `C92_quote`, `C92_quote_refuted`, `C92_blank`, `C92_blank_refuted`. Inline links are the plain form of CommonMark 0.30, section 6.3 (MdInline.v). That titles and file names may contain anything is refuted.
* **C93 The outline of the Markdown trace report** (proved; PropsOutline.v): `C93_outline`, `C93_headlines`, `C93_export`, `C93_forged_refuted`. Headings are ATX headings (CommonMark 0.30, section 4.2), found line by line (OutlineSpec.v); setext headings and code blocks are not regarded. That attributes may contain anything is refuted.
* **C94 Artefacts may be stored in other forms** (proved; PropsSame.v): `C94_same_graph`, `C94_same_project`, `C94_markdown`, `C94_json`, `C94_any_id_refuted`. Same findings are defined in SameSpec.v without the tracer. That the Markdown export of any artefact may replace it is refuted.
* **C95 The report of a job says whether the job succeeds** (proved; PropsAgree.v): `C95_gnu`, `C95_markdown`, `C95_json`, `C95_export_markdown`, `C95_export_json`, `C95_tags_refuted`. The JSON theorems are about texts and the grammar of RFC 8259. That the tags file tells whether the job succeeds is refuted.
* **C96 `Controller::run_jobs` as a function of the library** (proved; PropsApi.v): `C96_all`, `C96_fewer`, `C96_by_name`, `C96_any_names_refuted`. That all given jobs run whatever names are given is refuted.
* **C97 Lists of errors as JSON** (proved; PropsApi.v): `C97_errors`. With the text of `SerdeJson.v`.
* **C98 The builder of the unit tests** (proved; PropsApi.v): `C98_builder`, `C98_depends_refuted`. That `depends` adds to `depends` is refuted.
* **C99 Titles in messages about wrong titles** (proved; PropsCode.v): `C99_titles`, `C99_plain`, `C99_no_title`, `C99_any_title_refuted`. Code spans are read by a function of CodeSpec.v that follows CommonMark 0.30, section 6.1; that the line is a list item with inline content is not part of the theorem. That every title is shown is refuted.
* **C100 Errors come in groups** (proved; PropsErr.v): `C100_groups`, `C100_order`, `C100_contents`, `C100_lines_refuted`, `C100_texts_refuted`. The order of lines and different texts for different errors are refuted.
* **C101 Texts of relations** (proved; PropsErr.v): `C101_text`, `C101_told_apart`, `C101_any_names_refuted`. Refuted for any names.
* **C102 Links tell requirements apart** (proved; PropsAnchor.v): `C102_told_apart`, `C102_exact`, `C102_page`, `C102_any_ids_refuted`, `C102_page_refuted`, `C102_umlauts`. Refuted for any ids. C102_umlauts assumes of the case tables that the lower case of two umlauts is what Unicode says.
* **C103 Texts of messages** (proved; PropsTemplate.v): `C103_display`, `C103_gnu`, `C103_markdown`, `C103_items`, `C103_items_refuted`. That the message about the empty graph is a list item is refuted. Debug output within GNU messages is a parameter.
* **C104 Which bytes are text** (proved; PropsUtf8.v): `C104_rust`, `C104_mono`, `C104_markdown`, `C104_headings`, `C104_json`, `C104_one_text`, `C104_every_text`. For JSON the reader of serde_json is the one of SerdeJson.v.
* **C105 Where files are** (proved; PropsWhere.v): `C105_reads`, `C105_writes`, `C105_patterns`, `C105_one`, `C105_absolute`, `C105_leads`, `C105_walk`, `C105_pattern_absolute`, `C105_empty_base_refuted`. Unix paths. What glob finds for a pattern is arbitrary. That patterns for an empty base directory are relative is refuted.
* **C106 Order of the bytes** (proved; PropsOrder.v): `C106_order`, `C106_graph`, `C106_json`, `C106_markdown`, `C106_tags`, `C106_uncovered`, `C106_derived`, `C106_aggregated`, `C106_unknown`. 

## Findings

Defects of the code that came up as false properties or as exceptions in proved ones:

* Tracer: with an id in two artefacts, references of the second definition are never checked, and a
  link of the second can hide a dangling reference of the first (C13); a `covers` reference is compared
  with the title of whichever definition lies in the relation's upper artefact (C07).
* Aggregator: panics on a relation from an empty artefact to an unknown one, which the tracer accepts
  (C14); shows the last definition of an id where the tracer used the first (C50, C59).
* Markdown parser: panics on an unterminated last line of one byte (C17); the requirement under
  construction is dropped when the file ends after a plain heading or format error, or on a read error
  (C18); the first line of every later paragraph of a description is lost (C23); lines of white space and
  CRLF line ends are text, not blank (C25); an attribute line directly after a list of references is
  swallowed as a reference (C51), since the `*` of the bullet expression is not escaped.
* MonoRequirement parser: a read error hits a `todo!()` (C26).
* Markdown report: points, signs and letters outside of ASCII are left out of the targets of links, so `REQ_1.1` and `REQ_11`
  have the same target and their headings the same anchor (C102); the message about the empty graph is not a list item (C103).
* Rust artefacts: with an empty base directory, which only the library allows, relative patterns start at the root (C105).
* Rust parser: a mark outside any scope panics (C27); marks of a function separated by a nested
  function with marks are lost as duplicates (C28); marks in item position, with braces or with a
  qualified macro name are ignored (C53); escaped quotes in titles are garbled (C54).
* Locations: a file name ending in a colon and digits does not parse back (C29); `Line(n)` compares
  equal to `LineAndColumn(n, 0)` but is not `==` (C30).
* Controller: an artefact configured twice replaces the first silently (C35); unsupported combinations of
  query and format panic after the output file has been truncated (C41).
* Configuration: unknown keys are ignored, so a misspelled `ignore_derived_requirements` or
  `reference_with_title` silently leaves the default (C66); the position of a TOML error is printed with
  the line counted from 1 and the column from 0 (C67).
* Command line: `--quiet` is parsed and never used (C79).
* Documentation: encoding errors are not replaced (C70), deeper headings end a requirement and the example of FORMATS.md
  gives none (C71), `Tags` are not read (C72), title and references of mono files are not read as documented (C73), nothing
  is normalised (C74), one bad pattern hides all files of a Rust artefact and a pattern without matches is silent (C75).
* Formatters: anchors of ids that differ in case collide (C46); with duplicate ids links are dead (C65); the Markdown report exchanges the places
  of a duplicate requirement (C47) and gives no place for a requirement without title (C45); the Markdown export puts the description into the attribute Origin
  when parsed again, and cannot be exported twice (C48); the JSON export is not accepted by the JSON
  import (C49).
* Found by comparison with the user documentation: the first line break of an attribute is lost and lines within a paragraph
  start attributes (C82); requirements without line have no tag, tabulators in file names are not escaped, two header lines lack a field, and Trace/Tags panics
  (C83); ids of other artefacts than Markdown have no fixed form (C84); loops in the relations are not reported, and a
  requirement that covers itself passes with status 0 (C85); the order of errors with equal texts in Parse/Json is not
  determined (C86); patterns are not recorded, and reports do not identify the versions of the inputs (C87).
* With CR LF line ends, references and attributes after a description are lost without an error; a byte order mark hides the
  first line (C88).
* Reports do not escape: a line break in an id forges a line of the GNU report, `: ` or a leading `#` in a file name hides places
  or messages there, and the headline `Derived Requirement` lacks the `#` of the others (C91); a double quote in a title or a
  blank in a file name destroys the link in Markdown reports (C92); the value of an attribute makes headlines (C93); requirements whose ids are no identifiers get lost when an artefact
  is replaced by its Markdown export (C94); a tags file does not tell that the job failed (C95); titles with
  backticks, or no title at all, are not shown as code in messages about wrong titles (C99).
* `Controller::run_jobs` leaves out jobs if there are fewer names than jobs (C96); `RequirementBuilder::depends` adds to `covers` (C98).
* The errors of the JSON export are sorted by their texts, so line 10 comes before line 2 (C100).

## Mutation tests

`tools/mutants.py` lists edits of the model that correspond to realistic bugs, `tools/mutate.py` applies
each to a scratch copy and checks every proof of every file against the statements of the others, so that
all proofs that fail by themselves are found.  The results are in `seeded/LOG.jsonl`: the lemmas whose
own proof fails and the property theorems that rest on them.

What the log does and does not show: `theorems_failed` are theorems that rest on a proof that fails.  A
failing proof does not show that the statement is false, and claims that share a lemma fail together, so
this can hide a weak theorem.  For the tracer, where nearly all claims share `trace_exact`, the field
`witness` names the parts of the result that were computed to differ for some graph (`tools/witness.py`);
the claims fix these parts exactly, so each is a counterexample.  The claims that compare two graphs are
tested by themselves.  `claims_false` are the claims with a computed counterexample; for the mutants of other parts
`tools/claims.py` computes them (`tools/checks.txt`: boolean instances of the claims, and results the claims fix that
are compared with those of the unedited model).  For the remaining mutants `proofs_broken` names an example or a
`_refuted` theorem of the claim: a computed result has changed.  So for every mutant there is a computed
counterexample to its claim, not just a failing proof.
Two mutants are equivalent (M09, J16).  Mutants with FOCUS list the theorems of the files
below the claim only.  The descriptions of T14, L04, K04, K24 and A01 were wrong in earlier versions of
the log (the edits were others than described) and have been corrected; T14 was attributed to C01, which
it does not break, and is attributed to C05 now.  The computations showed more: V13 does not break C60 but
C52, M23 not C22 but C18, N11 not C85 but C02, T25 not C80 but C05.  W15 was an edit of the specification and has been replaced by one of the model.

`tools/automut.py` makes small mechanical edits of the definitions of the model (a comparison changed, a case
swapped, a piece of text left out, a number increased; at most two of each kind in each definition) and lists those
after which all proofs still hold.  About 900 edits that type-check were tried.  They showed that no theorem fixed the
header of tags files, the bound of numbers and the error texts of `Location::parse`, the stem of paths with dots at
the end or in front, the texts of errors and relations; and that the specifications of the command line and of the
artefacts used texts and constants of the model.  C26, C29, C55, C78 and C83 have been made stronger, C100 and C101 are new (mutants
AA01 to AA14).  For each edit only the files most related to it are checked; the survivors were checked again with more
files.  This showed that the characters of white space, the text for bytes that are not UTF-8, missing optional entries of
JSON objects and the punctuation of messages were not fixed: C69, C70 and C89 have been made stronger (C69 used the
decoder of the model to say what a requirement is), C103 is new (mutants AA15 to AA25).  A list of the
functions of the model on which statements depend showed that no statement fixed which bytes are text, nor where files are: C104 and
C105 are new (AB01 to AB08).  The order of texts was one of these functions too: that it is the order of the bytes in
UTF-8, and relations are ordered by the upper artefact first, was only a comment in the model; C106 is new (AC01, AC02).

A comparison of the English with the theorems, property by property, found statements that were weaker
than the English (about a specification only, or about sets in place of lists): those of C07, C30, C50, C53,
C64, C71, C76 and C77 have been made stronger.  For C07 the English turned out to be wrong (`covers` references reach
later definitions as well), and for C22, C45, C77 and C93 it left out a condition.  The first version of C99 used a reader of code
spans that kept blanks at both ends, unlike CommonMark, so that its "exactly if" was wrong for such titles.
