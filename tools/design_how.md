| Properties | Model | Proof |
|---|---|---|
| C01-C08 | `trace.rs` over arbitrary graphs | refinement of the mutating loops to list comprehensions over the graph (`TraceSpec.v`), by induction over artefacts, requirements, references and relations |
| C09 | panics explicit in the model | the same refinement plus the invariant that unconfirmed links come from indexed requirements |
| C10-C13 | `trace.rs` | corollaries of the exact characterisation; permutation and monotonicity arguments |
| C14-C16, C50 | `aggregator.rs` | invariants over the two loops that fill the tables |
| C17-C25, C51, C52 | `parsers/markdown.rs` on bytes | closed forms of the regular expressions (scanners), a grammar of blocks, and a proof that the state machine computes the meaning of the blocks (`md_exact`); the other properties follow from it |
| C26 | `parsers/monoreq.rs` on bytes | induction over lines |
| C27, C28, C53, C54 | `parsers/rust.rs` over syntax trees | induction over trees: the result is the grouped list of marks |
| C29, C30 | `models.rs` locations | closed form of the regular expression, decimal numbers round trip, 64 bit bound explicit |
| C31-C35, C55 | `controller.rs` reading | induction over configurations and files |
| C36-C41, C56-C58 | `controller.rs` jobs, `main.rs` | induction over job lists with the history of effects |
| C60 | parsers + tracer + exit status | composition of C02, C04, C05, C19, C30, C37; `E2E.v` |
| C62, C63, C64 | tracer, two graphs | both results are given by the specification (`trace_done`, `trace_exact`); the specifications are compared (`TraceMeta.v`) |
| C80, C81 | tracer, two graphs | links of the smaller graph have counterparts in the larger one (`TraceExtend.v`); every function of the specification commutes with the replacement (`TraceRelabel.v`) |
| C65 | trace report | the link targets of a text are computed by a scanner (`targets`, EntrySpec.v); each piece of the report adds only targets of known requirements (`LinkFacts.v`) |
| C66 | decoder of the configuration | `says_config` (ConfigSpec.v) describes the documents; each decoder is proved equivalent to its description |
| C67 | `main` with messages | case analysis; the status is that of `main_rc`, so C39, C40, C56-C58, C60 apply |
| C68, C69 | `SerdeJson.v` (writer and reader of serde_json) | an inductive grammar of JSON texts with their values (`JsonGrammar.v`); the reader is sound and complete for it, the writer derives it, values are unique; which values are requirements: `JsonValues.v`, without functions of the model, and `JsonValueFacts.v` |
| C70-C74 | the three parsers | corollaries of the exact results of C17-C28 (`DocFacts.v`); the documented behaviour is refuted with a file |
| C75-C77 | `controller.rs` reading | from `sources` (CtlSpec.v), which is deterministic (`DocCtl.v`) |
| C78, C79 | `Cli.v` (the argument parser of clap for this program) | a grammar of argument lists (`CliSpec.v`); the parser, which stores values late, is proved equal to one that stores them at once, which is sound and complete for the grammar (`CliFacts.v`) |
| C82, C84 | `parsers/*.rs`, `controller.rs` | the state machine on the lines of a section (`MdAttr.v`); well-formedness of the parsed requirements (`DocIds.v`) |
| C83 | `formatters/tags.rs` | a reader of tags files (`says_tag`, TagRead.v), which the lines derive |
| C85 | tracer + exit status | a finite relation without loops is well founded (`TraceChain.v`) |
| C86 | all formatters | sorted permutations without ties are unique (`SortFree.v`) |
| C87 | `controller.rs`, `main.rs` with two file systems | induction over configuration and files (`CacheFacts.v`) |
| C88 | the parsers on two texts | the scanners of headings ignore white space at the end (`LineEnds.v`); the rest from C17-C26 |
| C89 | the four regular expressions, both parsers | shapes of texts in `LineSpec.v` (concatenations, no scanner); a backtracking matcher (`Regex.v`) is shown to compute the scanners (`MdLexFacts.v`, `MonoFacts.v`) and the scanners to find these shapes; lines of a text by counting line feeds (`LineFiles.v`) |
| C25, C51 (positive parts), C90 | Markdown parser; tracer | `MdRefs.v`: lists of references in the grammar, and white lines by comparing two runs of the line machine; `TraceOrder.v`: from `trace_exact` |
| C91 | GNU report, Markdown parser | `GnuReadSpec.v` says how a line is read and what is to be read; `GnuRead.v` goes through the report of C44 line by line and shows that a text has one division into lines; `GnuReadMd.v` goes through the block grammar (C52) |
| C92 | links of the Markdown reports | `MdInline.v`: the plain form of inline links in CommonMark; a link has at most one division at the first `]`, blank and quote |
| C93 | Markdown trace report | `OutlineSpec.v` finds headings line by line; `Outline.v` follows the exact report of C44-C46 piece by piece |
| C94 | tracer, controller, export and parsers | `SameSpec.v`; `Same.v` forgets places and texts by a relabelling (C81); `SameCtl.v` runs two constructions of the controller side by side, and uses C48 and C49 for the two forms |
| C95 | results and reports of jobs | `AgreeSpec.v`: what to look for in a report; `Agree.v` puts together C91, C93, C68 and the specification of `run` |
| C96, C97, C98 | functions the program does not use (in full) | `Api.v`; `ApiSpec.v`: what the calls of the builder ask for |
| C99 | messages about wrong titles in Markdown | `CodeSpec.v`: a reader of code spans; `Code.v`: what it reads, for any number of backticks |
| C100, C101 | texts of errors and relations (`Show.v`) and the sort of the export | `ErrText.v`: the groups, what comes first within a group, what a text contains; words followed by a blank are compared first |
| C102 | targets of links in the Markdown report | `Anchors.v`: words are only written in lower case, so the target of a requirement with title has its first dash after the id |
| C103 | texts of errors (`Show.v`, `GnuErr.v`, `MdFmt.v`) | `Templates.v`: templates with numbered holes as in the source, a function that fills them; by computation for each kind of error, and lines by a lemma that holes do not cross line ends |
| C104 | decoding of files (`Utf8.v`) under the four parsers | `Utf8Spec.v`: the tables 3-6 and 3-7 of the Unicode standard; the rows of the table are the images of the encoder, by linear arithmetic with division; decoder and encoder are inverse |
| C105 | `Paths.v` (`Path::join`) under reading and writing in `Controller.v` | `Where.v`: paths as seen from a directory and the parts they lead through, as inductive relations; induction over the parts |
| C106 | the order `list_cmp` of scalar values in `Base.v`, which all sorted maps, sets and lists use | `OrderSpec.v`: order of bytes as inductive relation over the encodings of `Utf8Spec.v`; cases by the lengths of both encodings |
| C61, C43 | JSON reports | readers by field name (`JsonSpec.v`), round trip |
| C42-C47, C49, C59 | formatters | sortedness, permutation, absence of panics from C02, C03, C11 |
| C48 | formatter text fed to the parser | the lines of the export derive the grammar of C52 with the blocks of the requirement |

