#!/usr/bin/env python3
"""Generates /verif/properties.jsonl (kept as a script so that ids/anchors stay consistent)."""
import json, os
P = []
def p(id, title, statement, quantifier, why, *anchors):
    P.append(dict(id=id, title=title, statement=statement, quantifier=quantifier,
                  why_tests_cant=why, anchors=list(anchors)))

# ---------------------------------------------------------------- tracer
p("C01", "Coverage entries of a relation are exactly the declared links",
  "After trace(graph), a traced relation lists a coverage (upper id, lower id, location, direction) if and only if a requirement of the relation's upper artefact and the (first-defined) requirement of one of its lower artefacts are linked: Downwards when the upper's depends names the lower id, Upwards when the lower's covers names the upper id; the location is that of the reference; every reference contributes exactly once per lower artefact listed, in the order upper requirement id, then depends references, then lower artefacts' covers references.",
  "all well-formed graphs, any number of artefacts, requirements, references and relations",
  "The set of graphs is infinite and the loops mutate shared state (derived sets, invalid links) while reading; a missed or invented pair only shows on particular shapes.",
  "src/trace.rs:Tracer::trace_relation", "src/trace.rs:Tracer::add_artefact", "src/models.rs:Coverage")
p("C02", "Uncovered list is exactly the complement of the coverage",
  "For every traced relation, the uncovered list contains, sorted by id and without repetition, precisely the ids of the upper artefact's requirements for which the relation has no coverage entry.",
  "all well-formed graphs and all relations in them",
  "Needs all combinations of depends/covers links including duplicates and self relations.",
  "src/trace.rs:Tracer::trace_relation", "src/models.rs:TracedRelation")
p("C03", "Derived requirements are exactly those that cover nothing",
  "After trace(graph), the derived list of an artefact contains a requirement id iff the artefact does not ignore derived requirements, it holds the first definition of that id, and no relation that lists the artefact as lower yields a coverage whose lower end is that id resolved in that artefact. The list is sorted and has no repetition.",
  "all well-formed graphs, any set of relations in any order",
  "The derived set is computed by destructive removal across all relations; only exhaustive reasoning shows no removal is missed or spurious.",
  "src/trace.rs:Tracer::trace_relation", "src/trace.rs:Tracer::add_artefact", "src/trace.rs:Tracer::data")
p("C04", "Dangling covers/depends references are reported exactly once each",
  "trace(graph) reports CoversUnknownRequirement (resp. DependOnUnknownRequirement) for a requirement and a referenced id iff the first-defined requirement with that id carries such a reference and no relation yields an Upwards (resp. Downwards) coverage for that pair of ids; it is reported exactly once per pair, with the location of the first reference to that id.",
  "all well-formed graphs",
  "Depends on the absence of a link over all relations, on set semantics and on the order of processing.",
  "src/trace.rs:Tracer::validate_upwards", "src/trace.rs:Tracer::validate_downwards")
p("C05", "Wrong-title errors are exact",
  "trace(graph) reports DependWithWrongTitle / CoveredWithWrongTitle for precisely those coverage-producing references which carry a title different from the referenced requirement's title (a missing title counts as different), one error per coverage entry.",
  "all well-formed graphs", "Arbitrary titles and references; a single wrong comparison direction is only visible on particular data.",
  "src/trace.rs:Tracer::trace_relation", "src/models.rs:Error")
p("C06", "Missing-title errors are exact",
  "trace(graph) reports ReferencedWithoutTitle for precisely those coverage-producing references that carry no title and point to a requirement of an artefact configured with reference_with_title, one error per coverage entry; a reference with a title never produces this error.",
  "all well-formed graphs", "As C05.",
  "src/trace.rs:Tracer::trace_relation")
p("C07", "Duplicate ids across artefacts are all reported; which definition references are resolved to",
  "trace(graph) reports DuplicateRequirement(first, other) for exactly every requirement whose id was already defined in an artefact with a smaller id, naming the first definition, once. The lower requirement of every coverage and of every wrong-title error is the first definition of its id, so a depends reference is only ever resolved to a first definition. One would expect the same of a covers reference. False: it is resolved to whichever definition lies in the relation's upper artefact, so a reference that gives the title of the first definition can be reported as having a wrong title.",
  "all well-formed graphs", "Any number of duplicates in any number of artefacts.",
  "src/trace.rs:Tracer::add_artefact")
p("C08", "UnusedRelation is reported iff the relation yields no coverage",
  "trace(graph) reports UnusedRelation(r) as many times as r occurs among the graph's relations, if r has no coverage entry, and never otherwise.",
  "all well-formed graphs", "Negative existential over all requirements and references.",
  "src/trace.rs:Tracer::trace_relation")
p("C09", "The tracer panics exactly on relations with unknown artefacts",
  "trace(graph) terminates without panic iff every relation's upper artefact exists in the graph and, when that artefact has at least one requirement, all its lower artefacts exist; in particular the internal expect/index/unwrap of the validation pass can never fail.",
  "all well-formed graphs, including ones with dangling relations", "Absence of panics is a universal statement over all inputs.",
  "src/trace.rs:Tracer::validate_upwards", "src/trace.rs:Tracer::validate_downwards", "src/trace.rs:Tracer::trace_relation")
p("C10", "The order of relations does not matter",
  "Permuting the relations of a graph permutes the traced relations accordingly and leaves the derived lists unchanged; the tracing errors are permuted (no error appears, disappears or changes multiplicity).",
  "all well-formed graphs and all permutations of their relations", "n! orders; the tracer works by mutation across relations.",
  "src/trace.rs:Tracer::new", "src/trace.rs:Tracer::trace_relation")
p("C11", "Tracing preserves its input and is structurally complete",
  "The traced graph contains exactly the artefacts of the graph, unchanged; one traced relation per relation in the same order; and a derived list for exactly every artefact.",
  "all well-formed graphs", "Universal structural statement.",
  "src/trace.rs:Tracer::data", "src/trace.rs:Tracer::new")
p("C12", "More relations never create dangling or derived requirements",
  "Adding a relation to a graph never adds a derived requirement nor an unknown-reference error, changes nothing in the coverage of the other relations, and adds no other errors but its own.",
  "all well-formed graphs, any added relation at any position of the list", "Quantifies over pairs of graphs.",
  "src/trace.rs:Tracer::trace_relation")
p("C13", "Every reference of every requirement is checked",
  "A user expects each reference of each requirement to either yield a coverage or an unknown-reference error. This holds for graphs without duplicate ids. With duplicate ids it is false: references of the second definition are never checked, and a coverage by the second definition hides a dangling reference of the first.",
  "all well-formed graphs", "Requires knowing that no combination of duplicates and relations breaks it.",
  "src/trace.rs:Tracer::add_artefact", "src/trace.rs:Tracer::trace_relation")
# ---------------------------------------------------------------- aggregator
p("C14", "Aggregating a traced graph never panics",
  "AggregatedGraph::new(trace(graph)) hits one of its unwraps or index expressions only if a relation lists an artefact that does not exist as lower; for all other graphs it terminates normally. (Tracing itself tolerates an unknown lower artefact when the upper artefact has no requirement, so the unconditional statement is false.)",
  "all well-formed graphs for which trace terminates, including ones with duplicate ids and repeated relations", "Absence of panic for all inputs, and depends on an invariant established by another module.",
  "src/aggregator.rs:AggregatedGraph::new")
p("C15", "Aggregated cross references mirror the coverage lists",
  "In the aggregated graph, the depends (covers) table of a requirement has an entry for exactly the relations in which its artefact(s) are upper (lower), and that entry lists, in order, exactly the coverages of that relation whose upper (lower) end is the requirement; hence L is listed below U iff U is listed above L.",
  "all well-formed graphs for which trace terminates", "Two mutable tables filled by nested loops must agree for all inputs.",
  "src/aggregator.rs:AggregatedGraph::new", "src/aggregator.rs:RequirementTrace")
p("C16", "Artefacts know all relations above and below",
  "The aggregated artefact's lower list contains exactly the traced relations whose upper end it is, its upper list those that list it as lower (once per listing), in order.",
  "all well-formed graphs", "As C15.", "src/aggregator.rs:AggregatedGraph::new", "src/aggregator.rs:ArtefactRelations")
# ---------------------------------------------------------------- markdown parser
p("C17", "Markdown parser panics exactly on a one-byte last line",
  "Parsing a Markdown artefact terminates, and panics iff reading reaches a final unterminated line consisting of a single byte; none of the parser's other unwraps or panics is reachable.",
  "all byte sequences as file content, including invalid UTF-8", "All inputs; the state machine has 7 states and 5 events with unwraps guarded by an implicit invariant.",
  "src/parsers/markdown.rs:parse", "src/parsers/markdown.rs:commit_attr", "src/parsers/markdown.rs:commit_link_attr")
p("C18", "Every requirement heading yields one requirement, in order",
  "The requirements returned for a Markdown file correspond one to one, in order, to the lines matching the requirement heading syntax, each with the id and trimmed title of the heading and the 1-based line number of the heading as location. Exception (a defect): the last one is missing if the file ends while the parser is looking for a new requirement, i.e. after a plain heading or a format error, or when reading fails.",
  "all file contents", "All documents; the defect depends on what follows the last requirement.",
  "src/parsers/markdown.rs:parse", "src/parsers/markdown.rs:add_req", "src/parsers/markdown.rs:parse_state_eof")
p("C19", "Text before the first requirement heading is ignored",
  "Lines that are not requirement headings and precede the first requirement heading have no influence on the result other than shifting line numbers.",
  "all documents and all preambles", "All preambles.", "src/parsers/markdown.rs:parse_state_line", "src/parsers/markdown.rs:parse_state_heading")
p("C20", "Requirements parse independently of what precedes them",
  "If the second part of a document starts with a requirement heading, parsing the concatenation yields the requirements of the first part (including its last one) followed by those of the second part, with line numbers shifted, and likewise for the errors: errors in one requirement do not affect later ones.",
  "all pairs of documents split at a requirement heading", "All prefixes, i.e. all parser states, including after errors.",
  "src/parsers/markdown.rs:parse_state_req", "src/parsers/markdown.rs:add_req")
p("C21", "Parsed ids and titles are well formed",
  "Every id of a requirement parsed from Markdown matches XID_Start XID_Continue+, its title is present, trimmed and has no line break; every bullet reference id has that form too; every short-list reference id is nonempty, trimmed and without comma.",
  "all file contents", "All inputs.", "src/parsers/markdown.rs:REQUIREMENT_LINE", "src/parsers/markdown.rs:parse_link_attr", "src/parsers/markdown.rs:REF_LINK_LINE")
p("C22", "Reference locations lie inside their requirement",
  "Every covers/depends reference of a requirement parsed from Markdown has the requirement's file and a line number greater than the requirement's and smaller than that of any later requirement heading; references are listed in non-decreasing line order; every format and duplicate-attribute error has a line within the file; the only other error names the file that could not be read.",
  "all file contents", "All inputs.", "src/parsers/markdown.rs:Context::location", "src/parsers/markdown.rs:parse_state_line")
p("C23", "Description text is preserved",
  "The Description attribute consists of the text between heading and first attribute paragraph. This is false: the first line of every paragraph but the first is lost. What holds: a description without blank lines is preserved verbatim.",
  "all documents", "All texts.", "src/parsers/markdown.rs:parse_state_line")
p("C24", "Duplicate attributes are reported",
  "Starting a text attribute that the requirement already has reports a DuplicateAttribute at that line, the later value replaces the earlier one, and no such error is reported otherwise. For Covers/Depends a repeated attribute is reported iff the earlier list was not empty.",
  "all documents", "All sequences of attributes.", "src/parsers/markdown.rs:start_attribute", "src/parsers/markdown.rs:commit_attr")
p("C25", "Whitespace-only lines act as blank lines",
  "A line consisting of white space (such as the empty line of a file with CRLF line ends) behaves like an empty line. This is true directly after a list of references. In general it is false: after the heading it starts a description that swallows a following Covers attribute, and between attributes it is a format error.",
  "all documents", "All texts.", "src/parsers/markdown.rs:parse")
# ---------------------------------------------------------------- mono / rust parser
p("C26", "MonoRequirement yields exactly one requirement",
  "Parsing a MonoRequirement file that can be read yields exactly one requirement, with the file stem (the last part of the path that is not empty or a lone dot, without extension) as id or README with an error if there is none, the first line as title (none for an empty file), no covers, and one depends reference per later line that ends in an arrow, id and optional title, in order, with its line number. A read error panics.",
  "all file contents and paths", "All inputs.", "src/parsers/monoreq.rs:parse")
p("C27", "Every coverage mark in Rust source is attributed to its scope",
  "For every syntax tree, concatenating the covers of all returned requirements gives, in source order, exactly the well-formed requirement_covered! marks; each is attributed to the requirement whose id is the ::-joined path of enclosing mod/impl/trait/fn scopes and whose location is that of the innermost scope at the first of the merged marks; every malformed mark yields exactly one error; neighbouring requirements never share an id. The parser panics iff a well-formed mark occurs outside any scope (scope names are not empty).",
  "all syntax trees", "All trees; correctness of the scope stack is a global invariant.",
  "src/parsers/rust.rs:Parser::parse_macro", "src/parsers/rust.rs:Parser::visit_item_fn")
p("C28", "A scope's coverage marks end up in one requirement",
  "A user expects all marks of one function to count. False: when a nested function with marks separates the marks of a function, the later ones form a second requirement with the same id, which is discarded as duplicate.",
  "all syntax trees", "Depends on nesting.", "src/parsers/rust.rs:Parser::parse_macro", "src/controller.rs:parse_from_config")
# ---------------------------------------------------------------- location
p("C29", "Displayed locations parse back",
  "Location::parse(loc.to_string()) returns loc for every location with line and column, and for every location with a line or without position unless the file name itself ends in a colon and digits; file names must be nonempty and free of line breaks. Location::parse never panics; it fails only on an empty text, a text with a line break, or a number that does not fit or is not ASCII, with a text that names the number and the reason.",
  "all file names, lines and columns (64 bit)", "All strings; lazy regex matching is ambiguous.", "src/models.rs:Location::parse", "src/models.rs:LocationInFile")
p("C30", "Ordering of locations is a partial order",
  "LocationInFile comparison is transitive and dual, text positions are comparable only with text positions, numeric ones only with numeric ones; but Equal does not imply ==: Line(n) compares Equal to LineAndColumn(n,0). Likewise the comparison of Requirements is exactly that of their ids.",
  "all locations", "Laws over all triples.", "src/models.rs:LocationInFile::partial_cmp", "src/models.rs:Requirement::partial_cmp")
# ---------------------------------------------------------------- controller
p("C31", "No parsed requirement disappears silently within an artefact",
  "For every artefact, each requirement returned by the parser is either stored under its id or reported by a DuplicateRequirement error that names the stored one; the first one is stored; no other requirement is stored, and every error of the parser is kept in order.",
  "all parser results of any length", "All lists with repetitions.", "src/controller.rs:parse_from_config")
p("C32", "Artefacts are ignored for derived-ness by default iff they are roots",
  "If ignore_derived_requirements is not configured, it is set iff no relation lists the artefact as lower; otherwise the configured value is used. reference_with_title defaults to false.",
  "all configurations", "All relation lists.", "src/controller.rs:Controller::new")
p("C33", "Requirements without title are reported exactly where titles are mandatory",
  "An artefact with reference_with_title has a RequirementWithoutTitle error for exactly each stored requirement without title, in id order after the parse errors; other artefacts have none.",
  "all configurations and file contents", "All inputs.", "src/controller.rs:Controller::new")
p("C34", "Controller construction panics exactly on unknown artefacts in relations",
  "Controller::new panics iff a relation names an artefact that is not configured, or a parser panics; when it returns, tracing has succeeded on the constructed graph.",
  "all configurations and file contents", "Combines config checks with the tracer's preconditions.", "src/controller.rs:Controller::new")
p("C35", "Configured artefacts are all present",
  "Each configured artefact id appears in the graph exactly once. When an id is configured twice the last one replaces the earlier silently, with all its requirements and errors (defect).",
  "all configurations", "All configs.", "src/controller.rs:Controller::new")
p("C36", "Unknown job names are rejected before anything is written",
  "run_jobs_by_name with a list containing an unknown name returns UnknownJob of the first unknown name, and no job runs, no file is created or truncated.",
  "all job lists and file system states", "All lists; effect-freedom.", "src/controller.rs:Controller::run_jobs_by_name")
p("C37", "Jobs run in order and stop at the first failure",
  "run_jobs_by_name runs the named jobs in the given order, stops at the first one with an IO error and returns that error (a job fails iff an operation on its output fails, with the message of this operation); otherwise returns ErrorsDetected iff some job that may set the return code detected errors, Success otherwise.",
  "all job lists and IO outcomes", "All lists and fault points.", "src/controller.rs:Controller::run_jobs")
p("C38", "Success of a job means what it says",
  "A Trace job that can be formatted and written succeeds iff there are no parse errors, no tracing errors, no uncovered requirement and no derived requirement; a Parse job succeeds iff there are no parse errors.",
  "all graphs", "All inputs.", "src/controller.rs:Controller::run")
p("C39", "Exit status",
  "The process exits 2 iff the configuration is unreadable, has a version above 0 or a job fails or is unknown, or no default job exists; 1 iff some executed job with set_return_code detected errors; 0 otherwise.",
  "all configurations, arguments and IO outcomes", "All inputs.", "src/main.rs:main_rc", "src/main.rs:get_config", "src/main.rs:run_cli_jobs")
p("C40", "Exit status 0 is sound",
  "If the process exits 0 after running a Trace job that sets the return code, then in the parsed project every requirement of every relation's upper artefact is covered by a requirement of one of its lower artefacts, all ids are unique across artefacts, every reference resolves along some relation, every titled reference matches and every requirement of a non-ignored artefact covers something.",
  "all configurations and file contents", "End-to-end universal statement.", "src/main.rs:main_rc", "src/controller.rs:Controller::run", "src/trace.rs:trace")
p("C41", "Unsupported query/format combinations",
  "Running a job with a combination of query and format the formatter does not support panics, after the job's output file has been truncated; the supported combinations are exactly Parse with Tags, Markdown, Json and Trace with GnuError, Markdown, Json.",
  "all jobs and graphs", "Crash point between truncation and writing.", "src/formatters/mod.rs:requirements", "src/formatters/mod.rs:tracing", "src/controller.rs:Controller::run")
# ---------------------------------------------------------------- formatters
p("C42", "Tags output is sorted and complete",
  "The tags file consists of the fixed header followed by one line per requirement with a line position, sorted, nothing else.",
  "all graphs", "All inputs.", "src/formatters/tags.rs:requirements")
p("C43", "JSON requirements export is a sorted permutation",
  "The Parse/Json export contains exactly all stored requirements of all artefacts, ordered by id with ties in artefact order, and exactly all artefact errors, ordered by their display text.",
  "all graphs", "All inputs.", "src/formatters/serialize.rs:Requirements::new")
p("C44", "GNU error output reports every finding and never panics",
  "The Trace/GnuError output contains, in order, the report of each parse error, of each tracing error, one line per uncovered requirement of each relation and one per derived requirement of each artefact, with location and id; each error report begins with its place, says in a fixed phrase what is wrong and with which ids and titles, and notes the second place where there is one; its map lookups never fail on a traced graph.",
  "all well-formed graphs", "All inputs.", "src/formatters/gnuerr.rs:tracing")
p("C45", "Markdown trace report never panics and prints every distinct error once",
  "Whenever the lower artefacts of all relations exist (cf. C14) the Trace/Markdown report can be produced for a traced graph; the tracing error section contains every distinct error text exactly once in order of first occurrence; every uncovered and derived requirement is listed. Each error text has the phrases that say what is wrong, with the ids, titles and places; the report of a requirement without title is the exception, it has no place.",
  "all well-formed graphs", "All inputs.", "src/formatters/markdown.rs:tracing")
p("C46", "Markdown link anchors are clean",
  "The anchor of a requirement link consists only of lower case ASCII letters, digits, underscore and dash, for every id and title.",
  "all requirements", "All unicode strings.", "src/formatters/markdown.rs:requirement_link")
p("C47", "Duplicate errors name the right places",
  "The Markdown report of a duplicate requirement says where the id was first seen and where it was seen again. False: the two locations are swapped; the GNU report is right.",
  "all duplicate errors", "All inputs.", "src/formatters/markdown.rs:err", "src/formatters/gnuerr.rs:errors")
p("C48", "Markdown export parses back",
  "Exporting requirements with Parse/Markdown and parsing the result as a Markdown artefact gives back, without errors and in the same order, requirements with the same ids, titles, covers and depends (ids and titles) and the same attributes up to white space around the values, provided ids, titles and attribute names are of the form the parser itself produces, no value contains a line that looks like a heading or an attribute, and there is no Origin attribute yet. The place and the description come back as a new attribute Origin. Without the conditions it is false: the description does not come back as description, exporting what came back gives a duplicate attribute, and a value can come back as another attribute.",
  "all lists of such requirements", "Round trip over all inputs between two modules.", "src/formatters/markdown.rs:requirement", "src/parsers/markdown.rs:parse")
p("C49", "JSON import and export formats",
  "Encoding requirements as a JSON array and importing it gives back the same requirements. The documented import format (object with version and requirements, as exported by Parse/Json) is not accepted (defect).",
  "all requirements", "Round trip over all inputs.", "src/controller.rs:parse_single_file", "src/formatters/serialize.rs:Requirements")
p("C50", "Tracer and aggregator agree on the definition of an id",
  "The requirement the aggregated graph stores for an id is the first definition, to which the tracer resolves depends references. Holds if ids are unique; with duplicate ids it is false: the aggregator stores, with its artefact, the definition of the largest artefact id that defines it.",
  "all well-formed graphs", "Agreement of two modules for all inputs.", "src/aggregator.rs:AggregatedGraph::new", "src/trace.rs:Tracer::add_artefact")
p("C51", "An attribute after Covers or Depends is not lost",
  "A Covers: or Depends: line in a requirement, when no error is reported, contributes references of its kind. This is true after the heading or an empty line: if it is the last of its name, the requirement has exactly the references on this line and on the directly following lines that end in a reference. In general it is false: an attribute line directly after a reference list (no empty line) that happens to end in an identifier, such as `Depends: A, B`, is silently taken as one more reference of the preceding list.",
  "all Markdown files", "All documents.", "src/parsers/markdown.rs:REF_LINK_LINE", "src/parsers/markdown.rs:parse_state_line")
p("C52", "The Markdown format is a well-defined grammar",
  "Every file that does not hit the panic of C17 divides into a preamble and sections, every section divides into blocks of the documented grammar (description, text attributes, reference lists, end), and the parser's result is exactly the requirements and errors that the blocks denote, whichever division is chosen.",
  "all byte sequences and read failures", "Full functional correctness over all inputs.", "src/parsers/markdown.rs:parse")
p("C53", "Every requirement_covered! call counts",
  "Exactly the calls in expression position with the plain macro name count. A user expects every call to count. False: a call in item position (also a statement call with braces) and a call with a qualified path such as crate::requirement_covered! are ignored without a message.",
  "all syntax trees", "All trees.", "src/parsers/rust.rs:Parser::parse_macro", "src/parsers/rust.rs:visit_expr_macro")
p("C54", "The title in a coverage mark is the value of the string literal",
  "The title given in requirement_covered!(ID, literal) is the value of the literal if the literal contains no escape sequence. In general it is the text of the literal without any quotes, so this is false for escapes: an escaped quote loses the quote and keeps the backslash.",
  "all string literals", "All strings.", "src/parsers/rust.rs:Parser::parse_macro")
p("C55", "Which files an artefact is read from",
  "The files of an artefact are the matches of its configured paths, relative ones taken from the base directory (option -b), in order; each readable file contributes the requirements and errors of its parser, in file order, and each unreadable file contributes exactly one error while the other files are read. If a pattern is malformed or a match cannot be accessed, no file of the artefact is read and this is its only error; the same holds for a wrong number of paths.",
  "all artefact configurations and file systems", "All file systems and fault points.", "src/controller.rs:parse_from_config", "src/controller.rs:parse_single_file")
p("C56", "When the process panics",
  "The process panics iff the configuration is usable and either a relation names an artefact that is not configured, or a parser panics on a file it is given, or a selected job is reached, its output can be opened and its combination of query and format is not supported.",
  "all configurations, files, arguments and IO outcomes", "All inputs.", "src/main.rs:main_rc", "src/controller.rs:Controller::new", "src/controller.rs:Controller::run")
p("C57", "A job that returns has written its whole report",
  "When a job returns without error, its last effect is one successful write, to its configured output, of exactly the report that belongs to its query and format; nothing else is written.",
  "all configurations, jobs and IO outcomes", "All fault points.", "src/controller.rs:Controller::run", "src/formatters/mod.rs:requirements", "src/formatters/mod.rs:tracing")
p("C58", "Only the outputs of the selected jobs are touched",
  "Every file the process creates or writes, and every directory it makes, belongs to the configured output of one of the selected jobs.",
  "all configurations, arguments and IO outcomes", "All inputs and fault points.", "src/main.rs:main_rc", "src/controller.rs:Controller::run")
p("C59", "The Markdown trace report describes the requirements of each artefact",
  "In the section of an artefact the report shows that artefact's own requirements, each with its origin, the links to requirements above (or Derived if it has none) and for each relation from its artefact the requirements that cover it (or UNCOVERED). Holds if ids are unique; with an id in two artefacts it is false: the last artefact's requirement is shown in both sections.",
  "all well-formed graphs", "All inputs.", "src/formatters/markdown.rs:tracing", "src/aggregator.rs:AggregatedGraph::new")
p("C60", "Exit status 0 means that the headings are covered",
  "If the process ends with status 0 after a Trace job that counts, every requirement heading of a Markdown artefact whose lower artefacts are Rust sources is named (with the right title, if any) by a requirement_covered! call in one of those sources, or has such a scope in its Depends list; and every such call names a requirement heading of the artefact above. The first part requires that no other heading follows the last requirement; without that it is false: the last requirement is dropped and may be uncovered.",
  "all configurations, files and syntax trees", "All projects; needs the parser, the tracer and the exit status together.",
  "src/main.rs:main_rc", "src/controller.rs:Controller::run", "src/parsers/markdown.rs:parse", "src/parsers/rust.rs:parse", "src/trace.rs:trace")
p("C61", "The JSON trace report is lossless",
  "A reader that takes the Trace/Json report apart by field names gets back the version and the whole traced graph: artefacts with requirements and errors, relations with coverage and uncovered ids, derived ids and errors; different traced graphs have different reports.",
  "all traced graphs", "All inputs.", "src/formatters/serialize.rs:Trace", "src/formatters/mod.rs:tracing", "src/models.rs:TracedGraph")
p("C62", "A link may be written at either side",
  "Two projects with the same artefacts, ids and relations in which the same requirements are connected have the same uncovered requirements per relation and the same derived requirements: it does not matter whether a connection is written as Covers at the lower or as Depends at the upper requirement, how often, with which titles, or where.",
  "all pairs of graphs of the same shape and with the same connections", "It compares the results of two arbitrary inputs.", "src/trace.rs:trace", "src/trace.rs:Tracer::trace_relation")
p("C63", "A relation to several artefacts is a union",
  "Replacing a relation u -> [ls1, ls2] at any position by u -> [ls1] and u -> [ls2] leaves the derived requirements and all errors but UnusedRelation as they were (in another order); the coverage is divided among the two; a requirement was uncovered iff it is uncovered in both.",
  "all graphs, all ways to divide the lower artefacts", "It compares the results of two arbitrary inputs.", "src/trace.rs:Tracer::trace_relation", "src/trace.rs:trace")
p("C64", "Unconnected artefacts do not interfere",
  "Adding an artefact that no relation names and whose requirement ids are new changes no coverage and no uncovered or derived list of the others; the errors are the old ones, each as often as before, and one for each distinct pair of a requirement of the new artefact and an id it refers to (covers and depends separately), all of which dangle; its requirements are derived unless the artefact ignores derived requirements.",
  "all graphs, all such artefacts", "It compares the results of two arbitrary inputs.", "src/trace.rs:trace", "src/trace.rs:Tracer::validate_upwards", "src/trace.rs:Tracer::validate_downwards")
p("C65", "No dead links in the Markdown trace report",
  "If the ids are unique and the headings are ASCII text on one line, every link within the page (`](#...`) of the Trace/Markdown report leads to the heading of a requirement printed in the same report. With duplicate ids this is false: errors link to the first definition, the heading is the one of the last.",
  "all graphs with unique ids whose texts contain no closing bracket", "It is about all links in all reports.", "src/formatters/markdown.rs:requirement_link", "src/formatters/markdown.rs:tracing", "src/formatters/markdown.rs:traced_requirement", "src/formatters/markdown.rs:err")
p("C66", "What a configuration file says",
  "A TOML document is accepted exactly if it has the artefacts and relations (and optionally version, jobs, default_jobs) in the documented form, and the configuration is exactly what it says; every configuration can be written so that it is read back; keys that are not part of the format change nothing. A misspelled optional key is therefore not reported.",
  "all TOML documents", "All documents, in all the shapes a value can have.", "src/models.rs:Config", "src/models.rs:ArtefactConfig", "src/models.rs:Job", "src/models.rs:Relation", "src/models.rs:Parser", "src/models.rs:Format", "src/main.rs:get_config")
p("C67", "Messages of the process",
  "There is a message on stderr (besides the log) exactly if the exit status is 2, and it names the cause: the configuration file that cannot be read, parsed, decoded or has a version above 0 (then nothing is written at all), the missing default_jobs, the first unknown job, or the path of the failed file operation. The position of an error in the configuration file is off: the line is counted from 1 but the column from 0.",
  "all configuration files, arguments and IO outcomes", "All inputs and fault points.", "src/main.rs:main_rc", "src/main.rs:get_config", "src/main.rs:run_cli_jobs", "src/controller.rs:ControllerError")
p("C68", "JSON reports are JSON texts",
  "The text of a Json report is a JSON document according to RFC 8259, whatever characters the requirements contain, and a reader that follows the grammar finds exactly the data in it: the whole traced graph, or all requirements and errors in sorted order. Different traced graphs have different report texts.",
  "all graphs, all texts", "All texts, with any control characters, quotes and backslashes.", "src/formatters/mod.rs:tracing", "src/formatters/mod.rs:requirements", "src/formatters/serialize.rs:Trace")
p("C69", "Which JSON artefacts are read",
  "A file of a Json artefact is read without error exactly if it is, in any layout, a JSON document according to RFC 8259 whose value is a list of requirements, and then exactly these requirements are read. A requirement, reference or place is an object with its entries in any order, each once, among others that are ignored, or an array of all values in order; `title` and `location_in_file` may be missing or null; numbers are below 2^64; of an attribute given twice the last value counts; requirements written as JSON in any layout are read back. Otherwise no requirement is read and exactly one Format error is reported, for the file, without position.",
  "all byte contents of files and read faults", "All contents, valid or not.", "src/controller.rs:Controller::parse_file", "src/models.rs:Requirement")
p("C70", "Bytes that are not UTF-8",
  "A line of a Markdown file that is not UTF-8 ends the document: whatever follows it, the result is the same, namely the requirements complete before the line (the requirement the line belongs to is lost) and one Io error. The documented replacement of encoding errors (FMT_FILE_ENCODINGS) does not take place. (For the other parsers see C26 and C27.)",
  "all texts before and after the line", "All contents.", "src/parsers/markdown.rs:parse", "doc/requirements/FORMATS.md:FMT_FILE_ENCODINGS")
p("C71", "Headings inside a requirement",
  "After a heading that starts no requirement, of any level, nothing counts until the next requirement heading: any other lines in between, attributes included, give the same result. The documented rule that deeper headings belong to the description (FMT_MD_DESC_HEADINGS) is false; the example of FORMATS.md gives no requirement and no error.",
  "all documents", "All documents.", "src/parsers/markdown.rs:parse_line", "doc/requirements/FORMATS.md:FMT_MD_DESC_HEADINGS")
p("C72", "Tags",
  "Requirements read from Markdown, mono and Rust artefacts have no tags; only JSON artefacts can set them. The documented attribute Tags (FMT_MD_ATTRIBUTES) of a Markdown requirement becomes a plain text attribute instead.",
  "all configurations and files", "All files.", "src/parsers/markdown.rs:parse_line", "src/models.rs:Requirement", "doc/requirements/FORMATS.md:FMT_MD_ATTRIBUTES")
p("C73", "References and title of a mono requirement",
  "Every reference of a mono requirement is an id of the file that directly follows an arrow, and its title is the first line. The documented rules (FMT_IMPORT_MONO_REQ) are false: the title is not the first line with a word and is not trimmed, and an id after an arrow does not count if further text follows, as a full stop or a second arrow, or if it is in the first line.",
  "all texts", "All texts.", "src/parsers/monoreq.rs:parse", "doc/requirements/FORMATS.md:FMT_IMPORT_MONO_REQ")
p("C74", "Ids are compared as written",
  "The id of a Markdown requirement is copied character by character from its heading line. There is no Unicode normalisation (FMT_UNICODE_NORMALIZE is false): files that differ only in the composition of an accent give different ids.",
  "all documents and Unicode tables", "All texts.", "src/parsers/markdown.rs:parse_line", "doc/requirements/FORMATS.md:FMT_UNICODE_NORMALIZE")
p("C75", "Errors in one file do not hide another",
  "Whatever the other files of an artefact contain, a file that is opened contributes all its requirements and errors; a single file that cannot be opened is reported. False for the patterns of a Rust artefact (REQ_LATE_ERROR, DSG_ART_PARSE_COLLECT_ERRORS): a bad pattern hides the requirements of files that other patterns match, and a pattern that matches nothing is not reported.",
  "all configurations and file systems", "All combinations of faults.", "src/controller.rs:parse_from_config", "doc/requirements/REQUIREMENTS.md:REQ_LATE_ERROR")
p("C76", "Consumed files are recorded",
  "Every file that is opened for an artefact is among the files of the artefact, which the Trace/Json report lists, and unless the expansion of a pattern fails no other file is (REQ_CACHE_FRIENDLY).",
  "all configurations and file systems", "All file systems.", "src/controller.rs:Controller::new", "doc/requirements/REQUIREMENTS.md:REQ_CACHE_FRIENDLY")
p("C77", "The order in the configuration does not matter",
  "If the artefact ids are distinct, exchanging artefacts in the configuration changes nothing: not the controller, not the reports, not the exit status. Exchanging the paths of a Rust artefact, if the expansion of no pattern fails, permutes its files, requirements and errors, and if the requirement ids are distinct leaves the stored requirements identical.",
  "all configurations, permutations, files and outputs", "Two runs are compared, for all permutations.", "src/controller.rs:Controller::new", "src/main.rs:main_rc")
p("C78", "The command line is understood exactly",
  "A list of arguments runs jobs exactly if it can be read as jobs and the options -q/--quiet, -l/--log-level VALUE, -c/--config VALUE, -b/--base VALUE in any order, with short options grouped, values attached, after '=' or as the next argument (which then must not look like an option), everything after '--' being a job; each option at most once and file names not empty. The configuration file is then the one given or requirements.toml, the base directory the one given or '.', the jobs those given in order. Help or version are printed exactly if they are asked for before the first mistake: nothing else is done and the status is 0. In all other cases nothing is done but a message, and the status is 2.",
  "all argument lists, files, TOML syntaxes and texts of the library", "All argument lists.", "src/main.rs:Arguments", "src/main.rs:try_main", "src/main.rs:main_rc")
p("C79", "Only configuration, base directory and the order of the jobs matter",
  "Two argument lists that run jobs and give the same configuration file, base directory and jobs in the same order have the same effects, messages (log apart) and status: where the options stand does not matter, nor does the log level, nor does --quiet. In particular --quiet has no effect at all: error messages are still printed.",
  "all argument lists and environments", "Two runs are compared, for all environments.", "src/main.rs:Arguments", "src/main.rs:main_rc")
p("C80", "Adding to a project takes no coverage away",
  "If artefacts, relations, references or requirements whose ids are new in the whole graph are added, no requirement that was there becomes uncovered along a relation that was there, or derived. False if a new requirement has an id that is already used: it can take the coverage of the old one away.",
  "all pairs of graphs", "Two runs are compared, for all graphs.", "src/trace.rs:Tracer::trace_relation", "src/trace.rs:Tracer::add_artefact")
p("C81", "Names, places and texts carry no meaning",
  "If ids are replaced such that their order is kept and titles such that different ones stay different, and locations, tags, attributes, files and input errors in any way, the result of tracing is the old one with the same replacements, in all parts: coverage, uncovered and derived requirements, errors and their order; it panics on the new graph iff on the old.",
  "all graphs and replacements", "Two runs are compared, for all graphs and replacements.", "src/trace.rs:trace")
p("C82", "Text of an attribute",
  "An attribute line (a capital, small letters a-z, a colon) that follows the heading or an empty line starts an attribute, whose value is the rest of the line and all lines up to the next heading or attribute line, as written, unless the requirement repeats the attribute. False are the documented rules that a value keeps its line breaks (the first is lost), that only the first line of a paragraph can start an attribute, and that any word before a colon is an attribute name (FMT_MD_ATTRIBUTES).",
  "all documents", "All documents.", "src/parsers/markdown.rs:parse_line", "doc/requirements/FORMATS.md:FMT_MD_ATTRIBUTES")
p("C83", "Tags files can be read",
  "Reading a tags file as editors do, line by line and split at tabulators, gives name, file and line of every requirement that has a line, each as often as it is in the graph, sorted by name, and nothing else but the header; the lines of the file are sorted; a line has one meaning. The header says, with fields separated by tabulators, that the file is sorted, and name, place and version of the program; two of its lines lack the third field of the tags format. False for all requirements: those without line (all of mono artefacts) have no entry, and a tabulator in a file name shifts the fields. Tracing cannot be exported as tags: the program panics.",
  "all graphs whose ids and file names have no tabulators and line breaks", "All graphs.", "src/formatters/tags.rs:requirements", "src/formatters/mod.rs:tracing")
p("C84", "Form of ids",
  "Requirements of Markdown artefacts have ids of the documented form FMT_ID_v2 (a start character of Unicode identifiers and one or more continuing ones), and their references are a bullet with such an id or an item of a short list. False for the items of short lists, and for the ids of mono, Rust and JSON artefacts: these can have other forms.",
  "all configurations and files", "All files.", "src/parsers/markdown.rs:parse_line", "src/parsers/monoreq.rs:parse", "src/parsers/rust.rs:parse", "src/controller.rs:Controller::parse_file", "doc/requirements/FORMATS.md:FMT_ID_v2")
p("C85", "Tracing from top to bottom",
  "If the relations have no loop and a run that traces returns 0, a chain of coverages leads from every requirement down to a requirement of an artefact that need not be covered, and one leads to every requirement from a requirement of an artefact that may have derived requirements; no chain leads back to where it started. With a loop this is false: a requirement that covers itself passes, and loops are not reported.",
  "all graphs, configurations and files", "Chains of any length in all graphs.", "src/trace.rs:trace", "src/main.rs:main_rc")
p("C86", "Unstable sorting does not show",
  "The order that sort_unstable gives to equal elements shows nowhere: not in the effects, not in the status; provided that different errors have different texts or no job lists errors as Parse/Json. Without this it is false: three requirements with one id give two different errors with the same text, whose order in the report is not determined.",
  "all correct sorting functions, configurations, files and outputs", "Two runs with different library functions are compared.", "src/formatters/serialize.rs:Requirements::new", "src/formatters/serialize.rs:Errors::new", "src/main.rs:main_rc")
p("C87", "Recorded files are enough to decide whether to run again",
  "If the artefact ids are distinct, the files recorded in the graph have the same content and the patterns of the Rust artefacts match the same files, another run has the same effects and the same status, whatever else has changed in the file system (REQ_CACHE_FRIENDLY). The recorded files alone are not enough: a new file that a pattern matches changes the result. The reports do not identify the versions of the inputs (REQ_IDENTIFIEABLE is false).",
  "all pairs of file systems, all configurations, jobs and outputs", "Two runs are compared, for all file systems.", "src/controller.rs:Controller::new", "src/controller.rs:parse_from_config", "src/main.rs:main_rc", "doc/requirements/REQUIREMENTS.md:REQ_CACHE_FRIENDLY")
p("C88", "Line ends and byte order marks",
  "Replacing LF by CR LF in a Markdown file leaves ids, titles and lines of the requirements as they are (if no line is a heading `# ID:` without title, and the last requirement is lost in neither file), and a mono file is read as before. False for references and attributes: in a file with CR LF a requirement whose text does not start with an attribute has no references and no attributes but its description, and there is no error; `# ID:` becomes a requirement. A byte order mark makes the first line of a Markdown file vanish, even if it is the heading of a requirement, and makes a JSON file unreadable.",
  "all texts", "All texts.", "src/parsers/markdown.rs:parse", "src/parsers/monoreq.rs:parse", "src/controller.rs:Controller::parse_file")
p("C89", "What headings, attributes and references look like",
  "The requirements of a Markdown file are exactly its lines of one or more `#`, white space or none, an id, a colon directly after it and at least one more character (the last one apart if it is lost, C18); the title is the rest of the line without the white space around it. Every reference of a requirement stands in a line that ends in white space, id and possibly colon and title (the leftmost place counts), or between the commas after the colon of a `Covers:` or `Depends:` line. The references of a mono file are exactly its lines from the second on with `=>`, id and possibly colon and title up to the end, the leftmost arrow counting. The regular expressions REQUIREMENT_LINE, ATTRIBUTE_LINE, REF_LINK_LINE and the one of mono files match these shapes and capture these parts, and match nothing else. White space are the 25 characters of the property White_Space of Unicode.",
  "all texts", "All texts; a test checks a few lines, and backtracking and greediness decide about the rest.", "src/parsers/markdown.rs:REQUIREMENT_LINE", "src/parsers/markdown.rs:ATTRIBUTE_LINE", "src/parsers/markdown.rs:REF_LINK_LINE", "src/parsers/markdown.rs:parse", "src/parsers/monoreq.rs:REF_LINK_LINE", "src/parsers/monoreq.rs:parse")
p("C90", "The order of the tracing messages",
  "The messages of the tracer come in this order, whatever the input: one for each repeated definition, by artefact id and requirement id; then, relation by relation as configured, the wrong and missing titles of its coverages in order of coverage, and UnusedRelation if it has no coverage; then the unknown ids in covers lists, strictly increasing by that id and the id of the requirement; then the unknown ids in depends lists, strictly increasing by the id of the requirement and that id. Two runs over the same files therefore give the same messages in the same order.",
  "all well-formed graphs for which trace terminates", "The order of a list of any length, built in five passes over different containers.",
  "src/trace.rs:trace", "src/trace.rs:Tracer::add_artefact", "src/trace.rs:Tracer::trace_relation", "src/trace.rs:Tracer::validate_upwards", "src/trace.rs:Tracer::validate_downwards")
p("C91", "The GNU report can be read line by line",
  "If the texts have no line breaks and file names neither begin with `#` nor contain a colon followed by a blank, every line of the GNU trace report is a headline or `place: message` with the first colon and blank dividing them, and these are, in order: the parsing errors, the tracing errors (those about two places as message and note), per relation the uncovered requirements and per artefact the derived ones; there is no other way to read the report. A place can be parsed as location again, unless the file name ends in a colon and a number. Requirements and errors from Markdown files have no such line breaks. False without the conditions: an id with a line break (possible in JSON artefacts) forges a message about another file, a file name with colon and blank hides the place, and one with `#` the message.",
  "all well-formed graphs for which trace terminates; all Markdown files", "All texts; a test reads back a few reports.",
  "src/formatters/gnuerr.rs:tracing", "src/formatters/gnuerr.rs:errors", "src/models.rs:Location", "src/parsers/markdown.rs:parse")
p("C92", "Links in Markdown reports are links",
  "Where the Markdown reports link to a requirement, the text is an inline link of CommonMark with the id as text, the title as title, and the anchor of the heading of the requirement as destination (if id and title are ASCII), provided the id has no brackets, backslashes, backticks and `<` and the title no double quotes and backslashes; a link to a place is an inline link to the file relative to the parent directory and to the line, provided that the file name has no blanks, brackets, parentheses, backticks and backslashes. False without this, as nothing is escaped: with a double quote in the title, or a blank in the file name, there is no link.",
  "all requirements and locations", "All texts.",
  "src/formatters/markdown.rs:requirement_link", "src/formatters/markdown.rs:location_link")
p("C93", "The outline of the Markdown trace report",
  "The ATX headings of the Markdown trace report, in order, are: `Input Errors` and a heading for each artefact with errors, if there are any; `Tracing Errors` if there are any; `Uncovered Requirements` and a heading for each relation with uncovered requirements, if there are any; `Derived Requirements` and a heading for each artefact with derived requirements, if there are any; `Requirements`, with a heading for each artefact and below it a heading for each of its requirements. So a headline is present exactly if there is something to report. The headings of the Markdown export are `Input Errors` and the artefacts with errors, if there are any, and the requirements by id. This holds for graphs with unique ids, texts of one line, descriptions and values without headings, and (for the trace report) relations whose lower artefacts exist. False without this: the value of an attribute in a Markdown file, which is not escaped, makes the headline `Uncovered Requirements` although nothing is uncovered.",
  "all graphs", "All reports, not only some examples.",
  "src/formatters/markdown.rs:tracing", "src/formatters/markdown.rs:traced_requirement", "src/formatters/markdown.rs:err")
p("C94", "Artefacts may be stored in other forms",
  "Tracing looks at nothing but ids, titles, references, relations and the options of artefacts: for two graphs that agree in these, the coverage (up to places), the uncovered and derived requirements and the errors (up to places and texts, in the same order) are the same. So two projects whose files say the same, in whatever form, have the same findings and the same jobs succeed. In particular an artefact that is read without errors can be replaced by its Markdown export (if its requirements are of the form of C48) or by a JSON file with the array of its requirements. False without the condition of C48: a requirement of a JSON file whose id is no identifier is missing in the project with the Markdown export.",
  "all graphs, projects and files", "All pairs of graphs, and of projects.",
  "src/trace.rs:Tracer", "src/controller.rs:Controller::new", "src/controller.rs:parse_from_config", "src/formatters/markdown.rs:requirements", "src/parsers/markdown.rs:parse")
p("C95", "The report of a job says whether the job succeeds",
  "A trace job that writes its report succeeds exactly if: (GNU) no line of the report is a message for a place; (Markdown) the only headline of the page is `Requirements`; (JSON) the lists `errors`, `uncovered` and `derived` and the `errors` of all artefacts in the text are empty. A parse job succeeds exactly if: (Markdown) the page has no headline; (JSON) the list `errors` is empty. So the three formats agree with each other and with the exit status. For GNU and Markdown this needs texts as in C91 and C93. False for tags: the files of a project with an unreadable artefact and of one without this artefact are the same, but only one job succeeds.",
  "all projects and jobs, all file systems", "All projects; each format has its own code to find out what is to be reported, and the status is computed by other code again.",
  "src/controller.rs:Controller::run", "src/formatters/gnuerr.rs:tracing", "src/formatters/markdown.rs:tracing", "src/formatters/markdown.rs:requirements", "src/serialize.rs")
p("C96", "`Controller::run_jobs` as a function of the library",
  "Called with at least as many names as jobs, `run_jobs` runs the jobs in order; it returns errors of the first job that fails, and otherwise whether a job that sets the return code detected errors. With fewer names it runs only as many jobs and leaves out the others without a message. `run_jobs_by_name` calls it with as many jobs as names. False: that success means that all the given jobs have run.",
  "all controllers, jobs and names", "All combinations of lengths.",
  "src/controller.rs:Controller::run_jobs", "src/controller.rs:Controller::run_jobs_by_name")
p("C97", "Lists of errors as JSON",
  "`Errors::new`, written as JSON, gives a text of the grammar of RFC 8259 in which a reader finds the version 0 and all given errors, each as often as given, sorted by their texts.",
  "all lists of errors", "All errors.",
  "src/formatters/serialize.rs:Errors")
p("C98", "The builder of the unit tests",
  "A chain of calls of `RequirementBuilder` does not panic, and gives an error exactly if one of the given locations is none. Otherwise the result has the given id, the last title, the last location or `no Location`, all tags in order, and for each attribute the last value. All references, of `covers` and `depends`, are in `covers` in the order of the calls, and `depends` is empty. False: that the references given to `depends` are in `depends`.",
  "all chains of calls", "All chains; there is no test with `depends`.",
  "src/util.rs:RequirementBuilder")
p("C99", "Titles in messages about wrong titles",
  "In the Markdown report a message about a wrong title has the title of the requirement in its fifth and the title of the reference in its seventh line, each as a code span of CommonMark between four backticks: what is read there is the title exactly if the title is not empty, neither begins nor ends with a backtick, contains no string of exactly four backticks, and does not have a blank at both ends with something else between. So titles without backticks that do not begin with a blank are read as they are. For a requirement without title there is no code span. False for all titles: of the title `` `top` `` the backticks are lost.",
  "all messages with texts of one line", "All titles.",
  "src/formatters/markdown.rs:err")
p("C100", "Errors come in groups",
  "In the JSON export the errors come in this order, whatever the unstable sort does: artefacts added twice, configuration, repeated attributes, repeated requirements, empty graph, I/O, format, unused relations, errors about requirements, unknown artefacts. Configuration errors are ordered by message; I/O errors with the same message by file; format errors at the same place by message; and if ids contain no blanks or control characters, errors about requirements of the same form by id, with unknown covers before unknown depends before the missing title. The text of each error contains its message, ids, wrong title, file and place; that of repeated requirements only their ids. False: that errors of one file are in the order of their lines (line 10 comes before line 2), and that different errors have different texts.",
  "all graphs and all unstable sorts", "All lists of errors of any length.",
  "src/models.rs:Error", "src/formatters/serialize.rs:Requirements::new")
p("C101", "Texts of relations",
  "A relation is displayed as its upper artefact, an arrow and the lower artefacts in brackets, with commas between them. Two relations with the same text are the same, if the upper names contain no greater-than sign and the lower names are not empty and contain no comma. False for any names.",
  "all relations", "All names and lists.",
  "src/models.rs:Relation")
p("C102", "Links tell requirements apart",
  "If ids consist of ASCII letters, digits and underscores, the links of the Markdown report to two requirements have the same target only if the ids differ in nothing but case and both or none have a title; whatever the titles are. For ASCII texts the targets are the same exactly if a viewer gives both headings the same anchor. So on a page on which all ids are of this form and differ in more than case, for each link there is one requirement whose heading has its anchor. False for other ids: `REQ_1.1` and `REQ_11` have the same target, and their headings the same anchor; `REQ` with title `two words` has the same as `REQ-two` with title `words`; and letters outside of ASCII are left out, so `Ä1` and `Ö1` have the same target.",
  "all requirements and titles, all graphs", "All ids and titles; the collision needs two requirements.",
  "src/formatters/markdown.rs:requirement_link", "src/formatters/markdown.rs:tracing")
p("C103", "Texts of messages",
  "The text of each error, the message about it in the GNU reports and the message in the Markdown reports are exactly the texts given in the source with the values of the error in place of the holes; each line of a message has its own end. If the texts of an error contain no line ends, its message in the Markdown reports is one list item: the first line begins with an asterisk and three blanks, the others are indented. False for the message about the empty graph.",
  "all errors", "All values of all kinds of errors.",
  "src/models.rs:Error", "src/formatters/gnuerr.rs:errors", "src/formatters/markdown.rs:err")
p("C104", "Which bytes are text",
  "The bytes of a file are text exactly if they are a sequence of the well-formed byte sequences of UTF-8 (table 3-7 of the Unicode standard: no overlong forms, no surrogates, nothing after U+10FFFF), and the characters are given by the bits of the bytes (table 3-6). The Rust parser gives this text to syn, and reports one error and nothing else if there is none. A mono file is read as this text, and panics exactly if there is none. A Markdown file that does not panic is read without I/O error exactly if it is text, and its headings are those of the text. A JSON file is read without error exactly if it is text that is a list of requirements. Bytes are at most one text, different bytes are different texts, and every sequence of characters but surrogates is the text of some bytes.",
  "all files that can be read to their end", "All sequences of bytes.",
  "src/parsers/markdown.rs:parse", "src/parsers/monoreq.rs:parse", "src/parsers/rust.rs:parse", "src/controller.rs:parse_single_file")
p("C105", "Where files are",
  "The file of an artefact other than Rust, and the output file of a job, is the configured path if it is absolute, and otherwise the base directory followed by the path, with one slash between them unless the base directory is empty or ends in one; this file and no other is opened, created or written. For a Rust artefact the path, if it is relative with base directory and a slash before it, is given to glob. So a relative path leads through the parts of the base directory and then through its own parts, and the result is absolute exactly if the path or the base directory is. False for the patterns of a Rust artefact if the base directory is empty: they start at the root. (The command line allows no empty base directory, C78.)",
  "all configurations, base directories and file systems", "All paths and base directories.",
  "src/controller.rs:parse_single_file", "src/controller.rs:glob_paths", "src/controller.rs:Controller::run")
p("C106", "Order of the bytes",
  "Everything sorted by a text is sorted by the bytes of this text in UTF-8, where the first different byte decides and otherwise the shorter text comes first: the artefacts of the graph and the requirements of each of them (by id, which decides what the first definition of an id is), the requirements in the JSON report, in the Markdown export and in the tags file (by id), all lines of the tags file, the errors in the JSON report (by their text), the uncovered and derived ids of a trace (each once), the requirements of the Markdown trace report (by id), the relations listed at each of them (by upper artefact, then by the lists of lower ones, text by text), and the messages about unknown ids (of covers lists by the unknown id and the id of the requirement, of depends lists by the id of the requirement and the unknown id). So REQ_10 comes before REQ_2, capital letters come before small ones, and these before umlauts. (Tags: ids and files without tabulators and line breaks, ids not empty and without characters up to the exclamation mark. Markdown: texts that form no headings of their own.)",
  "all graphs", "All texts, with characters of one to four bytes.",
  "src/formatters/tags.rs:requirements", "src/formatters/serialize.rs:Requirements::new", "src/formatters/markdown.rs:requirements", "src/trace.rs:Tracer::trace_relation", "src/aggregator.rs:AggregatedGraph::new", "src/models.rs:Relation", "src/models.rs:Graph")
with open(os.path.join(os.path.dirname(__file__), "..", "properties.jsonl"), "w") as f:
    for x in P:
        f.write(json.dumps(x, ensure_ascii=False) + "\n")
print(len(P))
