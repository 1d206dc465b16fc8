## Findings

Defects of the code that came up as false properties or as exceptions in proved ones:

* Tracer: with an id in two artefacts, references of the second definition are never checked, and a
  link of the second can hide a dangling reference of the first (C13); a `covers` reference is compared
  with the title of whichever definition lies in the relation's upper artefact (C07).
* Aggregator: panics on a relation from an empty artefact to an unknown one, which the tracer accepts
  (C14); shows the last definition of an id where the tracer used the first (C50, C59).
* Markdown parser: panics on an unterminated last line of one byte (C17); the requirement under
  construction is dropped when the file ends after a plain heading or format error, or on a read error
  (C18); the first line of every later paragraph of a description is lost (C23); lines of white space and
  CRLF line ends are text, not blank (C25); an attribute line directly after a list of references is
  swallowed as a reference (C51), since the `*` of the bullet expression is not escaped.
* MonoRequirement parser: a read error hits a `todo!()` (C26).
* Markdown report: points, signs and letters outside of ASCII are left out of the targets of links, so `REQ_1.1` and `REQ_11`
  have the same target and their headings the same anchor (C102); the message about the empty graph is not a list item (C103).
* Rust artefacts: with an empty base directory, which only the library allows, relative patterns start at the root (C105).
* Rust parser: a mark outside any scope panics (C27); marks of a function separated by a nested
  function with marks are lost as duplicates (C28); marks in item position, with braces or with a
  qualified macro name are ignored (C53); escaped quotes in titles are garbled (C54).
* Locations: a file name ending in a colon and digits does not parse back (C29); `Line(n)` compares
  equal to `LineAndColumn(n, 0)` but is not `==` (C30).
* Controller: an artefact configured twice replaces the first silently (C35); unsupported combinations of
  query and format panic after the output file has been truncated (C41).
* Configuration: unknown keys are ignored, so a misspelled `ignore_derived_requirements` or
  `reference_with_title` silently leaves the default (C66); the position of a TOML error is printed with
  the line counted from 1 and the column from 0 (C67).
* Command line: `--quiet` is parsed and never used (C79).
* Documentation: encoding errors are not replaced (C70), deeper headings end a requirement and the example of FORMATS.md
  gives none (C71), `Tags` are not read (C72), title and references of mono files are not read as documented (C73), nothing
  is normalised (C74), one bad pattern hides all files of a Rust artefact and a pattern without matches is silent (C75).
* Formatters: anchors of ids that differ in case collide (C46); with duplicate ids links are dead (C65); the Markdown report exchanges the places
  of a duplicate requirement (C47) and gives no place for a requirement without title (C45); the Markdown export puts the description into the attribute Origin
  when parsed again, and cannot be exported twice (C48); the JSON export is not accepted by the JSON
  import (C49).
* Found by comparison with the user documentation: the first line break of an attribute is lost and lines within a paragraph
  start attributes (C82); requirements without line have no tag, tabulators in file names are not escaped, two header lines lack a field, and Trace/Tags panics
  (C83); ids of other artefacts than Markdown have no fixed form (C84); loops in the relations are not reported, and a
  requirement that covers itself passes with status 0 (C85); the order of errors with equal texts in Parse/Json is not
  determined (C86); patterns are not recorded, and reports do not identify the versions of the inputs (C87).
* With CR LF line ends, references and attributes after a description are lost without an error; a byte order mark hides the
  first line (C88).
* Reports do not escape: a line break in an id forges a line of the GNU report, `: ` or a leading `#` in a file name hides places
  or messages there, and the headline `Derived Requirement` lacks the `#` of the others (C91); a double quote in a title or a
  blank in a file name destroys the link in Markdown reports (C92); the value of an attribute makes headlines (C93); requirements whose ids are no identifiers get lost when an artefact
  is replaced by its Markdown export (C94); a tags file does not tell that the job failed (C95); titles with
  backticks, or no title at all, are not shown as code in messages about wrong titles (C99).
* `Controller::run_jobs` leaves out jobs if there are fewer names than jobs (C96); `RequirementBuilder::depends` adds to `covers` (C98).
* The errors of the JSON export are sorted by their texts, so line 10 comes before line 2 (C100).

## Mutation tests

`tools/mutants.py` lists edits of the model that correspond to realistic bugs, `tools/mutate.py` applies
each to a scratch copy and checks every proof of every file against the statements of the others, so that
all proofs that fail by themselves are found.  The results are in `seeded/LOG.jsonl`: the lemmas whose
own proof fails and the property theorems that rest on them.

What the log does and does not show: `theorems_failed` are theorems that rest on a proof that fails.  A
failing proof does not show that the statement is false, and claims that share a lemma fail together, so
this can hide a weak theorem.  For the tracer, where nearly all claims share `trace_exact`, the field
`witness` names the parts of the result that were computed to differ for some graph (`tools/witness.py`);
the claims fix these parts exactly, so each is a counterexample.  The claims that compare two graphs are
tested by themselves.  `claims_false` are the claims with a computed counterexample; for the mutants of other parts
`tools/claims.py` computes them (`tools/checks.txt`: boolean instances of the claims, and results the claims fix that
are compared with those of the unedited model).  For the remaining mutants `proofs_broken` names an example or a
`_refuted` theorem of the claim: a computed result has changed.  So for every mutant there is a computed
counterexample to its claim, not just a failing proof.
Two mutants are equivalent (M09, J16).  Mutants with FOCUS list the theorems of the files
below the claim only.  The descriptions of T14, L04, K04, K24 and A01 were wrong in earlier versions of
the log (the edits were others than described) and have been corrected; T14 was attributed to C01, which
it does not break, and is attributed to C05 now.  The computations showed more: V13 does not break C60 but
C52, M23 not C22 but C18, N11 not C85 but C02, T25 not C80 but C05.  W15 was an edit of the specification and has been replaced by one of the model.

`tools/automut.py` makes small mechanical edits of the definitions of the model (a comparison changed, a case
swapped, a piece of text left out, a number increased; at most two of each kind in each definition) and lists those
after which all proofs still hold.  About 900 edits that type-check were tried.  They showed that no theorem fixed the
header of tags files, the bound of numbers and the error texts of `Location::parse`, the stem of paths with dots at
the end or in front, the texts of errors and relations; and that the specifications of the command line and of the
artefacts used texts and constants of the model.  C26, C29, C55, C78 and C83 have been made stronger, C100 and C101 are new (mutants
AA01 to AA14).  For each edit only the files most related to it are checked; the survivors were checked again with more
files.  This showed that the characters of white space, the text for bytes that are not UTF-8, missing optional entries of
JSON objects and the punctuation of messages were not fixed: C69, C70 and C89 have been made stronger (C69 used the
decoder of the model to say what a requirement is), C103 is new (mutants AA15 to AA25).  A list of the
functions of the model on which statements depend showed that no statement fixed which bytes are text, nor where files are: C104 and
C105 are new (AB01 to AB08).  The order of texts was one of these functions too: that it is the order of the bytes in
UTF-8, and relations are ordered by the upper artefact first, was only a comment in the model; C106 is new (AC01, AC02).

A comparison of the English with the theorems, property by property, found statements that were weaker
than the English (about a specification only, or about sets in place of lists): those of C07, C30, C50, C53,
C64, C71, C76 and C77 have been made stronger.  For C07 the English turned out to be wrong (`covers` references reach
later definitions as well), and for C22, C45, C77 and C93 it left out a condition.  The first version of C99 used a reader of code
spans that kept blanks at both ends, unlike CommonMark, so that its "exactly if" was wrong for such titles.
