# Formal model of wonkodv/reqtrace in Rocq (Coq 8.16.1)

## Approach

Every Rust function of the core is re-written as a total Gallina function in
`rocq/theories/` with a comment naming file and lines of the code it models.
`&mut` parameters become returned values, `Result`/`Option` stay data, and every
`panic!`, `unwrap`, `expect`, `todo!`, `assert!` and map index becomes the explicit
outcome `Panic` of the type `outcome A := Done a | Panic`.
`BTreeMap`/`BTreeSet` are association lists kept sorted by the key order
(`OMap.v`), strings are lists of Unicode scalar values (`N`), files are lists of bytes.

Layers:

* Substrate: `Base.v`, `OMap.v`, `Unicode.v`, `Regex.v` (backtracking leftmost-first matcher),
  `Utf8.v` (decoding, `read_line`, `read_to_string`), `Paths.v`, `Sort.v`.
* Model of the code, no properties: `Models.v`, `Tracer.v`, `Aggregator.v`, `MdLex.v`, `MdParser.v`,
  `MonoParser.v`, `RustParser.v`, `Location.v`, `Show.v`, `GnuErr.v`, `Tags.v`, `Serialize.v`,
  `MdFmt.v`, `Formatters.v`, `Controller.v` (with the model of `main.rs` at its end), `Config.v`, `Cli.v`.
* Vocabulary of the statements: `TraceSpec.v`, `AggSpec.v`, `MdSyntax.v` and `MdSpec.v` (scanners and
  grammar of the Markdown format, without regular expressions or states), `MonoSpec.v`, `RustSpec.v`,
  `FmtSpec.v`, `EntrySpec.v`, `CtlSpec.v`, `RoundSpec.v`, `MetaSpec.v`, `E2ESpec.v`, `JsonSpec.v`, `JsonGrammar.v`, `JsonValues.v`, `Utf8Spec.v`, `OrderSpec.v`, `Where.v`, `ConfigSpec.v`, `CliSpec.v`.
* Proofs: `*Facts.v`, `*Cor*.v` and the other files.
* `Props*.v`: the property theorems: statement, `exact lemma`, `Print Assumptions`, and beside each an
  `Example` with a concrete case that satisfies the hypotheses.

A property that is false of the code has a theorem with the suffix `_refuted`: the negation of the
statement, proved by a concrete input evaluated with `vm_compute`.  The part that does hold is proved
by a theorem of its own.

## Trusted base

* Coq's kernel, including `vm_compute` (used in examples and refutations).
* `Print Assumptions` follows each property theorem; all of them print
  `Closed under the global context`.  No axiom is used.  (A list of everything the standard library
  loads also names `Coq.ssr.ssrunder.Under_rel.*`; these are parameters of a module type of the
  standard library, loaded with it, and no theorem here depends on them.)
* The reading of the Rust code: nothing is extracted or executed; each definition cites its source.
* `Golden.v` replays the data driven tests of the project (`/repo/tests/data`) in the model: the same
  inputs give the same reports, character by character.  `SelfTrace.v` does the same for the project's own
  documents: the model writes the 99 kB of `/repo/reports/tmx.md`.  `UnitTests.v` has the unit tests of
  `/repo/src`.  These are tests of the model, not proofs.
* The tools in `tools/` are not trusted: they write `properties.jsonl`, `MANIFEST.json`, parts of this
  file and the log of the mutation tests.

### What is modelled

| Rust source | Model | Left out or simplified |
|---|---|---|
| `trace.rs` | `Tracer.v`, all functions | log output; `Rc` sharing (values are copied) |
| `aggregator.rs` | `Aggregator.v`, all functions | references into the traced graph are the values they point to |
| `parsers/markdown.rs` | `MdLex.v` (the regular expressions as syntax trees, matched by `Regex.v`), `MdParser.v`, all functions | log output; the line number is unbounded |
| `parsers/monoreq.rs` | `MonoParser.v` | log output |
| `parsers/rust.rs` | `RustParser.v`, all functions | the crate `syn` is an arbitrary function from text to a tree or an error; the tree has the elements the visitor looks at, everything else is one constructor |
| `models.rs` | `Models.v`, `Location.v`, `Show.v`, `Serialize.v` (the derived encodings) | `Debug` texts are arbitrary functions |
| `formatters/*.rs` | `GnuErr.v`, `Tags.v`, `Serialize.v`, `MdFmt.v`, `Formatters.v`, all functions | the text of a JSON value is an arbitrary function, except in C68 and C69, where it is the one of `SerdeJson.v`; lower case of non-ASCII characters is an arbitrary table (no ASCII capital in its range); a panic in a formatter loses the text before it (proved: cannot happen on traced graphs) |
| `controller.rs` | `Controller.v`, all functions | log output, timing; results of file operations are arbitrary functions of everything done before; the text of a report is offered for writing at once |
| `main.rs` | end of `Controller.v`; with messages and the decoder of the configuration: `Config.v`; command line: `Cli.v` | logging set-up and log output; the syntax of TOML (an arbitrary function from text to a value or an error), the text of decoding errors |
| `util.rs`, `Errors` of `serialize.rs`, `run_jobs` with any names | `Api.v` | log output |

Library code that is modelled because results depend on it: UTF-8 decoding and line reading of the
standard library, `serde_json` (`SerdeJson.v`), the argument parser of `clap` (`Cli.v`; the texts of help and usage errors are arbitrary), `str::trim`, `str::split`, `usize` parsing and printing, `Path::join`,
`Path::file_stem`, `BTreeMap`, stable sorting, the matching order of the `regex` crate.  The Unicode
tables for identifiers and decimal digits beyond ASCII are universally quantified
(`UnicodeTables`), so the theorems hold for any table.

Simplifications of the standard library: paths are Unix paths in UTF-8; Windows is not covered;
`sort_unstable_by_key` is any function returning a sorted rearrangement.

