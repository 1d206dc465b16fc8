(** The project's own tests in /repo/tests, run on the model.

    Written by tools/gen_golden.py from /repo/tests/data, /repo/tests/parse_all_artefacts and
    /repo/tests/controller_returns_job_return_code: the configuration (as a TOML value), the input
    files, the expected output files and results are copied.  These examples are tests of the
    model, not proofs about it. *)
From Verif Require Import Base OMap Models Unicode Utf8 Paths MdParser MonoParser RustParser Tracer
  Show Sort Serialize MdFmt Formatters Controller CtlExamples Config SerdeJson.
Open Scope N_scope.

(** The files of a test, the world it runs in, and what it did and returned. *)
Definition test_open (files : list (str * str)) (p : path) : reader + str :=
  match find (fun e => str_eqb (fst e) p) files with
  | Some e => inl (mkReader (snd e) None)
  | None => inr (L "No such file or directory (os error 2)")
  end.
Definition test_inputs (files : list (str * str)) : Inputs := {|
  in_open := test_open files;
  in_glob := fun _ => inl [];
  in_syn := fun _ => inl (NOther []);
  in_debug_tokens := fun _ => [];
  in_json := from_reader;
  in_json_error := fun _ => L "no JSON"
|}.
Definition test_outputs : Outputs := {|
  out_parent := fun p => match rsplit_once SLASH p with Some (d, _) => Some d | None => None end;
  out_make_dirs := fun _ _ => None;
  out_create := fun _ _ => None;
  out_write := fun _ _ _ => None
|}.
Definition run_test (doc : omap str toml) (base : path) (files : list (str * str)) (jobs : list str)
  : option (history * result job_success) :=
  match to_config doc with
  | None => None
  | Some cf =>
      match @controller_new ascii_tables sample_debug (test_inputs files) cf base with
      | Panic => None
      | Done ctl => Some (@run_jobs_by_name sample_debug stable_is_unstable ascii_case serde_json
                            test_outputs ctl jobs [])
      end
  end.
Definition wrote (dir file : string) (text : str) : history :=
  [EvMakeDirs (L dir) None; EvCreate (L file) None; EvWrite (ToFile (L file)) text None].

(** /repo/tests/data/artefact_read_err *)
Definition artefact_read_err_config : omap str toml :=
  [((L "artefacts"), TArr [TTable [((L "id"), TStr (L "Artefact with missing path")); ((L "parser"), TStr (L "Markdown")); ((L "paths"), TArr [TStr (L "missing.md")])]]); ((L "jobs"), TTable [((L "parse"), TTable [((L "file"), TStr (L "out/tmx.md")); ((L "format"), TStr (L "Markdown")); ((L "query"), TStr (L "Parse"))])]); ((L "relations"), TArr [])].
Definition artefact_read_err_files : list (str * str) :=
  [].
Example artefact_read_err :
  run_test artefact_read_err_config (L "tests/data/artefact_read_err") artefact_read_err_files [(L "parse")] =
  Some (wrote "tests/data/artefact_read_err/out" "tests/data/artefact_read_err/out/tmx.md" (L "

# Input Errors


## Artefact with missing path

*   IO Error: No such file or directory (os error 2)
   tests/data/artefact_read_err/missing.md
"),
        ROkay ErrorsDetected).
Proof. vm_compute. reflexivity. Qed.

(** /repo/tests/data/continue_parsing_after_errors *)
Definition continue_parsing_after_errors_config : omap str toml :=
  [((L "artefacts"), TArr [TTable [((L "id"), TStr (L "Upper Artefact")); ((L "ignore_derived_requirements"), TBool true); ((L "parser"), TStr (L "Markdown")); ((L "paths"), TArr [TStr (L "upper.md")])]; TTable [((L "id"), TStr (L "Lower Artefact")); ((L "parser"), TStr (L "Markdown")); ((L "paths"), TArr [TStr (L "lower.md")])]]); ((L "jobs"), TTable [((L "trace"), TTable [((L "file"), TStr (L "out/tmx.md")); ((L "format"), TStr (L "Markdown")); ((L "query"), TStr (L "Trace"))])]); ((L "relations"), TArr [TTable [((L "lower"), TArr [TStr (L "Lower Artefact")]); ((L "upper"), TStr (L "Upper Artefact"))]])].
Definition continue_parsing_after_errors_files : list (str * str) :=
  [((L "tests/data/continue_parsing_after_errors/lower.md"), (L "
The lower Artefact
==================

## COV_1: A Coverage

Covers:
*   REQ_1
*   REQ_2

a

## COV_2: Another Coverage

Covers:
a
"));
   ((L "tests/data/continue_parsing_after_errors/upper.md"), (L "
The upper Artefact
==================

## REQ_1: A Requirement

Depends:
*   COV_1
*

## REQ_2: Another Requirement

Bar: foo

Bar:

Bar:
"))].
Example continue_parsing_after_errors :
  run_test continue_parsing_after_errors_config (L "tests/data/continue_parsing_after_errors") continue_parsing_after_errors_files [(L "trace")] =
  Some (wrote "tests/data/continue_parsing_after_errors/out" "tests/data/continue_parsing_after_errors/out/tmx.md" (L "

# Input Errors


## Lower Artefact

*   Format Error: Expected an Attribute line like `Comment:`
    in [tests/data/continue_parsing_after_errors/lower.md:11](../tests/data/continue_parsing_after_errors/lower.md?plain=1#L11)
*   Format Error: Expected a Reference like `* REQ_ID: Title`
    in [tests/data/continue_parsing_after_errors/lower.md:16](../tests/data/continue_parsing_after_errors/lower.md?plain=1#L16)

## Upper Artefact

*   Format Error: Expected a Reference like `* REQ_ID: Title`
    in [tests/data/continue_parsing_after_errors/upper.md:9](../tests/data/continue_parsing_after_errors/upper.md?plain=1#L9)
*   Duplicate Attribute: Bar when parsing REQ_2
    [tests/data/continue_parsing_after_errors/upper.md:15](../tests/data/continue_parsing_after_errors/upper.md?plain=1#L15)
*   Duplicate Attribute: Bar when parsing REQ_2
    [tests/data/continue_parsing_after_errors/upper.md:17](../tests/data/continue_parsing_after_errors/upper.md?plain=1#L17)


# Requirements

## Lower Artefact

### COV_1: A Coverage

Origin: Lower Artefact, [tests/data/continue_parsing_after_errors/lower.md:5](../tests/data/continue_parsing_after_errors/lower.md?plain=1#L5)

Upwards Tracing:
*   Upper Artefact => [Lower Artefact]
    *   [REQ_1](#req_1-a-requirement ""A Requirement"")
        Reference: [tests/data/continue_parsing_after_errors/upper.md:8](../tests/data/continue_parsing_after_errors/upper.md?plain=1#L8)
    *   [REQ_1](#req_1-a-requirement ""A Requirement"")
        Reference: [tests/data/continue_parsing_after_errors/lower.md:8](../tests/data/continue_parsing_after_errors/lower.md?plain=1#L8)
    *   [REQ_2](#req_2-another-requirement ""Another Requirement"")
        Reference: [tests/data/continue_parsing_after_errors/lower.md:9](../tests/data/continue_parsing_after_errors/lower.md?plain=1#L9)

Downwards Tracing:
## Upper Artefact

### REQ_1: A Requirement

Origin: Upper Artefact, [tests/data/continue_parsing_after_errors/upper.md:5](../tests/data/continue_parsing_after_errors/upper.md?plain=1#L5)

Upwards Tracing:
    *   Derived

Downwards Tracing:
*   Upper Artefact => [Lower Artefact]
    *   [COV_1](#cov_1-a-coverage ""A Coverage"")
        Reference: [tests/data/continue_parsing_after_errors/upper.md:8](../tests/data/continue_parsing_after_errors/upper.md?plain=1#L8)
    *   [COV_1](#cov_1-a-coverage ""A Coverage"")
        Reference: [tests/data/continue_parsing_after_errors/lower.md:8](../tests/data/continue_parsing_after_errors/lower.md?plain=1#L8)

### REQ_2: Another Requirement

Origin: Upper Artefact, [tests/data/continue_parsing_after_errors/upper.md:11](../tests/data/continue_parsing_after_errors/upper.md?plain=1#L11)

Upwards Tracing:
    *   Derived

Downwards Tracing:
*   Upper Artefact => [Lower Artefact]
    *   [COV_1](#cov_1-a-coverage ""A Coverage"")
        Reference: [tests/data/continue_parsing_after_errors/lower.md:9](../tests/data/continue_parsing_after_errors/lower.md?plain=1#L9)
"),
        ROkay ErrorsDetected).
Proof. vm_compute. reflexivity. Qed.

(** /repo/tests/data/reference_without_title *)
Definition reference_without_title_config : omap str toml :=
  [((L "artefacts"), TArr [TTable [((L "id"), TStr (L "Upper Artefact using readable IDs")); ((L "parser"), TStr (L "Markdown")); ((L "paths"), TArr [TStr (L "upper_readable.md")])]; TTable [((L "id"), TStr (L "Upper Artefact using numeric IDs")); ((L "parser"), TStr (L "Markdown")); ((L "paths"), TArr [TStr (L "upper_numeric.md")]); ((L "reference_with_title"), TBool true)]; TTable [((L "id"), TStr (L "Lower Artefact using readable IDs")); ((L "parser"), TStr (L "Markdown")); ((L "paths"), TArr [TStr (L "lower_readable.md")])]; TTable [((L "id"), TStr (L "Lower Artefact using numeric IDs")); ((L "parser"), TStr (L "Markdown")); ((L "paths"), TArr [TStr (L "lower_numeric.md")]); ((L "reference_with_title"), TBool true)]]); ((L "jobs"), TTable [((L "trace"), TTable [((L "file"), TStr (L "out/tmx.md")); ((L "format"), TStr (L "Markdown")); ((L "query"), TStr (L "Trace"))])]); ((L "relations"), TArr [TTable [((L "lower"), TArr [TStr (L "Lower Artefact using readable IDs")]); ((L "upper"), TStr (L "Upper Artefact using readable IDs"))]; TTable [((L "lower"), TArr [TStr (L "Lower Artefact using numeric IDs")]); ((L "upper"), TStr (L "Upper Artefact using numeric IDs"))]])].
Definition reference_without_title_files : list (str * str) :=
  [((L "tests/data/reference_without_title/lower_numeric.md"), (L "
The lower Artefact
==================

## COV_NUM_1: A Coverage

Covers:
*   REQ_NUM_1

## COV_NUM_2: Another Coverage


"));
   ((L "tests/data/reference_without_title/lower_readable.md"), (L "
The lower Artefact with Readable Ids
==================

## COV_WITH_GOOD_NAME: A Coverage
Covers: REQ_WITH_GOOD_NAME


## COV_WITH_ANOTHER_GOOD_NAME: Another Coverage


"));
   ((L "tests/data/reference_without_title/upper_numeric.md"), (L "
The upper Artefact
==================

## REQ_NUM_1: A Requirement

## REQ_NUM_2: Another Requirement

Depends:
*   COV_NUM_2
"));
   ((L "tests/data/reference_without_title/upper_readable.md"), (L "
The upper Artefact with Readable IDs
==================

REQs here can be covered by id only

## REQ_WITH_GOOD_NAME: A Requirement

## REQ_WITH_ANOTHER_GOOD_NAME: Another Requirement

Depends: COV_WITH_ANOTHER_GOOD_NAME


"))].
Example reference_without_title :
  run_test reference_without_title_config (L "tests/data/reference_without_title") reference_without_title_files [(L "trace")] =
  Some (wrote "tests/data/reference_without_title/out" "tests/data/reference_without_title/out/tmx.md" (L "

# Tracing Errors

*   [REQ_NUM_1](#req_num_1-a-requirement ""A Requirement"") covered without title
    tests/data/reference_without_title/lower_numeric.md:8
*   [COV_NUM_2](#cov_num_2-another-coverage ""Another Coverage"") covered without title
    tests/data/reference_without_title/upper_numeric.md:10


# Requirements

## Lower Artefact using numeric IDs

### COV_NUM_1: A Coverage

Origin: Lower Artefact using numeric IDs, [tests/data/reference_without_title/lower_numeric.md:5](../tests/data/reference_without_title/lower_numeric.md?plain=1#L5)

Upwards Tracing:
*   Upper Artefact using numeric IDs => [Lower Artefact using numeric IDs]
    *   [REQ_NUM_1](#req_num_1-a-requirement ""A Requirement"")
        Reference: [tests/data/reference_without_title/lower_numeric.md:8](../tests/data/reference_without_title/lower_numeric.md?plain=1#L8)

Downwards Tracing:

### COV_NUM_2: Another Coverage

Origin: Lower Artefact using numeric IDs, [tests/data/reference_without_title/lower_numeric.md:10](../tests/data/reference_without_title/lower_numeric.md?plain=1#L10)

Upwards Tracing:
*   Upper Artefact using numeric IDs => [Lower Artefact using numeric IDs]
    *   [REQ_NUM_2](#req_num_2-another-requirement ""Another Requirement"")
        Reference: [tests/data/reference_without_title/upper_numeric.md:10](../tests/data/reference_without_title/upper_numeric.md?plain=1#L10)

Downwards Tracing:
## Lower Artefact using readable IDs

### COV_WITH_ANOTHER_GOOD_NAME: Another Coverage

Origin: Lower Artefact using readable IDs, [tests/data/reference_without_title/lower_readable.md:9](../tests/data/reference_without_title/lower_readable.md?plain=1#L9)

Upwards Tracing:
*   Upper Artefact using readable IDs => [Lower Artefact using readable IDs]
    *   [REQ_WITH_ANOTHER_GOOD_NAME](#req_with_another_good_name-another-requirement ""Another Requirement"")
        Reference: [tests/data/reference_without_title/upper_readable.md:11](../tests/data/reference_without_title/upper_readable.md?plain=1#L11)

Downwards Tracing:

### COV_WITH_GOOD_NAME: A Coverage

Origin: Lower Artefact using readable IDs, [tests/data/reference_without_title/lower_readable.md:5](../tests/data/reference_without_title/lower_readable.md?plain=1#L5)

Upwards Tracing:
*   Upper Artefact using readable IDs => [Lower Artefact using readable IDs]
    *   [REQ_WITH_GOOD_NAME](#req_with_good_name-a-requirement ""A Requirement"")
        Reference: [tests/data/reference_without_title/lower_readable.md:6](../tests/data/reference_without_title/lower_readable.md?plain=1#L6)

Downwards Tracing:
## Upper Artefact using numeric IDs

### REQ_NUM_1: A Requirement

Origin: Upper Artefact using numeric IDs, [tests/data/reference_without_title/upper_numeric.md:5](../tests/data/reference_without_title/upper_numeric.md?plain=1#L5)

Upwards Tracing:
    *   Derived

Downwards Tracing:
*   Upper Artefact using numeric IDs => [Lower Artefact using numeric IDs]
    *   [COV_NUM_1](#cov_num_1-a-coverage ""A Coverage"")
        Reference: [tests/data/reference_without_title/lower_numeric.md:8](../tests/data/reference_without_title/lower_numeric.md?plain=1#L8)

### REQ_NUM_2: Another Requirement

Origin: Upper Artefact using numeric IDs, [tests/data/reference_without_title/upper_numeric.md:7](../tests/data/reference_without_title/upper_numeric.md?plain=1#L7)

Upwards Tracing:
    *   Derived

Downwards Tracing:
*   Upper Artefact using numeric IDs => [Lower Artefact using numeric IDs]
    *   [COV_NUM_2](#cov_num_2-another-coverage ""Another Coverage"")
        Reference: [tests/data/reference_without_title/upper_numeric.md:10](../tests/data/reference_without_title/upper_numeric.md?plain=1#L10)
## Upper Artefact using readable IDs

### REQ_WITH_ANOTHER_GOOD_NAME: Another Requirement

Origin: Upper Artefact using readable IDs, [tests/data/reference_without_title/upper_readable.md:9](../tests/data/reference_without_title/upper_readable.md?plain=1#L9)

Upwards Tracing:
    *   Derived

Downwards Tracing:
*   Upper Artefact using readable IDs => [Lower Artefact using readable IDs]
    *   [COV_WITH_ANOTHER_GOOD_NAME](#cov_with_another_good_name-another-coverage ""Another Coverage"")
        Reference: [tests/data/reference_without_title/upper_readable.md:11](../tests/data/reference_without_title/upper_readable.md?plain=1#L11)

### REQ_WITH_GOOD_NAME: A Requirement

Origin: Upper Artefact using readable IDs, [tests/data/reference_without_title/upper_readable.md:7](../tests/data/reference_without_title/upper_readable.md?plain=1#L7)

Upwards Tracing:
    *   Derived

Downwards Tracing:
*   Upper Artefact using readable IDs => [Lower Artefact using readable IDs]
    *   [COV_WITH_GOOD_NAME](#cov_with_good_name-a-coverage ""A Coverage"")
        Reference: [tests/data/reference_without_title/lower_readable.md:6](../tests/data/reference_without_title/lower_readable.md?plain=1#L6)
"),
        ROkay ErrorsDetected).
Proof. vm_compute. reflexivity. Qed.

(** /repo/tests/data/requirement_twice_in_1_artefact *)
Definition requirement_twice_in_1_artefact_config : omap str toml :=
  [((L "artefacts"), TArr [TTable [((L "id"), TStr (L "Upper Artefact")); ((L "ignore_derived_requirements"), TBool true); ((L "parser"), TStr (L "Markdown")); ((L "paths"), TArr [TStr (L "upper.md")])]]); ((L "jobs"), TTable [((L "parse"), TTable [((L "file"), TStr (L "out/tmx.md")); ((L "format"), TStr (L "Markdown")); ((L "query"), TStr (L "Trace"))])]); ((L "relations"), TArr [])].
Definition requirement_twice_in_1_artefact_files : list (str * str) :=
  [((L "tests/data/requirement_twice_in_1_artefact/upper.md"), (L "
An artefact with the same Req twice
==================

## REQ_1: A Coverage

## REQ_2: Another Coverage


## REQ_1: Third requirement with conflicting ID
"))].
Example requirement_twice_in_1_artefact :
  run_test requirement_twice_in_1_artefact_config (L "tests/data/requirement_twice_in_1_artefact") requirement_twice_in_1_artefact_files [(L "parse")] =
  Some (wrote "tests/data/requirement_twice_in_1_artefact/out" "tests/data/requirement_twice_in_1_artefact/out/tmx.md" (L "

# Input Errors


## Upper Artefact

*   Duplicate Requirement: REQ_1
    first seen in [tests/data/requirement_twice_in_1_artefact/upper.md:10](../tests/data/requirement_twice_in_1_artefact/upper.md?plain=1#L10)
    then again in [tests/data/requirement_twice_in_1_artefact/upper.md:5](../tests/data/requirement_twice_in_1_artefact/upper.md?plain=1#L5)


# Requirements

## Upper Artefact

### REQ_1: A Coverage

Origin: Upper Artefact, [tests/data/requirement_twice_in_1_artefact/upper.md:5](../tests/data/requirement_twice_in_1_artefact/upper.md?plain=1#L5)

Upwards Tracing:
    *   Derived

Downwards Tracing:

### REQ_2: Another Coverage

Origin: Upper Artefact, [tests/data/requirement_twice_in_1_artefact/upper.md:7](../tests/data/requirement_twice_in_1_artefact/upper.md?plain=1#L7)

Upwards Tracing:
    *   Derived

Downwards Tracing:
"),
        ROkay ErrorsDetected).
Proof. vm_compute. reflexivity. Qed.

(** /repo/tests/data/requirement_twice_in_2_artefacts *)
Definition requirement_twice_in_2_artefacts_config : omap str toml :=
  [((L "artefacts"), TArr [TTable [((L "id"), TStr (L "Upper Artefact")); ((L "ignore_derived_requirements"), TBool true); ((L "parser"), TStr (L "Markdown")); ((L "paths"), TArr [TStr (L "upper.md")])]; TTable [((L "id"), TStr (L "Lower Artefact")); ((L "parser"), TStr (L "Markdown")); ((L "paths"), TArr [TStr (L "lower.md")])]]); ((L "jobs"), TTable [((L "parse"), TTable [((L "file"), TStr (L "out/tmx.md")); ((L "format"), TStr (L "Markdown")); ((L "query"), TStr (L "Parse"))]); ((L "trace"), TTable [((L "file"), TStr (L "out/tmx.md")); ((L "format"), TStr (L "Markdown")); ((L "query"), TStr (L "Trace"))])]); ((L "relations"), TArr [TTable [((L "lower"), TArr [TStr (L "Lower Artefact")]); ((L "upper"), TStr (L "Upper Artefact"))]])].
Definition requirement_twice_in_2_artefacts_files : list (str * str) :=
  [((L "tests/data/requirement_twice_in_2_artefacts/lower.md"), (L "
The lower Artefact
==================

## COV_1: A Coverage
Covers: REQ_1

## REQ_1: Conflicting Req defined in lower
"));
   ((L "tests/data/requirement_twice_in_2_artefacts/upper.md"), (L "
The upper Artefact
==================

## REQ_1: A Requirement

"))].
Example requirement_twice_in_2_artefacts :
  run_test requirement_twice_in_2_artefacts_config (L "tests/data/requirement_twice_in_2_artefacts") requirement_twice_in_2_artefacts_files [(L "trace")] =
  Some (wrote "tests/data/requirement_twice_in_2_artefacts/out" "tests/data/requirement_twice_in_2_artefacts/out/tmx.md" (L "

# Tracing Errors

*   Duplicate Requirement: REQ_1
    first seen in [tests/data/requirement_twice_in_2_artefacts/upper.md:5](../tests/data/requirement_twice_in_2_artefacts/upper.md?plain=1#L5)
    then again in [tests/data/requirement_twice_in_2_artefacts/lower.md:8](../tests/data/requirement_twice_in_2_artefacts/lower.md?plain=1#L8)


# Derived Requirements


## Lower Artefact

*   [REQ_1](#req_1-a-requirement ""A Requirement"")


# Requirements

## Lower Artefact

### COV_1: A Coverage

Origin: Lower Artefact, [tests/data/requirement_twice_in_2_artefacts/lower.md:5](../tests/data/requirement_twice_in_2_artefacts/lower.md?plain=1#L5)

Upwards Tracing:
*   Upper Artefact => [Lower Artefact]
    *   [REQ_1](#req_1-a-requirement ""A Requirement"")
        Reference: [tests/data/requirement_twice_in_2_artefacts/lower.md:6](../tests/data/requirement_twice_in_2_artefacts/lower.md?plain=1#L6)

Downwards Tracing:

### REQ_1: A Requirement

Origin: Upper Artefact, [tests/data/requirement_twice_in_2_artefacts/upper.md:5](../tests/data/requirement_twice_in_2_artefacts/upper.md?plain=1#L5)

Upwards Tracing:
*   Upper Artefact => [Lower Artefact]
    *   Derived

Downwards Tracing:
*   Upper Artefact => [Lower Artefact]
    *   [COV_1](#cov_1-a-coverage ""A Coverage"")
        Reference: [tests/data/requirement_twice_in_2_artefacts/lower.md:6](../tests/data/requirement_twice_in_2_artefacts/lower.md?plain=1#L6)
## Upper Artefact

### REQ_1: A Requirement

Origin: Upper Artefact, [tests/data/requirement_twice_in_2_artefacts/upper.md:5](../tests/data/requirement_twice_in_2_artefacts/upper.md?plain=1#L5)

Upwards Tracing:
*   Upper Artefact => [Lower Artefact]
    *   Derived

Downwards Tracing:
*   Upper Artefact => [Lower Artefact]
    *   [COV_1](#cov_1-a-coverage ""A Coverage"")
        Reference: [tests/data/requirement_twice_in_2_artefacts/lower.md:6](../tests/data/requirement_twice_in_2_artefacts/lower.md?plain=1#L6)
"),
        ROkay ErrorsDetected).
Proof. vm_compute. reflexivity. Qed.

(** /repo/tests/data/trace_down *)
Definition trace_down_config : omap str toml :=
  [((L "artefacts"), TArr [TTable [((L "id"), TStr (L "Upper")); ((L "ignore_derived_requirements"), TBool true); ((L "parser"), TStr (L "Markdown")); ((L "paths"), TArr [TStr (L "upper.md")])]; TTable [((L "id"), TStr (L "Lower")); ((L "parser"), TStr (L "Markdown")); ((L "paths"), TArr [TStr (L "lower.md")])]]); ((L "jobs"), TTable [((L "trace"), TTable [((L "file"), TStr (L "out/tmx.md")); ((L "format"), TStr (L "Markdown")); ((L "query"), TStr (L "Trace"))])]); ((L "relations"), TArr [TTable [((L "lower"), TArr [TStr (L "Lower")]); ((L "upper"), TStr (L "Upper"))]])].
Definition trace_down_files : list (str * str) :=
  [((L "tests/data/trace_down/lower.md"), (L "
# REQ_LOWER: The Lower Requirement


"));
   ((L "tests/data/trace_down/upper.md"), (L "# REQ_UPPER: The Upper Requirement
Depends: REQ_LOWER
"))].
Example trace_down :
  run_test trace_down_config (L "tests/data/trace_down") trace_down_files [(L "trace")] =
  Some (wrote "tests/data/trace_down/out" "tests/data/trace_down/out/tmx.md" (L "

# Requirements

## Lower

### REQ_LOWER: The Lower Requirement

Origin: Lower, [tests/data/trace_down/lower.md:2](../tests/data/trace_down/lower.md?plain=1#L2)

Upwards Tracing:
*   Upper => [Lower]
    *   [REQ_UPPER](#req_upper-the-upper-requirement ""The Upper Requirement"")
        Reference: [tests/data/trace_down/upper.md:2](../tests/data/trace_down/upper.md?plain=1#L2)

Downwards Tracing:
## Upper

### REQ_UPPER: The Upper Requirement

Origin: Upper, [tests/data/trace_down/upper.md:1](../tests/data/trace_down/upper.md?plain=1#L1)

Upwards Tracing:
    *   Derived

Downwards Tracing:
*   Upper => [Lower]
    *   [REQ_LOWER](#req_lower-the-lower-requirement ""The Lower Requirement"")
        Reference: [tests/data/trace_down/upper.md:2](../tests/data/trace_down/upper.md?plain=1#L2)
"),
        ROkay Success).
Proof. vm_compute. reflexivity. Qed.

(** /repo/tests/data/trace_up *)
Definition trace_up_config : omap str toml :=
  [((L "artefacts"), TArr [TTable [((L "id"), TStr (L "Upper")); ((L "ignore_derived_requirements"), TBool true); ((L "parser"), TStr (L "Markdown")); ((L "paths"), TArr [TStr (L "upper.md")])]; TTable [((L "id"), TStr (L "Lower")); ((L "parser"), TStr (L "Markdown")); ((L "paths"), TArr [TStr (L "lower.md")])]]); ((L "jobs"), TTable [((L "trace"), TTable [((L "file"), TStr (L "out/tmx.md")); ((L "format"), TStr (L "Markdown")); ((L "query"), TStr (L "Trace"))])]); ((L "relations"), TArr [TTable [((L "lower"), TArr [TStr (L "Lower")]); ((L "upper"), TStr (L "Upper"))]])].
Definition trace_up_files : list (str * str) :=
  [((L "tests/data/trace_up/lower.md"), (L "
# REQ_LOWER: The Lower Requirement

Covers: REQ_UPPER

"));
   ((L "tests/data/trace_up/upper.md"), (L "# REQ_UPPER: The Upper Requirement
"))].
Example trace_up :
  run_test trace_up_config (L "tests/data/trace_up") trace_up_files [(L "trace")] =
  Some (wrote "tests/data/trace_up/out" "tests/data/trace_up/out/tmx.md" (L "

# Requirements

## Lower

### REQ_LOWER: The Lower Requirement

Origin: Lower, [tests/data/trace_up/lower.md:2](../tests/data/trace_up/lower.md?plain=1#L2)

Upwards Tracing:
*   Upper => [Lower]
    *   [REQ_UPPER](#req_upper-the-upper-requirement ""The Upper Requirement"")
        Reference: [tests/data/trace_up/lower.md:4](../tests/data/trace_up/lower.md?plain=1#L4)

Downwards Tracing:
## Upper

### REQ_UPPER: The Upper Requirement

Origin: Upper, [tests/data/trace_up/upper.md:1](../tests/data/trace_up/upper.md?plain=1#L1)

Upwards Tracing:
    *   Derived

Downwards Tracing:
*   Upper => [Lower]
    *   [REQ_LOWER](#req_lower-the-lower-requirement ""The Lower Requirement"")
        Reference: [tests/data/trace_up/lower.md:4](../tests/data/trace_up/lower.md?plain=1#L4)
"),
        ROkay Success).
Proof. vm_compute. reflexivity. Qed.

(** /repo/tests/parse_all_artefacts *)
Definition parse_all_artefacts_config : omap str toml :=
  [((L "artefacts"), TArr [TTable [((L "id"), TStr (L "a1")); ((L "parser"), TStr (L "Json")); ((L "paths"), TArr [TStr (L "a1.json")])]; TTable [((L "id"), TStr (L "a2")); ((L "parser"), TStr (L "Json")); ((L "paths"), TArr [TStr (L "a2.json")])]; TTable [((L "id"), TStr (L "readme")); ((L "parser"), TStr (L "MonoRequirement")); ((L "paths"), TArr [TStr (L "readme.md")])]]); ((L "jobs"), TTable [((L "parse"), TTable [((L "file"), TStr (L "out/requirements.json")); ((L "format"), TStr (L "Json")); ((L "query"), TStr (L "Parse"))])]); ((L "relations"), TArr [])].
Definition parse_all_artefacts_files : list (str * str) :=
  [((L "tests/parse_all_artefacts/a1.json"), (L "[
  {
    ""id"": ""ARCH_ARTEFACT"",
    ""title"": ""Artefact"",
    ""location"": {
      ""file"": ""doc/requirements/ARCHITECTURE.md"",
      ""location_in_file"": {
        ""Line"": 69
      }
    },
    ""covers"": [],
    ""depends"": [],
    ""tags"": [],
    ""attributes"": {
    }
  },
  {
    ""id"": ""ARCH_CLI"",
    ""title"": ""Command Line Interface"",
    ""location"": {
      ""file"": ""doc/requirements/ARCHITECTURE.md"",
      ""location_in_file"": {
        ""Line"": 22
      }
    },
    ""covers"": [],
    ""depends"": [],
    ""tags"": [],
    ""attributes"": {
    }
  }
]
"));
   ((L "tests/parse_all_artefacts/a2.json"), (L "[
  {
    ""id"": ""REQ_CACHE_FRIENDLY"",
    ""title"": ""Work well with build systems that cache"",
    ""location"": {
      ""file"": ""doc/requirements/REQUIREMENTS.md"",
      ""location_in_file"": {
        ""Line"": 132
      }
    },
    ""covers"": [],
    ""depends"": [],
    ""tags"": [],
    ""attributes"": {
    }
  },
  {
    ""id"": ""REQ_CONFIG"",
    ""title"": ""Simple Configuration in One File"",
    ""location"": {
      ""file"": ""doc/requirements/REQUIREMENTS.md"",
      ""location_in_file"": {
        ""Line"": 123
      }
    },
    ""covers"": [],
    ""depends"": [],
    ""tags"": [],
    ""attributes"": {
    }
  }
]
"));
   ((L "tests/parse_all_artefacts/readme.md"), (L "Readme's Title
======


Readme Description

Pointing to other requirements:
*   foo => REQ_FOO
*   bar => REQ_BAR


"))].
Example parse_all_artefacts :
  run_test parse_all_artefacts_config (L "tests/parse_all_artefacts") parse_all_artefacts_files [(L "parse")] =
  Some (wrote "tests/parse_all_artefacts/out" "tests/parse_all_artefacts/out/requirements.json" (L "{
  ""version"": 0,
  ""requirements"": [
    {
      ""id"": ""ARCH_ARTEFACT"",
      ""title"": ""Artefact"",
      ""location"": {
        ""file"": ""doc/requirements/ARCHITECTURE.md"",
        ""location_in_file"": {
          ""Line"": 69
        }
      },
      ""covers"": [],
      ""depends"": [],
      ""tags"": [],
      ""attributes"": {}
    },
    {
      ""id"": ""ARCH_CLI"",
      ""title"": ""Command Line Interface"",
      ""location"": {
        ""file"": ""doc/requirements/ARCHITECTURE.md"",
        ""location_in_file"": {
          ""Line"": 22
        }
      },
      ""covers"": [],
      ""depends"": [],
      ""tags"": [],
      ""attributes"": {}
    },
    {
      ""id"": ""REQ_CACHE_FRIENDLY"",
      ""title"": ""Work well with build systems that cache"",
      ""location"": {
        ""file"": ""doc/requirements/REQUIREMENTS.md"",
        ""location_in_file"": {
          ""Line"": 132
        }
      },
      ""covers"": [],
      ""depends"": [],
      ""tags"": [],
      ""attributes"": {}
    },
    {
      ""id"": ""REQ_CONFIG"",
      ""title"": ""Simple Configuration in One File"",
      ""location"": {
        ""file"": ""doc/requirements/REQUIREMENTS.md"",
        ""location_in_file"": {
          ""Line"": 123
        }
      },
      ""covers"": [],
      ""depends"": [],
      ""tags"": [],
      ""attributes"": {}
    },
    {
      ""id"": ""readme"",
      ""title"": ""Readme's Title"",
      ""location"": {
        ""file"": ""tests/parse_all_artefacts/readme.md"",
        ""location_in_file"": null
      },
      ""covers"": [],
      ""depends"": [
        {
          ""id"": ""REQ_FOO"",
          ""title"": null,
          ""location"": {
            ""file"": ""tests/parse_all_artefacts/readme.md"",
            ""location_in_file"": {
              ""Line"": 8
            }
          }
        },
        {
          ""id"": ""REQ_BAR"",
          ""title"": null,
          ""location"": {
            ""file"": ""tests/parse_all_artefacts/readme.md"",
            ""location_in_file"": {
              ""Line"": 9
            }
          }
        }
      ],
      ""tags"": [],
      ""attributes"": {}
    }
  ],
  ""errors"": []
}"),
        ROkay Success).
Proof. vm_compute. reflexivity. Qed.

(** /repo/tests/controller_returns_job_return_code *)
Definition return_code_config : omap str toml :=
  [((L "artefacts"), TArr [TTable [((L "id"), TStr (L "misconfigured_artefact")); ((L "parser"), TStr (L "Json")); ((L "paths"), TArr [])]]); ((L "jobs"), TTable [((L "fails"), TTable [((L "file"), TStr (L "out/requirements.md")); ((L "format"), TStr (L "Markdown")); ((L "query"), TStr (L "Parse"))]); ((L "succeeds"), TTable [((L "file"), TStr (L "out/requirements.md")); ((L "format"), TStr (L "Markdown")); ((L "query"), TStr (L "Parse")); ((L "set_return_code"), TBool false)])]); ((L "relations"), TArr [])].
Definition return_code_files : list (str * str) :=
  [].
Example return_code_1 :
  option_map snd (run_test return_code_config (L "tests/controller_returns_job_return_code") return_code_files [(L "succeeds")]) =
  Some (ROkay Success).
Proof. vm_compute. reflexivity. Qed.
Example return_code_2 :
  option_map snd (run_test return_code_config (L "tests/controller_returns_job_return_code") return_code_files [(L "fails")]) =
  Some (ROkay ErrorsDetected).
Proof. vm_compute. reflexivity. Qed.
Example return_code_3 :
  option_map snd (run_test return_code_config (L "tests/controller_returns_job_return_code") return_code_files [(L "fails"); (L "fails")]) =
  Some (ROkay ErrorsDetected).
Proof. vm_compute. reflexivity. Qed.
Example return_code_4 :
  option_map snd (run_test return_code_config (L "tests/controller_returns_job_return_code") return_code_files [(L "succeeds"); (L "fails")]) =
  Some (ROkay ErrorsDetected).
Proof. vm_compute. reflexivity. Qed.
Example return_code_5 :
  option_map snd (run_test return_code_config (L "tests/controller_returns_job_return_code") return_code_files [(L "fails"); (L "succeeds")]) =
  Some (ROkay ErrorsDetected).
Proof. vm_compute. reflexivity. Qed.
