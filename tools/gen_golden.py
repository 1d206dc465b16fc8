#!/usr/bin/env python3
"""Writes rocq/theories/Golden.v: the project's own data tests (/repo/tests) as examples of the
model.  Each example runs the model on the files of a test and compares the text of the output
file and the result with what the test expects."""
import os, tomllib

REPO = "/repo"
HERE = os.path.dirname(os.path.abspath(__file__))
OUT = os.path.join(HERE, "..", "rocq", "theories", "Golden.v")

def lit(data):
    text = data.decode("ascii") if isinstance(data, bytes) else data
    return '(L "' + text.replace('"', '""') + '")'

def value(v):
    if isinstance(v, bool):
        return "TBool " + ("true" if v else "false")
    if isinstance(v, str):
        return "TStr " + lit(v)
    if isinstance(v, int):
        return f"TInt {v}"
    if isinstance(v, list):
        return "TArr [" + "; ".join(value(x) for x in v) + "]"
    if isinstance(v, dict):
        return "TTable " + table(v)
    raise ValueError(v)

def table(d):
    return "[" + "; ".join(f"({lit(k)}, {value(d[k])})" for k in sorted(d)) + "]"

def read(*p):
    with open(os.path.join(REPO, *p), "rb") as f:
        return f.read()

out = ["""(** The project's own tests in /repo/tests, run on the model.

    Written by tools/gen_golden.py from /repo/tests/data, /repo/tests/parse_all_artefacts and
    /repo/tests/controller_returns_job_return_code: the configuration (as a TOML value), the input
    files, the expected output files and results are copied.  These examples are tests of the
    model, not proofs about it. *)
From Verif Require Import Base OMap Models Unicode Utf8 Paths MdParser MonoParser RustParser Tracer
  Show Sort Serialize MdFmt Formatters Controller CtlExamples Config SerdeJson.
Open Scope N_scope.

(** The files of a test, the world it runs in, and what it did and returned. *)
Definition test_open (files : list (str * str)) (p : path) : reader + str :=
  match find (fun e => str_eqb (fst e) p) files with
  | Some e => inl (mkReader (snd e) None)
  | None => inr (L "No such file or directory (os error 2)")
  end.
Definition test_inputs (files : list (str * str)) : Inputs := {|
  in_open := test_open files;
  in_glob := fun _ => inl [];
  in_syn := fun _ => inl (NOther []);
  in_debug_tokens := fun _ => [];
  in_json := from_reader;
  in_json_error := fun _ => L "no JSON"
|}.
Definition test_outputs : Outputs := {|
  out_parent := fun p => match rsplit_once SLASH p with Some (d, _) => Some d | None => None end;
  out_make_dirs := fun _ _ => None;
  out_create := fun _ _ => None;
  out_write := fun _ _ _ => None
|}.
Definition run_test (doc : omap str toml) (base : path) (files : list (str * str)) (jobs : list str)
  : option (history * result job_success) :=
  match to_config doc with
  | None => None
  | Some cf =>
      match @controller_new ascii_tables sample_debug (test_inputs files) cf base with
      | Panic => None
      | Done ctl => Some (@run_jobs_by_name sample_debug stable_is_unstable ascii_case serde_json
                            test_outputs ctl jobs [])
      end
  end.
Definition wrote (dir file : string) (text : str) : history :=
  [EvMakeDirs (L dir) None; EvCreate (L file) None; EvWrite (ToFile (L file)) text None].
"""]

def case(name, base, jobs, success, out_file):
    doc = tomllib.loads(read(base, "config.toml").decode())
    doc.pop("test", None)
    ins = []
    for f in sorted(os.listdir(os.path.join(REPO, base))):
        if f not in ("config.toml", "expected", "out") and os.path.isfile(os.path.join(REPO, base, f)):
            ins.append(f"({lit(base + '/' + f)}, {lit(read(base, f))})")
    files = "[" + ";\n   ".join(ins) + "]"
    out.append(f"(** /repo/{base} *)\nDefinition {name}_config : omap str toml :=\n  {table(doc)}.\n"
               f"Definition {name}_files : list (str * str) :=\n  {files}.")
    if out_file:
        text = lit(read(base, "expected", out_file))
        js = "[" + "; ".join(lit(j) for j in jobs) + "]"
        out.append(f"Example {name} :\n  run_test {name}_config {lit(base)} {name}_files {js} =\n"
                   f'  Some (wrote "{base}/out" "{base}/out/{out_file}" {text},\n        ROkay {success}).\n'
                   "Proof. vm_compute. reflexivity. Qed.\n")

for d in sorted(os.listdir(os.path.join(REPO, "tests/data"))):
    t = tomllib.loads(read("tests/data", d, "config.toml").decode())["test"]
    assert len(t["out_files"]) == 1
    case(d, "tests/data/" + d, t["jobs"], t["success"], t["out_files"][0])

case("parse_all_artefacts", "tests/parse_all_artefacts", ["parse"], "Success", "requirements.json")
name, base = "return_code", "tests/controller_returns_job_return_code"
case(name, base, [], None, None)
for i, (jobs, success) in enumerate([(["succeeds"], "Success"), (["fails"], "ErrorsDetected"),
                                     (["fails", "fails"], "ErrorsDetected"),
                                     (["succeeds", "fails"], "ErrorsDetected"),
                                     (["fails", "succeeds"], "ErrorsDetected")]):
    js = "[" + "; ".join(lit(j) for j in jobs) + "]"
    out.append(f"Example {name}_{i + 1} :\n  option_map snd (run_test {name}_config {lit(base)} {name}_files {js}) =\n"
               f"  Some (ROkay {success}).\nProof. vm_compute. reflexivity. Qed.")

with open(OUT, "w") as f:
    f.write("\n".join(out) + "\n")
