#!/usr/bin/env python3
"""Writes rocq/theories/SelfTrace.v: the project traces itself.  The documents and the
configuration of /repo are copied; the syntax trees of the Rust sources are reduced to the calls of
requirement_covered! with the scopes around them (a scan by indentation); the expected text is
/repo/reports/tmx.md, which is part of the repository."""
import glob, os, re, tomllib
from gen_golden import lit, table, REPO, read
HERE = os.path.dirname(os.path.abspath(__file__))
OUT = os.path.join(HERE, "..", "rocq", "theories", "SelfTrace.v")

def tree(path):
    lines = open(path).read().split("\n")
    scopes = {}   # (line, col, kind, name, parent) -> marks
    stack = []
    for no, l in enumerate(lines, 1):
        if "#[cfg(test)]" in l:
            break
        ind = len(l) - len(l.lstrip())
        if l.strip():
            while stack and stack[-1][0] >= ind:
                if l.strip() in ("}", ") -> Vec<PathBuf> {") or l.strip().startswith(")"):
                    break
                stack.pop()
        m = re.match(r"\s*(?:pub )?fn (\w+)", l)
        if m:
            kind = "KImplMethod" if stack and stack[-1][1] == "impl" else "KFn"
            stack.append((ind, kind, m.group(1), (no, m.start(1))))
        m = re.match(r"impl(?:<.*?>)? (.*?) \{", l)
        if m and " for " not in l:
            ty = re.sub(r"<'_>", " < '_ >", m.group(1))
            stack.append((ind, "impl", ty, (no, m.start(1))))
        m = re.match(r"\s*requirement_covered!\(", l)
        if m and stack:
            text = l[m.end():]
            k = no
            while ")" not in text:
                text += " " + lines[k].strip(); k += 1
            text = text[:text.rindex(")")]
            a = re.match(r'\s*(\w+)\s*(?:([,:])\s*("[^"]*")\s*)?$', text)
            toks = [f"TokIdent {lit(a.group(1))} (0, 0)"]
            if a.group(2):
                toks += [f"TokOther {lit(a.group(2))} (0, 0)", f"TokOther {lit(a.group(3))} (0, 0)"]
            mark = f'NExprMacro [(L "requirement_covered", ({no}, {ind}))] [' + "; ".join(toks) + "]"
            scopes.setdefault(tuple(stack), []).append(mark)
    out = []
    for st, marks in scopes.items():
        t = "[" + ";\n     ".join(marks) + "]"
        for ind, kind, name, (no, col) in reversed(st):
            if kind == "impl":
                t = f"[NImpl {lit(name)} None ({no}, {col}) {t}]"
            else:
                t = f"[NScope {kind} {lit(name)} ({no}, {col})\n    {t}]"
        out.append(t[1:-1])
    return "NOther [" + ";\n   ".join(out) + "]"

docs = ["README.md"] + ["doc/requirements/" + x for x in ("REQUIREMENTS.md", "ARCHITECTURE.md", "DESIGN.md", "FORMATS.md")]
sources = sorted(os.path.relpath(p, REPO) for p in glob.glob(REPO + "/src/**/*.rs", recursive=True))
config = tomllib.loads(read("requirements.toml").decode())

def main():
    report = read("reports/tmx.md").decode("ascii")
    parts = [report[i:i + 8000] for i in range(0, len(report), 8000)]
    out = ["""(** The project traces itself: /repo/requirements.toml with the documents of /repo gives, in the
    model, the text of /repo/reports/tmx.md, character by character.

    Written by tools/gen_self.py.  The documents, the configuration (as a TOML value) and the report are
    copies.  A Rust source is represented by its path, and its syntax tree by the calls of
    requirement_covered! with the scopes around them.  This is a test of the model, not a proof
    about it. *)
From Verif Require Import Base OMap Models Unicode Utf8 Paths MdParser MonoParser RustParser Tracer
  Show Sort Serialize MdFmt Formatters Controller CtlExamples Config SerdeJson Golden.
Open Scope N_scope.
"""]
    out.append("Definition self_config : omap str toml :=\n  " + table(config) + ".")
    out.append("Definition self_sources : list (str * node) :=\n  [" + ";\n   ".join(f"({lit(s)}, {tree(os.path.join(REPO, s))})" for s in sources) + "].")
    out.append("Definition self_documents : list (str * str) :=\n  [" + ";\n   ".join(f"({lit('./' + d)}, {lit(read(d))})" for d in docs) + "].")
    out.append("""Definition self_inputs : Inputs := {|
  in_open := fun p =>
    if existsb (fun e => str_eqb (fst e) p) self_sources then inl (mkReader p None) else test_open self_documents p;
  in_glob := fun pattern =>
    if str_eqb pattern (L "./src/**/*.rs") then inl (map (fun e => inl (fst e)) self_sources) else inl [inl pattern];
  in_syn := fun text =>
    match find (fun e => str_eqb (fst e) text) self_sources with Some e => inl (snd e) | None => inl (NOther []) end;
  in_debug_tokens := fun _ => [];
  in_json := from_reader;
  in_json_error := fun _ => L "no JSON"
|}.
""" + "\n".join(f"Definition self_report_{i} : str :=\n  {lit(c)}." for i, c in enumerate(parts)) + """
Definition self_report : str := concat [""" + "; ".join(f"self_report_{i}" for i in range(len(parts))) + """].

(** Compared by a function, since a term of this size is too deep for the unifier. *)
Definition self_run : option (history * result job_success) :=
  match to_config self_config with
  | Some cf =>
      match @controller_new ascii_tables sample_debug self_inputs cf (L ".") with
      | Done ctl => Some (@run_jobs_by_name sample_debug stable_is_unstable ascii_case serde_json test_outputs ctl [L "tmx"] [])
      | Panic => None
      end
  | None => None
  end.
Example self_trace :
  match self_run with
  | Some ([EvMakeDirs dir None; EvCreate file1 None; EvWrite (ToFile file2) text None], ROkay Success) =>
      str_eqb dir (L "./reports") && str_eqb file1 (L "./reports/tmx.md") && str_eqb file2 (L "./reports/tmx.md") &&
      str_eqb text self_report
  | _ => false
  end = true.
Proof. vm_compute. reflexivity. Qed.""")
    open(OUT, "w").write("\n".join(out) + "\n")
if __name__ == "__main__":
    main()
