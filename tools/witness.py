#!/usr/bin/env python3
"""Which parts of the result of tracing does a mutant of Tracer.v change?

usage: witness.py SCRATCH [NAME...]

A proof that fails does not show that its statement has become false.  The claims about the tracer
all rest on one lemma, so for these mutants the results for some graphs are computed with the edited
and the unedited model and compared part by part.  The claims fix each part exactly, so a part that
differs is a counterexample to the claim about this part.  The claims that compare two graphs (C10, C12,
C13, C62-C64) are tested on the edited model by themselves, with the boolean functions below.  Prints one
JSON line for each mutant.
"""
import json, os, re, subprocess, sys
HERE = os.path.dirname(os.path.abspath(__file__))
TH = os.path.join(HERE, '..', 'rocq', 'theories')
sys.path.insert(0, HERE)
from mutants import MUTANTS

PARTS = [('covered', 'C01'), ('uncovered', 'C02'), ('derived', 'C03'), ('unknown references', 'C04'), ('wrong titles', 'C05'),
         ('missing titles', 'C06'), ('duplicates', 'C07'), ('unused relations', 'C08'), ('panics', 'C09'), ('order of relations', 'C11'),
         ('messages without unknown references', 'C90')]
FILES = ['Base', 'OMap', 'Models', 'Tracer', 'TraceSpec']
CHECK = r'''
From Verif Require Import Base OMap Models Tracer TraceSpec.
Open Scope N_scope.
Definition at_line (n : N) : location := new_with_line_no (L "file") n.
Definition rref (id : string) (t : option str) (n : N) := mkReference (L id) t (at_line n).
Definition rreq (id : string) (t : option str) (n : N) (covers depends : list reference) :=
  mkRequirement (L id) t (at_line n) covers depends [] [].
Definition rart (id : string) (ign rwt : bool) (rs : list requirement) : artefact :=
  mkArtefact (L id) [] ign rwt (ocollect (map (fun r => (req_id r, r)) rs)) [].
Definition rgraph (arts : list artefact) (rels : list relation) : graph :=
  mkGraph (ocollect (map (fun a => (art_id a, a)) arts)) rels.
Definition AB := mkRelation (L "A") [L "B"].
Definition ABC := mkRelation (L "A") [L "B"; L "C"].
Definition AC := mkRelation (L "A") [L "C"].
Definition g1 := rgraph [
  rart "A" true true [ rreq "R1" (Some (L "one")) 1 [] [rref "S1" (Some (L "wrong")) 2]; rreq "R2" (Some (L "two")) 5 [] [rref "NOPE" None 6];
    rreq "R3" (Some (L "three")) 8 [] []; rreq "R4" (Some (L "four")) 9 [] [rref "S4" (Some (L "four")) 10; rref "S4" None 11] ];
  rart "B" false false [ rreq "S1" (Some (L "ess")) 1 [rref "R1" None 2] []; rreq "S2" None 5 [rref "R2" (Some (L "owt")) 6; rref "GONE" None 7] [];
    rreq "S3" None 9 [] []; rreq "S4" (Some (L "ruof")) 12 [] []; rreq "S5" None 13 [rref "R2" (Some (L "two")) 14] [] ];
  rart "C" false true [ rreq "S3" None 1 [rref "R3" None 2] []; rreq "T1" None 3 [] [] ] ] [AB; AC].
Definition g2 := rgraph [
  rart "A" true false [rreq "R" None 1 [] [rref "T" None 5]; rreq "Z" None 7 [] []; rreq "ZZ" None 8 [] []];
  rart "B" false false [rreq "X" None 1 [rref "R" None 2] []; rreq "X2" None 2 [rref "R" (Some (L "t")) 3] []];
  rart "C" false true [rreq "X" None 1 [rref "MISSING" None 2] []; rreq "T" None 4 [rref "Z" None 5; rref "A" None 6] [rref "U" None 9; rref "U" None 10]] ] [ABC; AC; AB].
Definition g3 := rgraph [rart "A" true false [rreq "R" None 1 [] []]] [AB].
Definition g4 := rgraph [rart "A" true false []] [AB].
Definition g5 := rgraph [
  rart "A" true true [rreq "R" (Some (L "t")) 1 [] []]; rart "B" false false [rreq "S" None 1 [rref "R" (Some (L "u")) 2] []; rreq "X" None 3 [] []];
  rart "C" false false [rreq "X" None 1 [] [rref "S" None 4]] ] [AB; mkRelation (L "C") [L "B"]].
Definition g6 := rgraph [
  rart "A" true false [rreq "R" None 1 [] [rref "X" None 2]; mkRequirement (L "N") None (new_with_no_pos (L "file")) [] [] [] []];
  rart "B" false false [rreq "X" None 1 [] []]; rart "C" false false [rreq "X" None 2 [] []]; rart "D" false false [rreq "X" None 3 [] []] ] [AC].
Definition kind (e : error) : N := match e with ECoversUnknownRequirement _ _ _ | EDependOnUnknownRequirement _ _ _ => 0 | ECoveredWithWrongTitle _ _ _ _ | EDependWithWrongTitle _ _ _ _ => 1
  | EReferencedWithoutTitle _ _ => 2 | EDuplicateRequirement _ _ => 3 | EUnusedRelation _ => 4 | _ => 5 end.
Definition on {A} (g : graph) (f : traced_graph -> A) := match trace g with Done t => Some (f t) | Panic => None end.
Definition along {A} (g : graph) (f : traced_relation -> A) :=
  on g (fun t => map (fun rel => map f (filter (fun r => eqb (tr_relation r) rel) (tg_relations t))) (g_relations g)).
Definition errs (g : graph) (n : N) := on g (fun t => filter (fun e => N.eqb (kind e) n) (tg_errors t)).
Definition line (l : location) : N := match loc_in_file l with Some (Line n) => n | _ => 0 end.
Definition ekey (e : error) : list str := match e with
  | ECoversUnknownRequirement r id l => [[0]; req_id r; id; [line l]]
  | EDependOnUnknownRequirement r id l => [[1]; req_id r; id; [line l]]
  | ECoveredWithWrongTitle u l t loc => [[2]; req_id u; req_id l; t; [line loc]]
  | EDependWithWrongTitle u l t loc => [[3]; req_id u; req_id l; t; [line loc]]
  | EReferencedWithoutTitle r l => [[4]; req_id r; [line l]]
  | EDuplicateRequirement a b => [[5]; req_id a; [line (req_location a)]; [line (req_location b)]]
  | EUnusedRelation r => [6] :: rel_upper r :: rel_lower r
  | _ => [[7]] end.
(* the claims about unknown references do not fix their order *)
Fixpoint put (x : list str) (l : list (list str)) := match l with [] => [x] | y :: l' => match cmp x y with Gt => y :: put x l' | _ => x :: l end end.
Definition sorted_errs (g : graph) (n : N) := option_map (fun l => fold_right put [] (map ekey l)) (errs g n).
'''

META = r"""
Definition ckey (c : coverage) : list str :=
  [cov_upper c; cov_lower c; [line (cov_location c); match cov_direction c with Upwards => 0 | Downwards => 1 end]].
Definition rkey (t : traced_relation) : list str :=
  rel_upper (tr_relation t) :: rel_lower (tr_relation t) ++ [0] :: flat_map ckey (tr_covered t) ++ [1] :: tr_uncovered t.
Definition dkey (t : traced_graph) : list str := flat_map (fun d => [0] :: fst d :: snd d) (tg_derived t).
Definition same {A} `{Ord A} (x y : list A) : bool :=
  forallb (fun k => Nat.eqb (length (filter (eqb k) x)) (length (filter (eqb k) y))) (x ++ y).
Definition within {A} `{Ord A} (x y : list A) : bool := forallb (fun k => existsb (eqb k) y) x.
Definition all_eq {A} `{Ord A} (x y : list A) : bool := Nat.eqb (length x) (length y) && forallb (fun p => eqb (fst p) (snd p)) (combine x y).
(* nothing is said about panics *)
Definition both (g h : graph) (f : traced_graph -> traced_graph -> bool) : bool :=
  match trace g, trace h with Done t, Done u => f t u | _, _ => true end.
Definition with_rels (g : graph) (f : list relation -> list relation) := mkGraph (g_artefacts g) (f (g_relations g)).
Definition c10 (g : graph) := both g (with_rels g (@rev _)) (fun t u =>
  all_eq (map rkey (tg_relations t)) (rev (map rkey (tg_relations u))) && all_eq (dkey t) (dkey u) &&
  same (map ekey (tg_errors t)) (map ekey (tg_errors u))).
Definition unknown (t : traced_graph) := map ekey (filter (fun e => N.eqb (kind e) 0) (tg_errors t)).
Definition known (t : traced_graph) := map ekey (filter (fun e => negb (N.eqb (kind e) 0)) (tg_errors t)).
Fixpoint common {A} `{Ord A} (x y : list A) : nat := match x, y with a :: x', b :: y' => if eqb a b then S (common x' y') else O | _, _ => O end.
Definition inserted {A} `{Ord A} (x y : list A) : bool := Nat.leb (length x) (common x y + common (rev x) (rev y)).
Definition without {A} (n : nat) (l : list A) := firstn n l ++ skipn (S n) l.
Definition at_all (g : graph) (f : nat -> bool) := forallb f (seq 0 (length (g_relations g))).
Definition c12 (g : graph) := at_all g (fun n => both g (with_rels g (without n)) (fun t u =>
  within (flat_map snd (tg_derived t)) (flat_map snd (tg_derived u)) && within (unknown t) (unknown u) &&
  inserted (known u) (known t) && all_eq (without n (map rkey (tg_relations t))) (map rkey (tg_relations u)))).
Definition c13 (g : graph) := both g g (fun t _ =>
  forallb (fun r =>
    forallb (fun x => existsb (fun c => eqb (cov_upper c) (ref_id x) && eqb (cov_lower c) (req_id r)) (flat_map tr_covered (tg_relations t)) ||
                      existsb (fun k => all_eq (firstn 3 k) [[0]; req_id r; ref_id x]) (unknown t)) (req_covers r) &&
    forallb (fun x => existsb (fun c => eqb (cov_lower c) (ref_id x) && eqb (cov_upper c) (req_id r)) (flat_map tr_covered (tg_relations t)) ||
                      existsb (fun k => all_eq (firstn 3 k) [[1]; req_id r; ref_id x]) (unknown t)) (req_depends r))
    (flat_map (fun a => ovalues (art_requirements a)) (ovalues (g_artefacts g)))).
Definition uncov (t : traced_graph) := flat_map (fun r => [0] :: tr_uncovered r) (tg_relations t).
Definition c62 (g h : graph) := both g h (fun t u => all_eq (dkey t) (dkey u) && all_eq (uncov t) (uncov u)).
Definition split_at (n : nat) (l : list relation) := match skipn n l with
  | r :: l' => match rel_lower r with x :: y => firstn n l ++ mkRelation (rel_upper r) [x] :: mkRelation (rel_upper r) y :: l' | [] => l end | [] => l end.
Definition other (t : traced_graph) := map ekey (filter (fun e => negb (N.eqb (kind e) 4)) (tg_errors t)).
Definition c63 (g : graph) := at_all g (fun n => both g (with_rels g (split_at n)) (fun t u =>
  all_eq (firstn n (map rkey (tg_relations t))) (firstn n (map rkey (tg_relations u))) && all_eq (skipn (S n) (map rkey (tg_relations t))) (skipn (S (S n)) (map rkey (tg_relations u))) &&
  all_eq (dkey t) (dkey u) && same (other t) (other u) &&
  same (map ckey (flat_map tr_covered (tg_relations t))) (map ckey (flat_map tr_covered (tg_relations u))) &&
  match skipn n (tg_relations t), skipn n (tg_relations u) with
  | r :: _, b :: a :: _ => all_eq (tr_uncovered r) (filter (fun x => existsb (eqb x) (tr_uncovered b)) (tr_uncovered a))
  | _, _ => true end)).
Fixpoint increasing {A} `{Ord A} (l : list A) : bool := match l with a :: (b :: _) as l' => match cmp a b with Lt => true | _ => false end && increasing l' | _ => true end.
Definition c90 (g : graph) := both g g (fun t _ => increasing (flat_map (fun e => match e with
    | EDuplicateRequirement _ _ => [] | ECoversUnknownRequirement r u _ => [[[1]; u; req_id r]] | EDependOnUnknownRequirement r l _ => [[[2]; req_id r; l]] | _ => [] end) (tg_errors t)) &&
  (fix go l := match l with a :: (b :: _) as l' => N.leb a b && go l' | _ => true end) (map (fun e => match e with
    | EDuplicateRequirement _ _ => 0 | ECoversUnknownRequirement _ _ _ => 2 | EDependOnUnknownRequirement _ _ _ => 3 | _ => 1 end) (tg_errors t))).
Definition extra (ign : bool) := rart "M" ign true [rreq "M1" None 1 [rref "R1" None 2; rref "R" None 3; rref "GONE" None 4] [rref "S1" None 5; rref "X" None 6];
                                         rreq "M2" None 9 [] [rref "M1" None 10; rref "M1" None 11]].
Definition c64 (ign : bool) (g : graph) := both g (mkGraph (oins (L "M") (extra ign) (g_artefacts g)) (g_relations g)) (fun t u =>
  all_eq (map rkey (tg_relations t)) (map rkey (tg_relations u)) &&
  all_eq (flat_map (fun d => [0] :: fst d :: snd d) (filter (fun d => negb (eqb (fst d) (L "M"))) (tg_derived u))) (dkey t) &&
  match oget (L "M") (tg_derived u) with Some d => all_eq d (if ign then [] else [L "M1"; L "M2"]) | None => false end &&
  same (map ekey (tg_errors u)) (map ekey (tg_errors t) ++
    [[[0]; L "M1"; L "R1"; [2]]; [[0]; L "M1"; L "R"; [3]]; [[0]; L "M1"; L "GONE"; [4]];
     [[1]; L "M1"; L "S1"; [5]]; [[1]; L "M1"; L "X"; [6]]; [[1]; L "M2"; L "M1"; [10]]])).
Definition BAC := mkRelation (L "A") [L "C"; L "B"].
Definition g7 := rgraph [
  rart "A" true true [rreq "R" (Some (L "t")) 1 [] [rref "S" None 2; rref "T" (Some (L "no")) 3]; rreq "R0" None 4 [rref "GO" None 5; rref "GO2" None 6] []];
  rart "B" false false [rreq "S" None 1 [rref "R" (Some (L "u")) 2; rref "R0" None 3] []; rreq "X" None 3 [] [rref "NN" None 7]];
  rart "C" false false [rreq "T" None 1 [] [rref "S" None 4]; rreq "Y" None 2 [] [rref "MM" None 3; rref "MM2" None 4]] ]
  [mkRelation (L "C") [L "B"]; AB; ABC].
Definition side (a b c : list reference) (d e f : list reference) := rgraph [
  rart "A" true false [rreq "R" None 1 [] d; rreq "Q" None 2 [] e; rreq "P" None 2 [] f];
  rart "B" false false [rreq "S" None 1 a []; rreq "T" None 2 b []]; rart "C" false false [rreq "U" None 3 c []] ] [AB; ABC].
Definition r (id : string) := rref id None 7.
Definition s1 := side [r "R"] [r "R"; r "Q"] [r "Q"] [] [] [].
Definition s2 := side [] [] [] [r "S"; r "T"] [r "T"; r "U"] [].
Definition s3 := side [r "R"] [r "Q"; r "Q"] [] [r "T"; r "S"] [r "U"] [].
Definition gs := [g1; g2; g3; g4; g5; g6; g7; s1; s2; s3].
Eval vm_compute in ("META"%string, map (forallb (fun b => b))
  [ map c10 gs; map c12 gs; map c13 [g7; s1; s2; s3]; [c62 s1 s2; c62 s1 s3; c62 s2 s3]; map c63 [g7; s1; s2; s3; with_rels g1 (fun _ => [ABC]); with_rels g2 (fun _ => [BAC])];
    map (c64 false) gs ++ map (c64 true) gs; map c90 gs ]).
"""
METAS = ['C10', 'C12', 'C13', 'C62', 'C63', 'C64', 'C90']

GRAPHS = ['g1', 'g2', 'g3', 'g4', 'g5', 'g6']
TERMS = ['along %s tr_covered', 'along %s tr_uncovered',
         'on %s tg_derived', 'sorted_errs %s 0', 'errs %s 1', 'errs %s 2', 'errs %s 3', 'errs %s 4', 'on %s (fun _ => tt)',
         'on %s (fun t => map tr_relation (tg_relations t))',
         'on %s (fun t => filter (fun e => negb (N.eqb (kind e) 0)) (tg_errors t))']
QUERIES = ['Eval vm_compute in ("PART"%string, ' + t % g + ').\n' for g in GRAPHS for t in TERMS]

def results(scratch, edits):
    d = os.path.join(scratch, 'w')
    subprocess.run(['mkdir', '-p', d])
    for f in FILES:
        t = open(os.path.join(TH, f + '.v')).read()
        for file, old, new in edits:
            if file == f + '.v':
                assert t.count(old) == 1
                t = t.replace(old, new)
        p = os.path.join(d, f + '.v')
        if not os.path.exists(p) or open(p).read() != t or not os.path.exists(p + 'o') or f in ('Tracer', 'TraceSpec'):
            open(p, 'w').write(t)
            r = subprocess.run(['coqc', '-Q', '.', 'Verif', f + '.v'], cwd=d, stdout=subprocess.PIPE, stderr=subprocess.STDOUT, text=True)
            assert r.returncode == 0, r.stdout
    open(os.path.join(d, 'Check.v'), 'w').write(CHECK + ''.join(QUERIES) + META)
    r = subprocess.run(['coqc', '-Q', '.', 'Verif', 'Check.v'], cwd=d, stdout=subprocess.PIPE, stderr=subprocess.STDOUT, text=True)
    assert r.returncode == 0, r.stdout
    text, meta = r.stdout.split('"META"')
    parts = text.split('"PART"')[1:]
    meta = re.findall('true|false', meta)
    assert len(meta) == len(METAS), meta
    assert len(parts) == len(QUERIES)
    n = len(PARTS)
    return [parts[i:i + n] for i in range(0, len(parts), n)], {c for c, b in zip(METAS, meta) if b == 'false'}

PANIC = 8
scratch, names = sys.argv[1], sys.argv[2:]
base, none = results(scratch, [])
assert not none, none
for x in MUTANTS:
    if x['definition'].startswith('Tracer.') and (not names or x['name'] in names):
        diff = set()
        now, meta = results(scratch, x['edits'])
        for a, b in zip(base, now):
            # a result that is missing says nothing about its parts
            diff |= {PANIC} if a[PANIC] != b[PANIC] else {i for i in range(len(PARTS)) if a[i] != b[i]}
        print(json.dumps({'name': x['name'], 'claim': x['claim'], 'parts': [PARTS[i][0] for i in sorted(diff)],
                          'claims_false': [c for c in [PARTS[i][1] for i in sorted(diff)] if c not in meta] + sorted(meta)}), flush=True)
