#!/usr/bin/env python3
"""Translate the shipped example rotations into rocq/theories/Data_Examples.v.

Reads /repo/ama_xiv_combat_sim/example_rotations/*/*.py as text (parsed with
`ast`, never executed).  The tables are literals; the code around them is checked
to be one of the two known forms, which differ in enable_autos.

usage: gen_examples.py [repo] [output directory]
"""
import ast
import sys

REPO = sys.argv[1] if len(sys.argv) > 1 else "/repo"
OUT = sys.argv[2] if len(sys.argv) > 2 else "/verif/rocq/theories"
BASE = REPO + "/ama_xiv_combat_sim/example_rotations/"
KEYS = {"stats", "skills", "party_skills", "start_version", "end_version"}
STATS = ["wd", "main_stat", "det_stat", "dh_stat", "crit_stat", "speed_stat"]

ADD = '''def add_{j}_rotations(skill_library, rotation_library):
    all_{j}_rotations.set_version(skill_library.get_version())
    all_{j}_rotations.set_level(skill_library.get_level())
    for rotation_key in all_{j}_rotations.rotations:
        if not all_{j}_rotations.rotation_is_valid(rotation_key):
            continue
        '''
AUTOS = ADD + '''add_to_rotation_library(ExampleRotationUtils.get_example_rotation(skill_library, rotation_key, all_{j}_rotations), rotation_library)
    return rotation_library'''
NO_AUTOS = ADD + '''stats = all_{j}_rotations.get_stats(rotation_key)
        rb = RotationBuilder(stats, skill_library, ignore_trailing_dots=True, snap_dots_to_server_tick_starting_at=0)
        add_to_rotation_library(ExampleRotationUtils.get_example_rotation_with_rb(rotation_key, rb, all_{j}_rotations), rotation_library)
    return rotation_library'''


def s(x):
    assert all(32 <= ord(c) < 127 for c in x), x
    return '"' + x.replace('"', '""') + '"'


def lst(xs):
    return "[" + "; ".join(xs) + "]"


def opt(x):
    return "None" if x is None else f"(Some {x})"


def decimal(n):
    """A decimal literal as [dec numerator denominator]."""
    t = ast.unparse(n)
    a, _, b = t.partition(".")
    return f"(dec {int(a + b)} {10 ** len(b)})"


def order():
    """The jobs in the order of get_example_rotations.py."""
    main = ast.parse(open(BASE + "get_example_rotations.py").read())
    f = [n for n in main.body if isinstance(n, ast.FunctionDef)][0]
    calls = [ast.unparse(n.value.func) for n in f.body if isinstance(n, ast.Expr)]
    assert [ast.unparse(f.body[0]), ast.unparse(f.body[-1])] == ["res = {}", "return res"]
    for c in calls:
        assert ast.unparse(main).count(f"{c}(skill_library, res)") == 1
        t = ast.parse(open(BASE + c + ".py").read())
        g = [n for n in t.body if isinstance(n, ast.FunctionDef)][0]
        role = c.split("_")[1]
        for n in g.body:
            name = ast.unparse(n.value.func)
            assert ast.unparse(n) == f"{name}(skill_library, rotation_library)", ast.unparse(n)
            yield role, name.split("_")[1]


def emit(role, j):
    code = ast.parse(open(BASE + f"{role}/{j}.py").read())
    f = [n for n in code.body if isinstance(n, ast.FunctionDef)]
    assert len(f) == 1 and all(isinstance(n, (ast.ImportFrom, ast.FunctionDef)) for n in code.body)
    autos = {ast.unparse(ast.parse(AUTOS.format(j=j))): "true", ast.unparse(ast.parse(NO_AUTOS.format(j=j))): "false"}[ast.unparse(f[0])]
    data = ast.parse(open(BASE + f"{role}/{j}_data.py").read())
    table = None
    for n in data.body:
        if isinstance(n, ast.ImportFrom):
            continue
        t = ast.unparse(n)
        if isinstance(n, ast.Assign) and isinstance(n.value, ast.Dict):
            table = n
        else:
            assert t in (f"all_{j}_rotations = SpecificRotations()",
                         f"for k, v in {table and table.targets[0].id}.items():\n    all_{j}_rotations.add_rotation_data(k, v)"), t
    rots = []
    for k, levels in zip(table.value.keys, table.value.values):
        ls = []
        for lv, x in zip(levels.keys, levels.values):
            d = {a.value: b for a, b in zip(x.keys, x.values)}
            assert len(d) == len(x.keys) and set(d) <= KEYS, d.keys()
            st = {a.value: b.value for a, b in zip(d["stats"].keys, d["stats"].values)}
            assert set(st) <= set(STATS + ["tenacity", "job_class"]), st
            assert all(isinstance(v, int) for a, v in st.items() if a != "job_class")
            party = []
            for p in (d["party_skills"].elts if "party_skills" in d else []):
                assert len(p.elts) == 3
                party.append(f"mkParty {decimal(p.elts[0])} {s(p.elts[1].value)} {s(p.elts[2].value)} None")
            skills = [s(e.value) for e in d["skills"].elts]
            end = s(d["end_version"].value) if "end_version" in d else None
            ten = st.get("tenacity")
            ls.append(f"({lv.value}, mkExample {' '.join(str(st[a]) for a in STATS)} {opt(ten)} {s(st['job_class'])}\n"
                      f"      {lst(party)}\n      {lst(skills)}\n      {s(d['start_version'].value)} {opt(end)})")
        assert len({lv.value for lv in levels.keys}) == len(ls)
        rots.append(f"({s(k.value)}, [{'; '.join(ls)}])")
    assert len({k.value for k in table.value.keys}) == len(rots)
    body = lst(rots).replace("; ", ";\n    ") if False else "[" + ";\n    ".join(rots) + "]"
    return (f"(** example_rotations/{role}/{j}_data.py lines {table.lineno}-{table.end_lineno} and "
            f"example_rotations/{role}/{j}.py lines {f[0].lineno}-{f[0].end_lineno} *)\n"
            f"Definition {j}_examples : example_file := mkExampleFile {autos}\n  {body}.\n")


def fold(text, width=116):
    out = []
    for line in text.split("\n"):
        indent = len(line) - len(line.lstrip())
        while len(line) > width:
            cut = line.rfind("; ", 0, width)
            if cut < 0:
                break
            out.append(line[:cut + 1])
            line = " " * (indent + 1) + line[cut + 2:]
        out.append(line)
    return "\n".join(out)


def main():
    names, parts = [], []
    for role, j in order():
        names.append(f"{j}_examples")
        parts.append(emit(role, j))
    head = ("(** * The shipped example rotations.\n\n    Generated by tools/gen_examples.py from example_rotations/. *)\n\n"
            "From Coq Require Import ZArith QArith List String.\nFrom Verif Require Import Float Csv Examples.\n"
            "Import ListNotations.\nOpen Scope string_scope.\nOpen Scope Z_scope.\n\n")
    tail = ("\n(** get_example_rotations.py lines 8-16 and the add_*_rotations_to_rotation_library.py files, in order *)\n"
            f"Definition example_files : list example_file :=\n  {lst(names)}.\n")
    open(f"{OUT}/Data_Examples.v", "w").write(fold(head + "\n".join(parts) + tail))


main()
